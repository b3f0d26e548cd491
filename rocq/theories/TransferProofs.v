(** Proofs about chunk transfers (C45-C52). *)
From Verif Require Export TransferSpec.
From Verif Require Import HashProofs ChunkProofs MessagesProofs.
From Coq Require Import ZifyBool ZifyNat ZifyN.
Ltac Zify.zify_post_hook ::= Z.div_mod_to_equations.

(** ** The reader of a chunk *)
Definition rd_at (l : list byte) (cs i pos : nat) : creader :=
  mkReader (sec_at cs i pos) (sha1 (chunk_bytes l cs i)) (Z.of_nat (length (chunk_bytes l cs i))).
Lemma ncr_mono f1 : forall f2 f s acc r, f1 <= f2 -> ncr_loop f1 f s acc = Some r -> ncr_loop f2 f s acc = Some r.
Proof.
  induction f1 as [|f1 IH]; intros f2 f s acc r Hle; [done|].
  destruct f2 as [|f2]; [lia|]. cbn [ncr_loop]. destruct (sec_read f s 4096) as [[d e] s'].
  destruct (decide (e = Some EOF)); [done|]. apply IH; lia.
Qed.
Lemma reader_at l cs i fuel rd : (Z.of_nat cs < 4294967296)%Z -> (Z.of_nat i < 65536)%Z ->
  new_chunk_reader fuel (FRegular l) (chunk_section (Z.of_nat i) (Z.of_nat cs)) = Some rd ->
  rd = rd_at l cs i 0.
Proof.
  intros Hcs Hi H. rewrite chunk_section_at in H by nia. unfold new_chunk_reader in H.
  destruct (ncr_loop fuel _ _ _) as [[a s]|] eqn:E; [|done].
  set (F := fuel + S (length (chunk_bytes l cs i))).
  destruct (ncr_loop_at l cs i F 0 []) as (s' & Hs & Hb & Hl); [lia|lia|].
  rewrite (ncr_mono fuel F _ _ _ _ ltac:(lia) E) in Hs. cbn [app] in Hs. rewrite drop_0 in Hs.
  injection Hs as -> ->. injection H as <-. unfold rd_at. f_equal.
  - unfold sec_rewind, sec_at. rewrite Hb, Hl. f_equal; lia.
  - unfold from_slice. apply gocopy_full. rewrite sha1_length. done.
Qed.

(** ** Packet numbers *)
Lemma first_eof_bounds cs bytes : 1 <= first_eof cs bytes <= first_empty bytes.
Proof.
  unfold first_eof. destruct (decide (ragged cs bytes)) as [[H1 H2]|H].
  - unfold first_empty. split; [|lia]. lia.
  - unfold first_empty. lia.
Qed.
Lemma stream_pos_le bytes j : stream_pos bytes j <= length bytes.
Proof. unfold stream_pos. lia. Qed.
Lemma eof_flag cs bytes j : length bytes <= cs ->
  ((cs <=? stream_pos bytes j)%nat || (Nat.min 1024 (length bytes - stream_pos bytes j) <? Nat.min 1024 (cs - stream_pos bytes j))%nat)
  = bool_decide (first_eof cs bytes <= S j).
Proof.
  intros H. apply eq_bool_prop_intro. rewrite bool_decide_spec, orb_True, !Is_true_true, Nat.leb_le, Nat.ltb_lt.
  unfold first_eof, first_empty, stream_pos, ragged. destruct (decide _) as [[H1 H2]|H1].
  - lia.
  - set (n := length bytes) in *. clearbody n.
    assert (n <= 1000 \/ cs <= n \/ (n - 1000) mod 1024 = 0) as Hn.
    { destruct (decide (n <= 1000)); [by left|]. destruct (decide (cs <= n)); [by right; left|].
      right; right. destruct (decide ((n - 1000) mod 1024 = 0)); [done|]. destruct H1. lia. }
    clear H1. destruct Hn as [Hn|[Hn|Hn]]; lia.
Qed.
Lemma stream_next bytes j : length (take 1024 (drop (stream_pos bytes j) bytes)) + stream_pos bytes j = stream_pos bytes (S j).
Proof. rewrite take_length, drop_length. unfold stream_pos. lia. Qed.

Section upload.
  Context (l : list byte) (cs i : nat) (Hcs : (Z.of_nat cs < 4294967296)%Z) (Hi : (Z.of_nat i < 65536)%Z).
  Notation B := (chunk_bytes l cs i).
  Notation E := (first_eof cs (chunk_bytes l cs i)).
  Notation pk := (stream (sha1 (chunk_bytes l cs i)) (chunk_bytes l cs i)).
  Notation rdk j := (rd_at l cs i (stream_pos (chunk_bytes l cs i) j)).

  Lemma B_len : length B <= cs.
  Proof. unfold chunk_bytes. rewrite take_length. lia. Qed.
  Lemma take_cut n pos : take (Nat.min n (cs - pos)) (drop pos B) = take n (drop pos B).
  Proof.
    destruct (decide (n <= cs - pos)); [f_equal; lia|].
    pose proof B_len. rewrite !take_ge; [done| |]; rewrite drop_length; lia.
  Qed.
  Lemma read_stream j : cr_read (FRegular l) (rdk j) 1024 =
    Ok (((pk (S j)).2, (pk (S j)).1, if decide (E <= S j) then Some EOF else None), rdk (S j)).
  Proof.
    unfold rd_at. rewrite cr_read_at by (done || apply stream_pos_le). cbn zeta.
    rewrite take_cut. cbn [stream fst snd].
    pose proof (eof_flag cs B j B_len) as Hf. rewrite take_length, drop_length. rewrite Hf.
    rewrite Nat.add_comm, <- drop_length, <- take_length, stream_next. do 3 f_equal.
    destruct (decide (E <= S j)); [rewrite bool_decide_true by done|rewrite bool_decide_false by done]; done.
  Qed.
  (** end-of-file results among packets [j+1 .. j+n] *)
  Lemma kick_loop_ok n : forall j, kick_loop n (FRegular l) (rdk j) None =
    (map pk (seq (S j) n), (S j + n) - Nat.max E (S j), rdk (j + n), false).
  Proof.
    induction n as [|n IH]; intros j.
    - cbn [kick_loop seq map]. rewrite !Nat.add_0_r. replace (S j - _) with 0 by lia. done.
    - cbn [kick_loop]. rewrite read_stream.
      rewrite decide_False by (destruct (decide (E <= S j)); done).
      cbn [option_map]. rewrite IH. cbn [seq map].
      rewrite <- surjective_pairing. replace (S j + n) with (j + S n) by lia.
      f_equal. f_equal. f_equal.
      destruct (decide (E <= S j)); [rewrite decide_True by done|rewrite decide_False by done]; lia.
  Qed.
  Lemma kick_loop_fail n : forall j w, exists k j' ts err, kick_loop n (FRegular l) (rdk j) w =
    (map pk (seq (S j) k), ts, rdk j', err) /\ (err = false -> j' = j + k).
  Proof.
    induction n as [|n IH]; intros j w.
    - exists 0, j, 0, false. cbn. split; [done|]. lia.
    - cbn [kick_loop]. rewrite read_stream.
      rewrite decide_False by (destruct (decide (E <= S j)); done).
      destruct w as [[|w]|]; cbn [option_map].
      + eexists 0, (S j), _, true. split; [reflexivity|done].
      + destruct (IH (S j) (Some (pred (S w)))) as (k & j' & ts & err & -> & Hj).
        exists (S k), j'. eexists _, err. split; [cbn [seq map]; rewrite <- surjective_pairing; reflexivity|].
        intros He. specialize (Hj He). lia.
      + destruct (IH (S j) None) as (k & j' & ts & err & -> & Hj).
        exists (S k), j'. eexists _, err. split; [cbn [seq map]; rewrite <- surjective_pairing; reflexivity|].
        intros He. specialize (Hj He). lia.
  Qed.

  Lemma put_tail pre d : length pre = 24 -> length d <= 1000 ->
    take (24 + length d) (put 24 1024 d (pre ++ zeros 1000)) = pre ++ d.
  Proof.
    intros Hp Hd. unfold put. rewrite (take_app_alt pre (zeros 1000) 24) by done.
    rewrite (drop_app_alt pre (zeros 1000) 24) by done.
    rewrite (take_ge (zeros 1000)) by (rewrite zeros_length; lia).
    rewrite take_add_app by done. f_equal.
    unfold gocopy. rewrite zeros_length, (take_ge d) by lia.
    rewrite <- app_assoc. rewrite take_app_alt; done.
  Qed.
  Lemma header_data h x d : length h = 20 -> length x = 4 -> length d <= 1000 ->
    take (24 + length d) (put 24 1024 d (put 20 24 x (put 0 20 h (zeros 1024)))) = h ++ x ++ d.
  Proof.
    intros Hh Hx Hd. replace (zeros 1024) with ([] ++ zeros 20 ++ zeros 1004) by reflexivity.
    rewrite (put_app [] (zeros 20) (zeros 1004) h 0 20) by (rewrite ?zeros_length; cbn [length]; lia). cbn [app].
    replace (zeros 1004) with (zeros 4 ++ zeros 1000) by reflexivity.
    rewrite (put_app h (zeros 4) (zeros 1000) x 20 24) by (rewrite ?zeros_length; cbn [length]; lia).
    rewrite !(app_assoc h). apply put_tail; [|done]. rewrite app_length. lia.
  Qed.
  Lemma kickstart_eq cap :
    kickstart (cr_hash (rd_at l cs i 0)) (cr_size (rd_at l cs i 0)) (new_sender (FRegular l) (rd_at l cs i 0) cap) true
    = (mkSender (FRegular l) (rdk 0) 1 cap 0 false 1 0, Ok (pk 0)).
  Proof.
    unfold kickstart, new_sender. cbn [sd_rd sd_file sd_ws sd_cap sd_acks sd_tok sd_workers sd_stuck].
    assert (cr_reset (rd_at l cs i 0) = rd_at l cs i 0) as ->.
    { unfold cr_reset, rd_at, sec_rewind, sec_at. cbn. f_equal. f_equal. lia. }
    unfold rd_at at 1 2 3. cbn [cr_hash cr_size].
    rewrite cr_read_at by (done || lia). cbn zeta.
    rewrite take_cut, drop_0.
    rewrite decide_False by (destruct (_ || _); done).
    assert (u32_of_int (Z.of_nat (length B)) = N.of_nat (length B)) as Hu.
    { pose proof B_len. unfold u32_of_int. rewrite Z.mod_small by lia. lia. }
    f_equal.
    - unfold rd_at. do 4 f_equal. rewrite take_length. unfold stream_pos. lia.
    - unfold hash_slice. cbn [stream]. rewrite Hu. f_equal. f_equal. apply header_data.
      + apply sha1_length.
      + apply be_length.
      + rewrite take_length. lia.
  Qed.
  Lemma kickstart_ok cap s p fuel rd :
    new_chunk_reader fuel (FRegular l) (chunk_section (Z.of_nat i) (Z.of_nat cs)) = Some rd ->
    kickstart (cr_hash rd) (cr_size rd) (new_sender (FRegular l) rd cap) true = (s, Ok p) ->
    s = mkSender (FRegular l) (rdk 0) 1 cap 0 false 1 0 /\ p = pk 0.
  Proof.
    intros Hrd. apply reader_at in Hrd as ->; [|done|done].
    rewrite kickstart_eq. intros [= <- <-]. done.
  Qed.
End upload.

Lemma ragged_Z cs bytes : (1000 < Z.of_nat (length bytes) < Z.of_nat cs)%Z ->
  ((Z.of_nat (length bytes) - 1000) mod 1024 <> 0)%Z -> ragged cs bytes.
Proof. intros H1 H2. unfold ragged. lia. Qed.
Lemma first_empty_Z bytes : (1048552 < Z.of_nat (length bytes))%Z -> N.to_nat 1024 < first_empty bytes.
Proof. intros H. unfold first_empty. lia. Qed.
