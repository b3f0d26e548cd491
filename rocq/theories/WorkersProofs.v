(** Proofs about uploads at the level of single accesses (C111-C113). *)
From Verif Require Export WorkersSpec SenderProofs.
From Verif Require Import HashProofs ChunkProofs MessagesProofs.
From Coq Require Import ZifyBool ZifyNat ZifyN.

(** ** One call of Read *)
(** where an undisturbed call of Read can be, [s] being the reader's section *)
Definition midread (l : list byte) (n : nat) (s : section) (p : rpc) : Prop :=
  let o := (s_off s - s_base s)%Z in
  let k := if (s_limit s - s_off s <? Z.of_nat n)%Z then Z.to_nat (s_limit s - s_off s) else n in
  let start o' := (o <= 4294967295)%Z /\ o' = u32_of_int o in
  match p with
  | RdOffset => True
  | RdLimit o' => start o'
  | RdClip o' => start o' /\ (s_off s < s_limit s)%Z
  | RdAt o' k' => start o' /\ (s_off s < s_limit s)%Z /\ k' = k
  | RdLoad o' d e => start o' /\ (s_off s < s_limit s)%Z /\ (d, e) = read_at (FRegular l) k (s_off s)
  | RdStore o' d e x => start o' /\ (s_off s < s_limit s)%Z /\ (d, e) = read_at (FRegular l) k (s_off s)
      /\ x = (s_off s + Z.of_nat (length d))%Z
  end.
Lemma midread_next l n s p d o e s' h z : midread l n s p ->
  cr_read (FRegular l) (mkReader s h z) n = Ok ((d, o, e), mkReader s' h z) ->
  (exists p', rnext l n s p = Some (s, inl p') /\ midread l n s p') \/ rnext l n s p = Some (s', inr (o, d, e)).
Proof.
  unfold cr_read, cr_offset. cbn [cr_sec cr_hash cr_size].
  destruct (4294967295 <? s_off s - s_base s)%Z eqn:Ho; [done|]. cbn [rbind].
  assert (s_off s - s_base s <= 4294967295)%Z as Ho' by lia.
  unfold sec_read. destruct p as [|o'|o'|o' k'|o' d' e'|o' d' e' x]; cbn [midread rnext].
  - intros _ _. left. rewrite Ho. eexists. split; [done|]. done.
  - intros [_ ->]. destruct (s_limit s <=? s_off s)%Z eqn:El.
    + intros [= <- <- <- <-]. right. done.
    + intros _. left. eexists. split; [done|]. cbn. split; [done|]. lia.
  - intros [[_ ->] Hl]. intros _. left. destruct (s_limit s - s_off s <? Z.of_nat n)%Z eqn:En.
    + rewrite (proj2 (Z.ltb_ge _ 0)) by lia. eexists. split; [done|]. cbn. rewrite En. done.
    + eexists. split; [done|]. cbn. rewrite En. done.
  - intros ([_ ->] & Hl & ->) _. left. set (k := if (s_limit s - s_off s <? Z.of_nat n)%Z then Z.to_nat (s_limit s - s_off s) else n).
    destruct (read_at (FRegular l) k (s_off s)) as [d1 e1] eqn:Er. eexists. split; [done|].
    cbn [midread]. fold k. rewrite Er. done.
  - intros ([_ ->] & Hl & Hr) _. left. eexists. split; [done|]. cbn [midread]. done.
  - intros ([_ ->] & Hl & Hr & ->). rewrite (proj2 (Z.leb_gt _ _)) by lia. cbn zeta. rewrite <- Hr.
    intros [= -> -> -> <-]. right. done.
Qed.

(** ** One request *)
Section one.
  Context (l : list byte) (cs i : nat) (Hcs : (Z.of_nat cs < 4294967296)%Z) (Hi : (Z.of_nat i < 65536)%Z).
  Context (cap : N) (Hcap : (cap < 65536)%N).
  Notation B := (chunk_bytes l cs i).
  Notation E := (first_eof cs (chunk_bytes l cs i)).
  Notation pk := (stream (sha1 (chunk_bytes l cs i)) (chunk_bytes l cs i)).
  Notation rdk j := (rd_at l cs i (stream_pos (chunk_bytes l cs i) j)).
  Notation sk j := (sec_at cs i (stream_pos (chunk_bytes l cs i) j)).

  Lemma read_first : exists e, e <> Some EFail /\
    cr_read (FRegular l) (rd_at l cs i 0) 1000 = Ok ((take 1000 B, 0%N, e), rdk 0).
  Proof.
    unfold rd_at. rewrite cr_read_at by (done || lia). cbn zeta.
    rewrite (take_cut l cs i), drop_0. eexists. split; [|f_equal; f_equal; f_equal].
    - destruct (_ || _); done.
    - f_equal. rewrite take_length. unfold stream_pos. lia.
  Qed.
  Lemma first_packet : first_data (sha1 B) (Z.of_nat (length B)) (take 1000 B) = (pk 0).2.
  Proof.
    unfold first_data, hash_slice. cbn [stream snd].
    assert (u32_of_int (Z.of_nat (length B)) = N.of_nat (length B)) as ->.
    { pose proof (B_len l cs i). unfold u32_of_int. rewrite Z.mod_small by lia. lia. }
    apply (header_data cs i); [apply sha1_length|apply be_length|rewrite take_length; lia].
  Qed.

  (** what an upload in the model of Transfer.v is like *)
  Lemma ua_facts s ps n : uploads_acked l cs i cap s ps n -> pinv l cs i s ps /\ sd_cap s = cap.
  Proof.
    induction 1 as [fuel rd s p H1 H2|s ps n s' H [IH1 IH2] Hs|s ps n e s' ps' H [IH1 IH2] He Hs].
    - destruct (kickstart_ok l cs i Hcs Hi cap s p fuel rd H1 H2) as [-> ->].
      split; [|done]. exists 0. done.
    - cbn [sstep] in Hs. injection Hs as <-. done.
    - split; [eapply pinv_step; done|]. destruct He as [-> | ->]; cbn [sstep] in Hs.
      + destruct (decide _); [|done]. unfold kick in Hs.
        destruct (kick_loop _ _ _ _) as [[[? ?] ?] ?]. destruct (_ && _); [done|]. injection Hs as <- <-. done.
      + destruct (decide _); [|done]. injection Hs as <- <-. done.
  Qed.

  (** the worker is in the middle of a kick that has sent [k] packets and counted [t] ends of the
      file; [s] and [ps] are as before the kick *)
  Definition kicking (K : wmem) (n : nat) (t : nat) (j k : nat) (s : sender) (ps : list packet) : Prop :=
    let ws0 := ((sd_ws s + 65535) mod 65536)%N in
    uploads_acked l cs i cap s ps n /\ sd_workers s = 1 /\ sd_stuck s = 0 /\ sd_rd s = rdk j
    /\ sd_acks s = S (g_acks K) /\ sd_tok s = g_tok K /\ k <= N.to_nat (cap - ws0)
    /\ t = (S j + k) - Nat.max E (S j).
  Definition matches (K : wmem) (n : nat) (s : sender) : Prop :=
    uploads_acked l cs i cap s (g_sent K) n /\ g_sec K = cr_sec (sd_rd s) /\ g_ws K = sd_ws s
    /\ g_acks K = sd_acks s.
  Definition winv (K : wmem) (n : nat) (p : wkpc) : Prop :=
    match p with
    | WSelect => exists s, matches K n s /\ g_tok K = sd_tok s /\ sd_workers s = 1 /\ sd_stuck s = 0
    | WEnd => exists s, matches K n s /\ g_tok K = sd_tok s /\ sd_workers s = 0 /\ sd_stuck s = 0
    | WDec => exists j s, kicking K n 0 j 0 s (g_sent K) /\ g_sec K = sk j /\ g_ws K = sd_ws s
    | WDecS v => exists j s, kicking K n 0 j 0 s (g_sent K) /\ g_sec K = sk j /\ v = ((sd_ws s + 65535) mod 65536)%N
    | WTest t => exists j k s ps, kicking K n t j k s ps /\ g_sec K = sk (j + k)
        /\ g_sent K = ps ++ map pk (seq (S j) k) /\ g_ws K = ((sd_ws s + 65535) mod 65536 + N.of_nat k)%N
    | WRead t r => exists j k s ps, kicking K n t j k s ps /\ g_sec K = sk (j + k)
        /\ g_sent K = ps ++ map pk (seq (S j) k) /\ g_ws K = ((sd_ws s + 65535) mod 65536 + N.of_nat k)%N
        /\ (g_ws K < cap)%N /\ midread l 1024 (g_sec K) r
    | WSend t o d => exists j k s ps, kicking K n t j (S k) s ps /\ g_sec K = sk (j + S k)
        /\ g_sent K = ps ++ map pk (seq (S j) k) /\ g_ws K = ((sd_ws s + 65535) mod 65536 + N.of_nat k)%N
        /\ (g_ws K < cap)%N /\ (o, d) = pk (S (j + k))
    | WInc t => exists j k s ps, kicking K n t j (S k) s ps /\ g_sec K = sk (j + S k)
        /\ g_sent K = ps ++ map pk (seq (S j) (S k)) /\ g_ws K = ((sd_ws s + 65535) mod 65536 + N.of_nat k)%N
        /\ (g_ws K < cap)%N
    | WIncS t v => exists j k s ps, kicking K n t j (S k) s ps /\ g_sec K = sk (j + S k)
        /\ g_sent K = ps ++ map pk (seq (S j) (S k)) /\ v = ((sd_ws s + 65535) mod 65536 + N.of_nat (S k))%N
    | WTerm t => exists s, matches K n s /\
        let toks := (if g_tok K then 1 else 0) + t in
        sd_tok s = (0 <? toks)%nat /\ sd_workers s = (if 1 <? toks then 0 else 1)%nat /\ sd_stuck s = (if 1 <? toks then 1 else 0)%nat
    end.
  Definition oinv (K : kstate) (n : nat) : Prop :=
    let m := k_mem K in
    (exists p, k_thr K = [THandler (sha1 B) (Z.of_nat (length B)) p] /\ g_acks m = n /\ g_tok m = false /\ g_ws m = 0%N /\
      match p with
      | HReset => g_sec m = sec_at cs i 0 /\ g_sent m = []
      | HRead r => g_sec m = sec_at cs i 0 /\ g_sent m = [] /\ midread l 1000 (g_sec m) r
      | HSend d => g_sec m = sk 0 /\ g_sent m = [] /\ d = take 1000 B
      | HInc => g_sec m = sk 0 /\ g_sent m = [pk 0]
      | HIncS v => g_sec m = sk 0 /\ g_sent m = [pk 0] /\ v = 1%N
      | HEnd => False
      end)
    \/ (exists p, k_thr K = [THandler (sha1 B) (Z.of_nat (length B)) HEnd; TWorker p] /\ winv m n p).

  Lemma begun_ua n m : g_acks m = n -> exists s, uploads_acked l cs i cap s [pk 0] n
    /\ s = mkSender (FRegular l) (rdk 0) 1 cap n false 1 0.
  Proof.
    intros _. destruct (C73_ok_lemma l cs i Hcs Hi) as (fuel & rd & Hrd).
    pose proof (reader_at l cs i fuel rd Hcs Hi Hrd) as ->.
    eexists. split; [|reflexivity]. induction n as [|n IH].
    - eapply ua_start; [exact Hrd|apply kickstart_eq; done].
    - eapply ua_ack; [exact IH|done].
  Qed.
  Lemma winv_ack m n p : winv m n p -> winv (set_ack m (S (g_acks m))) (S n) p.
  Proof.
    assert (forall t j k s ps, kicking m n t j k s ps ->
      kicking (set_ack m (S (g_acks m))) (S n) t j k (set_acks s (S (sd_acks s))) ps) as Hk.
    { intros t j k s ps (H1 & H2 & H3 & H4 & H5 & H6 & H7 & H8). unfold kicking.
      cbn [set_acks sd_ws sd_workers sd_stuck sd_rd sd_acks sd_tok set_ack g_acks g_tok].
      split; [eapply ua_ack; [exact H1|done]|]. rewrite H5. done. }
    assert (forall s, matches m n s -> matches (set_ack m (S (g_acks m))) (S n) (set_acks s (S (sd_acks s)))) as Hm.
    { intros s (H1 & H2 & H3 & H4). unfold matches. cbn [set_ack g_sent g_sec g_ws g_acks set_acks sd_rd sd_ws sd_acks].
      split; [eapply ua_ack; [exact H1|done]|]. rewrite H4. done. }
    destruct p as [| |v|t|t r|t o d|t|t v|t|]; cbn [winv].
    - intros (s & H & H2). exists (set_acks s (S (sd_acks s))). split; [by apply Hm|exact H2].
    - intros (j & s & H & H2). exists j, (set_acks s (S (sd_acks s))). split; [by apply Hk|exact H2].
    - intros (j & s & H & H2). exists j, (set_acks s (S (sd_acks s))). split; [by apply Hk|exact H2].
    - intros (j & k & s & ps & H & H2). exists j, k, (set_acks s (S (sd_acks s))), ps. split; [by apply Hk|exact H2].
    - intros (j & k & s & ps & H & H2). exists j, k, (set_acks s (S (sd_acks s))), ps. split; [by apply Hk|exact H2].
    - intros (j & k & s & ps & H & H2). exists j, k, (set_acks s (S (sd_acks s))), ps. split; [by apply Hk|exact H2].
    - intros (j & k & s & ps & H & H2). exists j, k, (set_acks s (S (sd_acks s))), ps. split; [by apply Hk|exact H2].
    - intros (j & k & s & ps & H & H2). exists j, k, (set_acks s (S (sd_acks s))), ps. split; [by apply Hk|exact H2].
    - intros (s & H & H2). exists (set_acks s (S (sd_acks s))). split; [by apply Hm|exact H2].
    - intros (s & H & H2). exists (set_acks s (S (sd_acks s))). split; [by apply Hm|exact H2].
  Qed.

  Lemma seq_snoc j k : map pk (seq (S j) (S k)) = map pk (seq (S j) k) ++ [pk (S (j + k))].
  Proof. rewrite seq_S, map_app. done. Qed.
  (** the kick is over *)
  Lemma kick_done m n t j k s ps : kicking m n t j k s ps -> g_sec m = sk (j + k) ->
    g_sent m = ps ++ map pk (seq (S j) k) -> g_ws m = ((sd_ws s + 65535) mod 65536 + N.of_nat k)%N ->
    (cap <= g_ws m)%N -> winv m n (WTerm t).
  Proof.
    intros (H1 & H2 & H3 & H4 & H5 & H6 & H7 & H8) Hs Hp Hw Hc.
    destruct (ua_facts s ps n H1) as [(j' & _ & Hf & _) Hcp].
    assert (k = N.to_nat (cap - (sd_ws s + 65535) mod 65536)) as Hk by lia.
    assert (exists s', sstep s (SKick None) = SGo s' (map pk (seq (S j) k)) /\
      s' = mkSender (FRegular l) (rdk (j + k)) (g_ws m) cap (g_acks m) (0 <? (if g_tok m then 1 else 0) + t)%nat
        (if (1 <? (if g_tok m then 1 else 0) + t)%nat then 0 else 1) (if (1 <? (if g_tok m then 1 else 0) + t)%nat then 1 else 0)) as (s' & Hss & Hs').
    { eexists. split; [|reflexivity]. cbn [sstep]. rewrite decide_True by lia. unfold kick.
      cbn [set_acks sd_ws sd_cap sd_file sd_rd sd_tok sd_workers sd_stuck sd_acks].
      rewrite Hcp, Hf, H4, <- Hk, (kick_loop_ok l cs i Hcs). cbn [andb]. rewrite H6, <- H8, H2, H3, H5.
      rewrite map_length, seq_length, Hw. cbn [pred]. reflexivity. }
    exists s'. split; [|cbn zeta; rewrite Hs'; cbn [sd_tok sd_workers sd_stuck]; repeat split].
    split; [|rewrite Hs'; cbn [sd_rd sd_ws sd_acks]; rewrite Hs; done].
    rewrite Hp. eapply (ua_work _ _ _ _ _ _ _ (SKick None)); [exact H1|by left|exact Hss].
  Qed.

  Lemma winv_next m n p b : winv m n p ->
    match wnext l cap b m p with
    | None => True | Some None => False
    | Some (Some (m', p')) => winv m' n p'
    end.
  Proof.
    destruct p as [| |v|t|t r|t o d|t|t v|t|]; cbn [wnext].
    - intros (s & (H1 & H2 & H3 & H4) & H5 & H6 & H7). destruct b.
      + destruct (g_acks m) as [|a] eqn:Ea; [done|].
        destruct (ua_facts s (g_sent m) n H1) as [(j & _ & _ & Hr & _) _].
        exists j, s. split; [|split; [cbn [set_ack g_sec]; rewrite H2, Hr by lia; done|done]].
        unfold kicking. cbn [set_ack g_sent g_acks g_tok]. rewrite <- H4, Hr by lia. repeat split; try done; lia.
      + destruct (g_tok m) eqn:Et; [|done].
        exists (mkSender (sd_file s) (sd_rd s) (sd_ws s) (sd_cap s) (sd_acks s) false (pred (sd_workers s)) (sd_stuck s)).
        split; [|cbn [sd_tok sd_workers sd_stuck set_tok g_tok]; rewrite H6; done].
        split; [|done]. cbn [set_tok g_sent]. rewrite <- (app_nil_r (g_sent m)).
        eapply (ua_work _ _ _ _ _ _ _ SCancel); [exact H1|by right|].
        cbn [sstep]. rewrite decide_True by (split; [lia|done]). reflexivity.
    - intros (j & s & H & H2 & H3). exists j, s. rewrite H3. done.
    - intros (j & s & H & H2 & ->). exists j, 0, s, (g_sent m). cbn [set_ws g_sec g_sent g_ws g_acks g_tok].
      split; [exact H|]. rewrite Nat.add_0_r. cbn [seq map]. rewrite app_nil_r. repeat split; try done. lia.
    - intros (j & k & s & ps & H & H2 & H3 & H4). destruct (g_ws m <? cap)%N eqn:Ew.
      + exists j, k, s, ps. repeat split; try done; try apply H; lia.
      + eapply kick_done; try done; lia.
    - intros (j & k & s & ps & H & H2 & H3 & H4 & H5 & H6).
      pose proof (read_stream l cs i Hcs (j + k)) as Hr. unfold rd_at in Hr.
      destruct (midread_next l 1024 (g_sec m) r _ _ _ _ _ _ H6 ltac:(rewrite H2; exact Hr)) as [(r' & -> & Hr')| ->].
      + exists j, k, s, ps. cbn [set_sec g_sec g_sent g_ws]. done.
      + destruct H as (K1 & K2 & K3 & K4 & K5 & K6 & K7 & K8).
        assert (winv (set_sec m (sk (S (j + k)))) n (WSend (if decide (E <= S (j + k)) then S t else t) (pk (S (j + k))).1 (pk (S (j + k))).2)) as Hw.
        { exists j, k, s, ps. cbn [set_sec g_sec g_sent g_ws]. split.
          - unfold kicking. cbn [set_sec g_acks g_tok]. repeat split; try done; [lia|].
            destruct (decide _); lia.
          - replace (j + S k) with (S (j + k)) by lia. repeat split; try done. }
        destruct (decide (E <= S (j + k))); exact Hw.
    - intros (j & k & s & ps & H & H2 & H3 & H4 & H5 & H6).
      exists j, k, s, ps. cbn [add_sent g_sec g_sent g_ws]. split; [exact H|].
      rewrite seq_snoc, H3, H6, <- app_assoc. done.
    - intros (j & k & s & ps & H & H2 & H3 & H4 & H5).
      exists j, k, s, ps. repeat split; try done; try apply H. rewrite N.mod_small by lia. lia.
    - intros (j & k & s & ps & H & H2 & H3 & H4). exists j, (S k), s, ps. done.
    - intros (s & H & H2 & H3 & H4). destruct t as [|t].
      + exists s. split; [exact H|]. destruct (g_tok m); done.
      + destruct (g_tok m) eqn:Et; [done|]. exists s. split; [exact H|].
        cbn [set_tok g_tok]. replace (1 + t) with (0 + S t) by lia. done.
    - done.
  Qed.
  Lemma oinv_start fuel rd : new_chunk_reader fuel (FRegular l) (chunk_section (Z.of_nat i) (Z.of_nat cs)) = Some rd ->
    oinv (kstart rd) 0.
  Proof. intros H. apply reader_at in H as ->; [|done|done]. left. exists HReset. done. Qed.
  Lemma oinv_ack K n : oinv K n -> oinv (kack K) (S n).
  Proof.
    intros [(p & H1 & H2 & H)|(p & H1 & H2)].
    - left. exists p. unfold kack. cbn [k_thr k_mem set_ack g_acks g_tok g_ws g_sec g_sent]. rewrite H2. done.
    - right. exists p. split; [exact H1|]. unfold kack. cbn [k_mem]. apply winv_ack, H2.
  Qed.
  Lemma oinv_move K n j b : oinv K n ->
    match kmove l cap j b K with
    | None => True | Some None => False
    | Some (Some K') => oinv K' n
    end.
  Proof.
    destruct K as [m ts]. unfold kmove. cbn [k_thr k_mem].
    intros [(p & H1 & H2 & H3 & H4 & H5)|(p & H1 & H2)]; cbn [k_thr k_mem] in *; subst ts.
    - destruct j as [|j]; [|done]. cbn [lookup list_lookup]. cbn [tmove].
      destruct p as [|r|d| |v|]; cbn [hnext]; try done.
      + left. exists (HRead RdOffset). cbn [k_thr k_mem set_sec g_acks g_tok g_ws g_sec g_sent].
        destruct H5 as [Hs Hp]. split; [done|]. rewrite Hs. repeat split; try done.
        unfold sec_rewind, sec_at. cbn [s_base s_limit]. f_equal. lia.
      + destruct H5 as (Hs & Hp & Hm). destruct read_first as (e & He & Hr). unfold rd_at in Hr.
        destruct (midread_next l 1000 (g_sec m) r _ _ _ _ _ _ Hm ltac:(rewrite Hs; exact Hr)) as [(r' & -> & Hr')| ->].
        * left. exists (HRead r'). cbn [k_thr k_mem set_sec g_acks g_tok g_ws g_sec g_sent]. done.
        * rewrite decide_False by done. left. exists (HSend (take 1000 B)).
          cbn [k_thr k_mem set_sec g_acks g_tok g_ws g_sec g_sent]. done.
      + destruct H5 as (Hs & Hp & ->). left. exists HInc.
        cbn [k_thr k_mem add_sent g_acks g_tok g_ws g_sec g_sent]. split; [done|]. rewrite first_packet, Hp. done.
      + destruct H5 as (Hs & Hp). left. exists (HIncS 1). cbn [k_thr k_mem]. rewrite H4. done.
      + destruct H5 as (Hs & Hp & ->). right. exists WSelect. split; [done|].
        destruct (begun_ua n m H2) as (s & Hu & Hs'). exists s.
        split; [|rewrite Hs'; cbn [k_mem set_ws g_tok sd_tok sd_workers sd_stuck]; done].
        split; [cbn [k_mem set_ws g_sent]; rewrite Hp; exact Hu|].
        rewrite Hs'. cbn [k_mem set_ws g_sec g_ws g_acks sd_rd sd_ws sd_acks]. done.
    - destruct j as [|[|j]]; [done| |done]. cbn [lookup list_lookup]. cbn [tmove].
      pose proof (winv_next m n p b H2) as Hn.
      destruct (wnext l cap b m p) as [[[m' p']|]|]; [|done|done].
      right. exists p'. done.
  Qed.
  Lemma one_request K n rs : kexec l cs i cap K n rs -> rs = [] -> oinv K n.
  Proof.
    induction 1 as [fuel rd H|K n rs H IH|K n rs h size H IH|K n rs j b K' H IH Hm]; intros Hr.
    - eapply oinv_start; exact H.
    - apply oinv_ack, IH, Hr.
    - destruct rs; done.
    - pose proof (oinv_move K n j b (IH Hr)) as Ho. rewrite Hm in Ho. exact Ho.
  Qed.
End one.

(** ** What holds with one request *)
Section one.
  Context (l : list byte) (cs i : nat) (Hcs : (Z.of_nat cs < 4294967296)%Z) (Hi : (Z.of_nat i < 65536)%Z).
  Context (cap : N) (Hcap : (cap < 65536)%N).
  Notation B := (chunk_bytes l cs i).
  Notation pk := (stream (sha1 (chunk_bytes l cs i)) (chunk_bytes l cs i)).
  Lemma kick_sent m n t j k s ps : kicking l cs i cap m n t j k s ps ->
    exists s' ps', uploads_acked l cs i cap s' (ps ++ map pk (seq (S j) k) ++ ps') n.
  Proof.
    intros (H1 & H2 & H3 & H4 & H5 & H6 & H7 & H8).
    destruct (ua_facts l cs i Hcs Hi cap s ps n H1) as [(j' & _ & Hf & _) Hcp].
    set (N0 := N.to_nat (cap - (sd_ws s + 65535) mod 65536)) in *.
    exists (kick (set_acks s (pred (sd_acks s))) None).1.1, (map pk (seq (S j + k) (N0 - k))).
    eapply (ua_work _ _ _ _ _ _ _ (SKick None)); [exact H1|by left|].
    cbn [sstep]. rewrite decide_True by lia. unfold kick.
    cbn [set_acks sd_ws sd_cap sd_file sd_rd sd_tok sd_workers sd_stuck sd_acks].
    rewrite Hcp, Hf, H4. fold N0. rewrite (kick_loop_ok l cs i Hcs). cbn [andb fst].
    f_equal. rewrite <- map_app, <- seq_app. do 2 f_equal. lia.
  Qed.
  Lemma oinv_sent K n : oinv l cs i cap K n -> g_sent (k_mem K) = [] \/
    exists s ps', uploads_acked l cs i cap s (g_sent (k_mem K) ++ ps') n.
  Proof.
    intros [(p & H1 & H2 & H3 & H4 & H5)|(p & H1 & H2)].
    - assert (g_sent (k_mem K) = [] \/ g_sent (k_mem K) = [pk 0]) as [->| ->]; [destruct p; intuition|by left|].
      right. destruct (begun_ua l cs i Hcs Hi cap n (k_mem K) H2) as (s & Hu & _). exists s, []. rewrite app_nil_r. exact Hu.
    - right. assert (forall s, matches l cs i cap (k_mem K) n s -> exists s ps', uploads_acked l cs i cap s (g_sent (k_mem K) ++ ps') n) as Hm.
      { intros s (H & _). exists s, []. rewrite app_nil_r. exact H. }
      destruct p as [| |v|t|t r|t o d|t|t v|t|]; cbn [winv] in H2.
      + destruct H2 as (s & H & _). eapply Hm, H.
      + destruct H2 as (j & s & H & _). apply kick_sent in H as (s' & ps' & H). exists s', ps'. exact H.
      + destruct H2 as (j & s & H & _). apply kick_sent in H as (s' & ps' & H). exists s', ps'. exact H.
      + destruct H2 as (j & k & s & ps & H & _ & -> & _). apply kick_sent in H as (s' & ps' & H). exists s', ps'. rewrite <- app_assoc. exact H.
      + destruct H2 as (j & k & s & ps & H & _ & -> & _). apply kick_sent in H as (s' & ps' & H). exists s', ps'. rewrite <- app_assoc. exact H.
      + destruct H2 as (j & k & s & ps & H & _ & -> & _). apply kick_sent in H as (s' & ps' & H).
        exists s', (pk (S (j + k)) :: ps'). rewrite seq_snoc in H. rewrite <- app_assoc. rewrite <- !app_assoc in H. exact H.
      + destruct H2 as (j & k & s & ps & H & _ & -> & _). apply kick_sent in H as (s' & ps' & H). exists s', ps'. rewrite <- app_assoc. exact H.
      + destruct H2 as (j & k & s & ps & H & _ & -> & _). apply kick_sent in H as (s' & ps' & H). exists s', ps'. rewrite <- app_assoc. exact H.
      + destruct H2 as (s & H & _). eapply Hm, H.
      + destruct H2 as (s & H & _). eapply Hm, H.
  Qed.
  Lemma prefix_seq ps ps' m : ps ++ ps' = map pk (seq 0 m) -> ps = map pk (seq 0 (length ps)).
  Proof.
    intros H. assert (length ps <= m) as Hl.
    { apply (f_equal length) in H. rewrite app_length, map_length, seq_length in H. lia. }
    apply (f_equal (take (length ps))) in H. rewrite take_app in H. rewrite H at 1.
    replace m with (length ps + (m - length ps)) by lia. rewrite seq_app, map_app.
    rewrite take_app_alt; [done|]. rewrite map_length, seq_length. done.
  Qed.
  Lemma C111_one_lemma K n : kexec l cs i cap K n [] ->
    g_sent (k_mem K) = map pk (seq 0 (length (g_sent (k_mem K)))).
  Proof.
    intros H. apply one_request in H; [|done..].
    apply oinv_sent in H as [->|(s & ps' & H)]; [done|].
    apply (ua_facts l cs i Hcs Hi) in H as [(m & H & _) _]. eapply prefix_seq, H.
  Qed.
  Lemma C112_one_lemma K n : (1 <= cap)%N -> kexec l cs i cap K n [] -> length (g_sent (k_mem K)) <= N.to_nat cap + n.
  Proof.
    intros Hc H. apply one_request in H; [|done..].
    apply oinv_sent in H as [->|(s & ps' & H)]; [cbn; lia|].
    apply (C46_lemma l cs i Hcs Hi) in H; [|lia]. rewrite app_length in H. lia.
  Qed.
  Lemma C113_one_lemma K n : kexec l cs i cap K n [] -> ~ kdies l cap K.
  Proof.
    intros H (j & b & Hd). apply one_request in H; [|done..].
    pose proof (oinv_move l cs i Hcs Hi cap Hcap K n j b H) as Hm. rewrite Hd in Hm. exact Hm.
  Qed.
  Lemma C111_rest_lemma K n : kexec l cs i cap K n [] -> Forall (resting (k_mem K)) (k_thr K) ->
    exists s, uploads_acked l cs i cap s (g_sent (k_mem K)) n
      /\ sd_ws s = g_ws (k_mem K) /\ sd_acks s = g_acks (k_mem K) /\ sd_tok s = g_tok (k_mem K)
      /\ sd_workers s = sum_list_with at_select (k_thr K) /\ sd_stuck s = sum_list_with at_term (k_thr K).
  Proof.
    intros H Hr. apply one_request in H; [|done..].
    destruct H as [(p & H1 & H2 & H3 & H4 & H5)|(p & H1 & H2)]; rewrite H1 in Hr |- *.
    - apply Forall_cons in Hr as [Hr _]. destruct p; done.
    - apply Forall_cons in Hr as [_ Hr]. apply Forall_cons in Hr as [Hr _]. cbn [resting] in Hr.
      destruct p as [| |v|t|t r|t o d|t|t v|[|t]|]; cbn [winv] in H2; try done.
      + destruct H2 as (s & (M1 & M2 & M3 & M4) & M5 & M6 & M7). exists s. cbn. repeat split; try done; congruence.
      + destruct H2 as (s & (M1 & M2 & M3 & M4) & M5 & M6 & M7). rewrite Hr in *. exists s. cbn. repeat split; try done.
      + destruct H2 as (s & (M1 & M2 & M3 & M4) & M5 & M6 & M7). exists s. cbn. repeat split; try done; congruence.
  Qed.
End one.

(** ** Any number of requests *)
Section many.
  Context (l : list byte) (cap : N).
  Definition rgood (n : nat) (r : rpc) : Prop :=
    match r with RdAt _ k => k <= n | RdLoad _ d _ | RdStore _ d _ _ => piece l n d | _ => True end.
  Definition tgood (rs : list (hash * Z)) (t : wthread) : Prop :=
    match t with
    | THandler h z p => (h, z) ∈ rs /\ match p with HRead r => rgood 1000 r | HSend d => piece l 1000 d | _ => True end
    | TWorker p => match p with WRead _ r => rgood 1024 r | WSend _ _ d => piece l 1024 d | _ => True end
    end.
  Definition pgood (rs : list (hash * Z)) (p : packet) : Prop :=
    piece l 1024 p.2 \/ exists r, r ∈ rs /\ header_for l r p.
  Lemma piece_nil n : piece l n [].
  Proof. split; [cbn; lia|]. exists 0. done. Qed.
  Lemma rgood_next n s r s' x : rgood n r -> rnext l n s r = Some (s', x) ->
    match x with inl r' => rgood n r' | inr (_, d, _) => piece l n d end.
  Proof.
    destruct r as [|o|o|o k|o d e|o d e y]; cbn [rnext rgood].
    - intros _. destruct (_ <? _)%Z; [done|]. intros [= <- <-]. done.
    - intros _. destruct (_ <=? _)%Z; intros [= <- <-]; [apply piece_nil|done].
    - intros _. destruct (_ <? Z.of_nat n)%Z eqn:En.
      + destruct (_ <? 0)%Z; [done|]. intros [= <- <-]. cbn. lia.
      + intros [= <- <-]. cbn. lia.
    - intros Hk. unfold read_at. destruct (s_off s <? 0)%Z; intros [= <- <-]; [apply piece_nil|].
      cbn. split; [rewrite take_length; lia|]. exists (Z.to_nat (s_off s)).
      rewrite take_length. destruct (decide (k <= length (drop (Z.to_nat (s_off s)) l))) as [H|H].
      + f_equal. lia.
      + rewrite Nat.min_r by lia. rewrite !take_ge; [done|lia..].
    - intros H [= <- <-]. exact H.
    - intros H [= <- <-]. exact H.
  Qed.
  Lemma first_data_eq h z d : length h = 20 -> length d <= 1000 ->
    first_data h z d = h ++ be 4 (u32_of_int z) ++ d.
  Proof. intros Hh Hd. unfold first_data, hash_slice. apply (header_data 0 0); [done|apply be_length|done]. Qed.
  Lemma tgood_move rs b m t m' t' ts : Forall (fun r => length r.1 = 20) rs -> tgood rs t ->
    Forall (pgood rs) (g_sent m) -> tmove l cap b m t = Some (Some (m', t', ts)) ->
    Forall (pgood rs) (g_sent m') /\ Forall (tgood rs) (t' :: ts).
  Proof.
    intros Hrs Ht Hm. destruct t as [h z p|p]; cbn [tmove].
    - destruct Ht as [Hr Hp]. pose proof (proj1 (Forall_forall _ _) Hrs _ Hr) as Hh. cbn [fst] in Hh.
      destruct p as [|r|d| |v|]; cbn [hnext].
      + intros [= <- <- <-]. split; [exact Hm|]. apply Forall_singleton. done.
      + destruct (rnext l 1000 (g_sec m) r) as [[s [r'|[[o d] e]]]|] eqn:E; intros [= <- <- <-].
        * split; [exact Hm|]. apply Forall_singleton. split; [done|]. exact (rgood_next _ _ _ _ _ Hp E).
        * split; [exact Hm|]. apply Forall_singleton. split; [done|].
          pose proof (rgood_next _ _ _ _ _ Hp E) as Hd. destruct (decide _); done.
      + intros [= <- <- <-]. split; [|apply Forall_singleton; done]. cbn [add_sent g_sent].
        apply Forall_app. split; [exact Hm|]. apply Forall_singleton. right. exists (h, z). split; [done|].
        split; [done|]. exists d. split; [done|]. cbn [snd fst]. apply first_data_eq; [done|]. apply Hp.
      + intros [= <- <- <-]. split; [exact Hm|]. apply Forall_singleton. done.
      + intros [= <- <- <-]. split; [exact Hm|]. apply Forall_cons. split; [done|]. apply Forall_singleton. done.
      + done.
    - destruct p as [| |v|t|t r|t o d|t|t v|[|t]|]; cbn [wnext].
      + destruct b; [destruct (g_acks m)|destruct (g_tok m)]; intros [= <- <- <-]; (split; [exact Hm|]; apply Forall_singleton; done).
      + intros [= <- <- <-]. split; [exact Hm|]. apply Forall_singleton. done.
      + intros [= <- <- <-]. split; [exact Hm|]. apply Forall_singleton. done.
      + intros [= <- <- <-]. split; [exact Hm|]. apply Forall_singleton. destruct (_ <? _)%N; done.
      + destruct (rnext l 1024 (g_sec m) r) as [[s [r'|[[o d] e]]]|] eqn:E.
        * intros [= <- <- <-]. split; [exact Hm|]. apply Forall_singleton. exact (rgood_next _ _ _ _ _ Ht E).
        * pose proof (rgood_next _ _ _ _ _ Ht E) as Hd.
          destruct e as [[|]|]; intros [= <- <- <-]; (split; [exact Hm|]; apply Forall_singleton; exact Hd).
        * done.
      + intros [= <- <- <-]. split; [|apply Forall_singleton; done]. cbn [add_sent g_sent].
        apply Forall_app. split; [exact Hm|]. apply Forall_singleton. left. exact Ht.
      + intros [= <- <- <-]. split; [exact Hm|]. apply Forall_singleton. done.
      + intros [= <- <- <-]. split; [exact Hm|]. apply Forall_singleton. done.
      + intros [= <- <- <-]. split; [exact Hm|]. apply Forall_singleton. done.
      + destruct (g_tok m); [done|]. intros [= <- <- <-]. split; [exact Hm|]. apply Forall_singleton. done.
      + done.
  Qed.
  Lemma tgood_mono rs rs' t : rs ⊆ rs' -> tgood rs t -> tgood rs' t.
  Proof. intros Hs. destruct t as [h z p|p]; cbn [tgood]; [|done]. intros [H1 H2]. split; [by apply Hs|done]. Qed.
  Lemma pgood_mono rs rs' p : rs ⊆ rs' -> pgood rs p -> pgood rs' p.
  Proof. intros Hs [H|(r & H1 & H2)]; [by left|right]. exists r. split; [by apply Hs|done]. Qed.
End many.
Lemma C111_bytes_lemma l cs i cap K n rs : (Z.of_nat cs < 4294967296)%Z -> (Z.of_nat i < 65536)%Z ->
  Forall (fun r => length r.1 = 20) rs -> kexec l cs i cap K n rs ->
  Forall (fun p => piece l 1024 p.2
    \/ exists r, r ∈ (sha1 (chunk_bytes l cs i), Z.of_nat (length (chunk_bytes l cs i))) :: rs /\ header_for l r p) (g_sent (k_mem K)).
Proof.
  intros Hcs Hi Hrs H. set (r0 := (sha1 (chunk_bytes l cs i), Z.of_nat (length (chunk_bytes l cs i)))).
  cut (Forall (pgood l (r0 :: rs)) (g_sent (k_mem K)) /\ Forall (tgood l (r0 :: rs)) (k_thr K)); [intros [H1 _]; exact H1|].
  induction H as [fuel rd H|K n rs H IH|K n rs h size H IH|K n rs j b K' H IH Hm].
  - apply reader_at in H as ->; [|done|done]. unfold kstart. cbn [k_mem g_sent k_thr]. split; [constructor|].
    apply Forall_singleton. cbn [tgood rd_at cr_hash cr_size]. split; [|done]. left.
  - exact (IH Hrs).
  - apply Forall_app in Hrs as [Hrs _]. destruct (IH Hrs) as [I1 I2]. unfold krequest. cbn [k_mem k_thr].
    assert (r0 :: rs ⊆ r0 :: rs ++ [(h, size)]) as Hs by (intros x; rewrite !elem_of_cons, elem_of_app; tauto).
    split; [eapply Forall_impl; [exact I1|]; intros p; by apply pgood_mono|].
    apply Forall_app. split; [eapply Forall_impl; [exact I2|]; intros p; by apply tgood_mono|].
    apply Forall_singleton. cbn [tgood]. split; [|done]. right. apply elem_of_app. right. left.
  - destruct (IH Hrs) as [I1 I2]. unfold kmove in Hm.
    destruct (k_thr K !! j) as [t|] eqn:Ej; [|done].
    destruct (tmove l cap b (k_mem K) t) as [[[[m' t'] ts]|]|] eqn:Et; [|done|done].
    injection Hm as <-. cbn [k_mem k_thr].
    destruct (tgood_move l cap (r0 :: rs) b (k_mem K) t m' t' ts) as [J1 J2]; [|eapply Forall_lookup_1; [exact I2|exact Ej]|exact I1|exact Et|].
    { apply Forall_cons. split; [apply sha1_length|exact Hrs]. }
    split; [exact J1|]. apply Forall_cons in J2 as [J2 J3].
    apply Forall_app. split; [apply Forall_insert; done|exact J3].
Qed.
