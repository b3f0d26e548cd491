(** Proofs about the receiving side of a chunk transfer (C49, C51, C52). *)
From Verif Require Export TransferProofs.
From Verif Require Import HashProofs ChunkProofs MessagesProofs.
From Coq Require Import ZifyBool ZifyNat ZifyN.
Ltac Zify.zify_post_hook ::= Z.div_mod_to_equations.

Section recv.
  Context (h : hash) (B : list byte) (Hh : hash_wf h) (HB : (Z.of_nat (length B) < 4294967296)%Z).
  Notation pk := (stream h B).
  Notation M := (first_empty B).

  Lemma pos_lt j : S j < M <-> stream_pos B j < length B.
  Proof. unfold first_empty, stream_pos. lia. Qed.
  Lemma pos_M j : M <= S j -> stream_pos B j = length B.
  Proof. unfold first_empty, stream_pos. lia. Qed.
  Lemma recv_header r : exists buf, recv_packet r (pk 0) = Ok (RMore (mkRecv (Some h) buf)) /\ assembled B [0] buf.
  Proof.
    cbn [stream recv_packet]. rewrite decide_True by done.
    rewrite split_ok by (done || (unfold u32; lia)). cbn [rbind].
    rewrite Nat2N.id. eexists. split; [reflexivity|]. split.
    - rewrite gocopy_length, zeros_length. done.
    - intros b Hb. rewrite gocopy_lookup, zeros_length, decide_True by done.
      rewrite take_length. destruct (decide (b < Nat.min 1000 (length B))).
      + rewrite lookup_take by lia. rewrite decide_True; [done|]. apply Exists_cons_hd. unfold covers. lia.
      + rewrite decide_False; [apply lookup_replicate_2; done|].
        intros He. apply Exists_cons in He as [He|He]; [unfold covers in He; lia|]. by apply Exists_nil in He.
  Qed.
  Lemma recv_data j ks buf : S j < M -> assembled B ks buf ->
    exists buf', recv_packet (mkRecv (Some h) buf) (pk (S j)) = Ok (RMore (mkRecv (Some h) buf'))
      /\ assembled B (ks ++ [S j]) buf'.
  Proof.
    intros Hj [Hl Ha]. pose proof (proj1 (pos_lt j) Hj) as Hp.
    assert (0 < stream_pos B j) as Ho by (unfold stream_pos in *; lia).
    assert (forall b, b < length B -> covers B (S j) b <-> stream_pos B j <= b < stream_pos B j + 1024) as Hcov0 by (unfold covers; lia).
    cbn [stream recv_packet]. set (o := stream_pos B j) in *.
    assert (length (take 1024 (drop o B)) = Nat.min 1024 (length B - o)) as Hd by (rewrite take_length, drop_length; done).
    rewrite decide_False by lia.
    rewrite decide_False by (intros Hn; rewrite Hn in Hd; cbn [length] in Hd; lia).
    cbn [rc_buf rc_hash]. rewrite decide_True by lia. rewrite Nat2N.id.
    eexists. split; [reflexivity|]. split.
    - rewrite app_length, gocopy_length, take_length, drop_length. lia.
    - intros b Hb.
      pose proof (Hcov0 b Hb) as Hcov.
      destruct (decide (b < o)) as [Hbo|Hbo].
      + rewrite lookup_app_l by (rewrite take_length; lia). rewrite lookup_take by done. rewrite Ha by done.
        destruct (decide (Exists _ ks)) as [He|He].
        * rewrite decide_True; [done|]. apply Exists_app. by left.
        * rewrite decide_False; [done|]. rewrite Exists_app, Exists_cons, Exists_nil. intros [?|[Hx|?]]; try done. apply Hcov in Hx. lia.
      + rewrite lookup_app_r by (rewrite take_length; lia). rewrite take_length, Nat.min_l by lia.
        rewrite gocopy_lookup, drop_length, decide_True by lia.
        rewrite Hd. rewrite lookup_drop. replace (o + (b - o)) with b by lia.
        destruct (decide (b - o < Nat.min 1024 (length B - o))) as [Hc|Hc].
        * rewrite lookup_take by lia. rewrite lookup_drop. replace (o + (b - o)) with b by lia.
          rewrite decide_True; [done|]. rewrite Exists_app, Exists_cons. right; left. apply Hcov. lia.
        * rewrite Ha by done. destruct (decide (Exists _ ks)) as [He|He].
          -- rewrite decide_True; [done|]. apply Exists_app. by left.
          -- rewrite decide_False; [done|]. rewrite Exists_app, Exists_cons, Exists_nil. intros [?|[Hx|?]]; try done. apply Hcov in Hx. lia.
  Qed.
  Lemma recv_end j buf : M <= S j -> B <> [] ->
    recv_packet (mkRecv (Some h) buf) (pk (S j)) = Ok (RSave buf (bool_decide (sha1 buf = h))).
  Proof.
    intros Hj Hb. cbn [stream recv_packet]. rewrite pos_M by done.
    assert (0 < length B) by (destruct B; [done|cbn; lia]).
    rewrite decide_False by lia. rewrite drop_all, take_nil, decide_True by done. cbn [rc_hash rc_buf].
    unfold from_slice. rewrite gocopy_full by (rewrite sha1_length; done). done.
  Qed.
  Lemma recv_all_data ks : Forall (fun k => 1 <= k < M) ks -> forall ks0 buf, assembled B ks0 buf ->
    exists buf', (forall rest, recv_all (mkRecv (Some h) buf) (map pk ks ++ rest) = recv_all (mkRecv (Some h) buf') rest)
      /\ assembled B (ks0 ++ ks) buf'.
  Proof.
    induction 1 as [|k ks Hk _ IH]; intros ks0 buf Ha.
    - exists buf. rewrite app_nil_r. done.
    - destruct k as [|j]; [lia|]. destruct (recv_data j ks0 buf) as (b1 & H1 & Ha1); [lia|done|].
      destruct (IH _ _ Ha1) as (b2 & H2 & Ha2). exists b2. rewrite <- app_assoc in Ha2. split; [|done].
      intros rest. cbn [map app recv_all]. rewrite H1. cbn [rbind]. apply H2.
  Qed.
  Lemma C49_lemma ks : B <> [] -> Forall (fun k => 1 <= k < M) ks ->
    exists buf, recv_all new_recv (map pk (0 :: ks)) = Ok (RMore (mkRecv (Some h) buf))
      /\ assembled B (0 :: ks) buf
      /\ forall k rest, M <= k -> recv_all new_recv (map pk (0 :: ks) ++ pk k :: rest) = Ok (RSave buf (bool_decide (sha1 buf = h))).
  Proof.
    intros Hb Hks. destruct (recv_header new_recv) as (b0 & H0 & Ha0).
    destruct (recv_all_data ks Hks _ _ Ha0) as (buf & H1 & Ha1).
    exists buf. split; [|split; [exact Ha1|]].
    - cbn [map recv_all]. rewrite H0. cbn [rbind]. specialize (H1 []). rewrite app_nil_r in H1. exact H1.
    - intros k rest Hk. cbn [map app recv_all]. rewrite H0. cbn [rbind]. rewrite H1. cbn [recv_all].
      destruct k as [|j]; [unfold first_empty in Hk; lia|]. rewrite recv_end by done. done.
  Qed.
  Lemma covered b : b < length B -> exists k, k < M /\ covers B k b.
  Proof.
    intros Hb. destruct (decide (b < 1000)).
    - exists 0. split; [unfold first_empty; lia|]. unfold covers. lia.
    - exists (S ((b - 1000) / 1024)). unfold covers, stream_pos, first_empty. lia.
  Qed.
  Lemma assembled_full ks buf : (forall k, k < M -> k ∈ ks) -> assembled B ks buf -> buf = B.
  Proof.
    intros Hks [Hl Ha]. apply list_eq. intros b. destruct (decide (b < length B)) as [Hb|Hb].
    - rewrite Ha by done. destruct (covered b Hb) as (k & Hk & Hc).
      rewrite decide_True; [done|]. apply Exists_exists. exists k. split; [by apply Hks|done].
    - rewrite !lookup_ge_None_2 by lia. done.
  Qed.
  Lemma pk_typed k : u32 (pk k).1 /\ length (pk k).2 <= 1024.
  Proof.
    destruct k as [|j]; cbn [stream fst snd].
    - split; [unfold u32; lia|]. rewrite !app_length, be_length, take_length, Hh. lia.
    - split; [|rewrite take_length; lia]. pose proof (stream_pos_le B j). unfold u32. lia.
  Qed.
  Lemma wire_ok ks : parse_all (map wire (map pk ks)) = Ok (map pk ks).
  Proof.
    induction ks as [|k ks IH]; [done|]. cbn [map parse_all]. unfold wire at 1.
    destruct (pk_typed k) as [H1 H2]. rewrite parse_data_ser by (done || lia). cbn [rbind].
    rewrite IH. cbn [rbind]. rewrite <- surjective_pairing. done.
  Qed.
End recv.

(** *** C51 *)
Lemma C51_lemma h buf : hash_wf h -> 0 < length buf <= 1000 ->
  recv_all new_recv [(0%N, h ++ be 4 (N.of_nat (length buf)) ++ buf); (N.of_nat (length buf), [])]
  = Ok (RSave buf (bool_decide (sha1 buf = h))).
Proof.
  intros Hh Hb. cbn [recv_all recv_packet]. rewrite decide_True by done.
  rewrite split_ok by (done || (unfold u32; lia)). cbn [rbind rc_hash rc_buf].
  rewrite decide_False by lia. rewrite decide_True by done. cbn [rbind].
  rewrite Nat2N.id. rewrite (gocopy_full _ buf) by apply zeros_length.
  unfold from_slice. rewrite gocopy_full by (rewrite sha1_length; done). done.
Qed.

Lemma told_byte_snoc ps p b : told_byte (ps ++ [p]) b = default (told_byte ps b) (says_byte p b).
Proof.
  unfold told_byte. rewrite omap_app. cbn [omap list_omap]. destruct (says_byte p b) as [x|]; [|by rewrite app_nil_r].
  rewrite last_snoc. done.
Qed.
Definition rinv (pre : list packet) (r : recv) : Prop :=
  Forall (fun p => ~ end_packet p) pre /\
  match rc_hash r with None => rc_buf r = [] | Some h => told pre h (rc_buf r) end.
Lemma rinv_packet pre r p r' : rinv pre r -> recv_packet r p = Ok (RMore r') -> rinv (pre ++ [p]) r'.
Proof.
  destruct p as [off data]. intros [Hne Hr] Hp. unfold recv_packet in Hp. destruct (decide (off = 0%N)) as [->|Hoff].
  - unfold split_packet in Hp. destruct (decide (24 <= length data)) as [Hlen|]; [|done]. cbn [rbind] in Hp. injection Hp as <-.
    split; [apply Forall_app; split; [done|]; apply Forall_singleton; intros [? _]; done|]. cbn [rc_hash rc_buf].
    set (size := unbe (take 4 (drop 20 data))).
    assert (size < 4294967296)%N as Hs.
    { pose proof (unbe_lt (take 4 (drop 20 data))) as Hlt. rewrite take_length, drop_length in Hlt.
      replace (Nat.min 4 (length data - 20)) with 4 in Hlt by lia. exact Hlt. }
    assert (length (gocopy (zeros (N.to_nat size)) (drop 24 data)) = N.to_nat size) as Hl by (rewrite gocopy_length, zeros_length; done).
    assert (gocopy zero_hash (take 20 data) = take 20 data) as Eh by (apply gocopy_full; rewrite take_length, Nat.min_l by lia; done).
    exists pre, (drop 24 data), []. cbn zeta. rewrite Hl, Eh, N2Nat.id.
    assert (data = take 20 data ++ be 4 size ++ drop 24 data) as E.
    { assert (be 4 size = take 4 (drop 20 data)) as ->.
      { subst size. rewrite <- (be_unbe (take 4 (drop 20 data))) at 2. rewrite take_length, drop_length. replace (Nat.min 4 (length data - 20)) with 4 by lia. done. }
      rewrite <- (take_drop 20 data) at 1. f_equal. rewrite <- (take_drop 4 (drop 20 data)) at 1. f_equal. rewrite drop_drop. done. }
    split; [rewrite <- E; done|]. split; [rewrite take_length; lia|]. split; [done|]. split; [constructor|].
    intros b Hb. rewrite <- E. unfold told_byte. cbn [omap list_omap]. unfold says_byte. cbn [fst snd]. rewrite decide_True by done.
    rewrite gocopy_lookup, zeros_length, decide_True by done. rewrite drop_length. destruct (decide (b < length data - 24)) as [Hd|Hd].
    + rewrite lookup_drop. destruct (lookup_lt_is_Some_2 data (24 + b)) as [x Hx]; [lia|]. rewrite Hx. done.
    + rewrite (lookup_ge_None_2 data) by lia. cbn. apply lookup_replicate_2. lia.
  - destruct (decide (data = [])) as [->|Hd]; [destruct (rc_hash r); done|].
    destruct (decide _) as [Hle|]; [|done]. injection Hp as <-.
    split; [apply Forall_app; split; [done|]; apply Forall_singleton; intros [_ ?]; done|]. cbn [rc_hash rc_buf].
    destruct (rc_hash r) as [h|]; cycle 1.
    { rewrite Hr in *. cbn [length] in Hle. lia. }
    destruct Hr as (pre1 & d & post & Hr). cbn zeta in Hr. destruct Hr as (E & H1 & H2 & H3 & H4).
    set (o := N.to_nat off) in *. set (buf := rc_buf r) in *. assert (o <= length buf) as Ho by lia.
    assert (length (take o buf ++ gocopy (drop o buf) data) = length buf) as Hl.
    { rewrite app_length, gocopy_length, take_length, drop_length. lia. }
    exists pre1, d, (post ++ [(off, data)]). cbn zeta. rewrite Hl.
    split; [rewrite E, <- app_assoc; done|]. split; [done|]. split; [done|]. split.
    { apply Forall_app. split; [done|]. apply Forall_singleton. done. }
    intros b Hb. rewrite app_comm_cons, told_byte_snoc. unfold says_byte at 1. cbn [fst snd]. rewrite decide_False by done. fold o.
    destruct (decide (o <= b)) as [Hob|Hob].
    + rewrite lookup_app_r by (rewrite take_length; lia). rewrite take_length, Nat.min_l by lia.
      rewrite gocopy_lookup, drop_length, decide_True by lia. destruct (decide (b - o < length data)) as [Hx|Hx].
      * destruct (lookup_lt_is_Some_2 data (b - o)) as [x ->]; [lia|]. done.
      * rewrite (lookup_ge_None_2 data) by lia. cbn [from_option]. rewrite lookup_drop. replace (o + (b - o)) with b by lia. by apply H4.
    + rewrite lookup_app_l by (rewrite take_length; lia). rewrite lookup_take by lia. by apply H4.
Qed.
Lemma rinv_all ps : forall pre r buf ok, rinv pre r -> recv_all r ps = Ok (RSave buf ok) ->
  exists mid e rest h, ps = mid ++ e :: rest /\ end_packet e /\ Forall (fun p => ~ end_packet p) mid /\ told (pre ++ mid) h buf
    /\ ok = bool_decide (sha1 buf = h).
Proof.
  induction ps as [|p ps IH]; intros pre r buf ok Hr Ha; [done|]. cbn [recv_all] in Ha.
  destruct (recv_packet r p) as [[r'|buf' ok']|w|w] eqn:Ep; cbn [rbind] in Ha; try done.
  - pose proof (rinv_packet _ _ _ _ Hr Ep) as Hr'. destruct (IH _ _ _ _ Hr' Ha) as (mid & e & rest & h & -> & G1 & G2 & G3 & G4).
    exists (p :: mid), e, rest, h. split; [done|]. split; [done|]. split.
    + constructor; [|done]. destruct Hr' as [Hf _]. apply Forall_app in Hf as [_ Hf]. rewrite Forall_singleton in Hf. exact Hf.
    + rewrite <- app_assoc in G3. done.
  - injection Ha as -> ->. destruct p as [off data]. unfold recv_packet in Ep. destruct (decide (off = 0%N)) as [|Hoff].
    { destruct (split_packet data) as [[[? ?] ?]|?|?]; done. }
    destruct (decide (data = [])) as [->|]; [|destruct (decide _); done].
    destruct Hr as [_ Hr]. destruct (rc_hash r) as [h|] eqn:Eh; [|done]. injection Ep as <- <-.
    exists [], (off, []), ps, h. split; [done|]. split; [done|]. split; [constructor|]. rewrite app_nil_r. split; [done|].
    unfold from_slice. rewrite gocopy_full by (rewrite sha1_length; done). done.
Qed.
Lemma C51_noticed_lemma ps buf ok : recv_all new_recv ps = Ok (RSave buf ok) ->
  exists mid e rest h, ps = mid ++ e :: rest /\ end_packet e /\ Forall (fun p => ~ end_packet p) mid /\ told mid h buf
    /\ ok = bool_decide (sha1 buf = h).
Proof. apply (rinv_all ps [] new_recv). split; [constructor|done]. Qed.

(** *** C52 *)
Definition shape (size : option N) (r : recv) : Prop :=
  length (rc_buf r) = N.to_nat (default 0%N size) /\ (rc_hash r = None <-> size = None).
Lemma recv_packet_bad size r p : shape size r -> is_panic (recv_packet r p) <-> bad size p.
Proof.
  destruct p as [off data]. intros [Hl Hr]. unfold bad. cbn [recv_packet fst snd].
  destruct (decide (off = 0%N)) as [->|Ho].
  - rewrite <- split_panics. destruct (split_packet data) as [[[hh n] d]|e|e]; cbn [rbind];
      (split; intros [x Hx]; first [done | eexists; reflexivity]).
  - destruct (decide (data = [])) as [->|Hd].
    + destruct (rc_hash r) as [hh|].
      * destruct size as [n|]; [|exfalso; destruct Hr as [_ Hr]; by specialize (Hr eq_refl)].
        split; [intros [? ?]; done|]. intros [? _]. done.
      * destruct size as [n|]; [exfalso; destruct Hr as [Hr _]; by specialize (Hr eq_refl)|].
        split; [done|]. intros _. eexists; done.
    + rewrite Hl. destruct size as [n|]; cbn [default from_option].
      * cbn. destruct (decide _) as [Hle|Hle].
        -- split; [intros [? ?]; done|]. intros [_ ?]. lia.
        -- split; [intros _; split; [done|lia]|]. intros _. eexists; done.
      * rewrite decide_False by (cbn; lia). split; [done|]. intros _. eexists; done.
Qed.
Lemma announced_snoc ps p : announced (ps ++ [p]) =
  if decide (p.1 = 0%N) then Some (unbe (take 4 (drop 20 p.2))) else announced ps.
Proof.
  induction ps as [|q ps IH]; cbn [app announced].
  - done.
  - rewrite IH. destruct (decide (p.1 = 0%N)); done.
Qed.
Lemma recv_packet_more size r p r' : shape size r -> recv_packet r p = Ok (RMore r') ->
  ~ end_packet p /\ shape (if decide (p.1 = 0%N) then Some (unbe (take 4 (drop 20 p.2))) else size) r'.
Proof.
  destruct p as [off data]. intros [Hl Hr]. unfold end_packet. cbn [recv_packet fst snd].
  destruct (decide (off = 0%N)) as [->|Ho].
  - unfold split_packet. destruct (decide _) as [H24|]; [|done]. cbn [rbind]. intros [= <-].
    split; [by intros [? _]|]. split; cbn [rc_buf rc_hash].
    + rewrite gocopy_length, zeros_length. done.
    + done.
  - destruct (decide (data = [])) as [->|Hd]; [destruct (rc_hash r); done|].
    destruct (decide _) as [Hle|]; [|done]. intros [= <-]. split; [by intros [_ ?]|].
    split; cbn [rc_buf rc_hash]; [|done].
    rewrite app_length, gocopy_length, take_length, drop_length. lia.
Qed.
Lemma recv_packet_save r p buf ok : recv_packet r p = Ok (RSave buf ok) -> end_packet p.
Proof.
  destruct p as [off data]. unfold end_packet. cbn [recv_packet fst snd].
  destruct (decide (off = 0%N)) as [->|Ho].
  - destruct (split_packet data) as [[[hh n] d]|e|e]; done.
  - destruct (decide (data = [])) as [->|Hd]; [done|]. destruct (decide _); done.
Qed.
Lemma recv_packet_noerr r p e : recv_packet r p <> Err e.
Proof.
  destruct p as [off data]. cbn [recv_packet].
  destruct (decide (off = 0%N)) as [->|Ho].
  - unfold split_packet. destruct (decide _); done.
  - destruct (decide (data = [])) as [->|Hd]; [destruct (rc_hash r); done|]. destruct (decide _); done.
Qed.
Lemma recv_all_panics ps : forall r pre0, shape (announced pre0) r ->
  is_panic (recv_all r ps) <->
  exists pre p post, ps = pre ++ p :: post /\ Forall (fun q => ~ end_packet q) pre /\ bad (announced (pre0 ++ pre)) p.
Proof.
  induction ps as [|p ps IH]; intros r pre0 Hs; cbn [recv_all].
  - split; [intros [? ?]; done|]. intros (pre & p & post & He & _). destruct pre; done.
  - pose proof (recv_packet_bad _ r p Hs) as Hb.
    destruct (recv_packet r p) as [[r'|buf ok]|e|e] eqn:E; cbn [rbind].
    + destruct (recv_packet_more _ _ _ _ Hs E) as [Hne Hs'].
      rewrite (IH r' (pre0 ++ [p])) by (rewrite announced_snoc; exact Hs').
      split.
      * intros (pre & q & post & -> & Hf & Hq). exists (p :: pre), q, post. split; [done|].
        split; [by constructor|]. rewrite <- app_assoc in Hq. exact Hq.
      * intros (pre & q & post & He & Hf & Hq). destruct pre as [|p0 pre]; cbn [app] in He.
        -- injection He as <- <-. rewrite app_nil_r in Hq. apply Hb in Hq as [? ?]. done.
        -- injection He as <- ->. apply Forall_cons in Hf as [_ Hf]. exists pre, q, post.
           split; [done|]. split; [done|]. rewrite <- app_assoc. exact Hq.
    + split; [intros [? ?]; done|]. intros (pre & q & post & He & Hf & Hq).
      pose proof (recv_packet_save _ _ _ _ E) as Hend.
      destruct pre as [|p0 pre]; cbn [app] in He.
      * injection He as <- <-. rewrite app_nil_r in Hq. apply Hb in Hq as [? ?]. done.
      * injection He as <- ->. apply Forall_cons in Hf as [Hf _]. done.
    + by apply recv_packet_noerr in E.
    + split; [|intros _; eexists; done]. intros _. exists [], p, ps. split; [done|]. split; [constructor|].
      rewrite app_nil_r. apply Hb. eexists; done.
Qed.
Lemma C52_lemma ps : is_panic (recv_all new_recv ps) <->
  exists pre p post, ps = pre ++ p :: post /\ Forall (fun q => ~ end_packet q) pre /\ bad (announced pre) p.
Proof. apply (recv_all_panics ps new_recv []). split; done. Qed.
Lemma C52_parse_lemma ds : is_panic (parse_all ds) <-> Exists (fun d => length d < 5) ds.
Proof.
  induction ds as [|d ds IH]; cbn [parse_all].
  - rewrite Exists_nil. split; [intros [? ?]; done|done].
  - rewrite Exists_cons, <- (parse_data_panics 1029 d) by lia. rewrite <- IH.
    pose proof (parse_data_total 1029 d ltac:(lia)) as Ht.
    destruct (parse_data (udp_clipped 1029 d)) as [p|e|e]; cbn [rbind].
    + destruct (parse_all ds) as [ps|e|e]; cbn [rbind].
      * split; [intros [? ?]; done|]. intros [[? ?]|[? ?]]; done.
      * split; [intros [? ?]; done|]. intros [[? ?]|[? ?]]; done.
      * split; [|intros _; eexists; done]. intros _. right. eexists; done.
    + exfalso. apply Ht. eexists; done.
    + split; [|intros _; eexists; done]. intros _. left. eexists; done.
Qed.
