(** Proofs about whole chunk transfers over lossless in-order channels (C50). *)
From Verif Require Export SenderProofs RecvProofs.
From Verif Require Import HashProofs ChunkProofs MessagesProofs.
From Coq Require Import ZifyBool ZifyNat ZifyN.
Ltac Zify.zify_post_hook ::= Z.div_mod_to_equations.

Section sys.
  Context (l : list byte) (cs i : nat) (Hcs : (Z.of_nat cs < 4294967296)%Z) (Hi : (Z.of_nat i < 65536)%Z).
  Notation B := (chunk_bytes l cs i).
  Notation E := (first_eof cs (chunk_bytes l cs i)).
  Notation M := (first_empty (chunk_bytes l cs i)).
  Notation h := (sha1 (chunk_bytes l cs i)).
  Notation pk := (stream (sha1 (chunk_bytes l cs i)) (chunk_bytes l cs i)).
  Notation rdk j := (rd_at l cs i (stream_pos (chunk_bytes l cs i) j)).
  Context (cap : N) (Hcap : (1 <= cap < 65536)%N) (HBne : B <> []).
  Notation C := (N.to_nat cap).

  Lemma BZ : (Z.of_nat (length B) < 4294967296)%Z.
  Proof. pose proof (B_len l cs i). lia. Qed.
  Lemma hwf : hash_wf h.
  Proof. apply sha1_length. Qed.

  Definition rinv (r : nat) (u n : nat) (x : rstate) : Prop :=
    match x with
    | RRun rc => n + u = r /\ r <= M /\
        (r = 0 \/ exists buf, rc = mkRecv (Some h) buf /\ assembled B (seq 0 r) buf)
    | RDone buf ok => buf = B /\ ok = true
    | RTimeout => True
    | RCrash => False
    end.
  Definition yinv (r : nat) (a : sys) : Prop :=
    exists m n, uinv l cs i cap (y_sender a) (map pk (seq 0 m)) n /\ r <= m /\ r <= M + 1
      /\ y_data a = map pk (seq r (m - r)) /\ rinv r (y_ups a) n (y_recv a).
  Definition weight (r : nat) (a : sys) : nat :=
    3 * (M + 1 - r) + 2 * y_ups a + sd_acks (y_sender a) + sd_workers (y_sender a).

  Lemma uinv_len s ps n : uinv l cs i cap s ps n -> ps = map pk (seq 0 (length ps)).
  Proof. intros (k & m & _ & -> & _). rewrite map_length, seq_length. done. Qed.
  Lemma data_cons p d r m : p :: d = map pk (seq r (m - r)) -> p = pk r /\ d = map pk (seq (S r) (m - S r)) /\ S r <= m.
  Proof.
    destruct (m - r) as [|q] eqn:Eq; [done|]. cbn [seq map]. intros [= -> ->].
    replace (m - S r) with q by lia. split; [done|]. split; [done|lia].
  Qed.
  (** the receiver takes packet [r] *)
  Lemma take_packet r rc : r <= M -> (r = 0 \/ exists buf, rc = mkRecv (Some h) buf /\ assembled B (seq 0 r) buf) ->
    (r < M /\ exists buf', recv_packet rc (pk r) = Ok (RMore (mkRecv (Some h) buf')) /\ assembled B (seq 0 (S r)) buf')
    \/ (r = M /\ recv_packet rc (pk r) = Ok (RSave B true)).
  Proof.
    intros Hr Hrc. destruct (decide (r < M)) as [Hlt|Hge].
    - left. split; [done|]. destruct r as [|j].
      + destruct (recv_header h B hwf BZ rc) as (buf & H1 & H2). exists buf. done.
      + destruct Hrc as [?|(buf & -> & Ha)]; [lia|].
        destruct (recv_data h B j (seq 0 (S j)) buf) as (buf' & H1 & H2); [done|done|].
        exists buf'. split; [done|]. rewrite seq_S. exact H2.
    - right. assert (r = M) as -> by lia. split; [done|].
      destruct Hrc as [H0|(buf & -> & Ha)]; [unfold first_empty in H0; lia|].
      assert (buf = B) as ->.
      { eapply assembled_full; [|exact Ha]. intros k Hk. apply elem_of_seq. lia. }
      destruct M as [|j] eqn:EM; [unfold first_empty in EM; lia|].
      rewrite recv_end by (done || apply BZ || lia). rewrite bool_decide_true by done. done.
  Qed.
  Lemma ystep_inv r a b : yinv r a -> ystep a b -> exists r', yinv r' b /\ weight r' b < weight r a.
  Proof.
    intros (m & n & Hu & Hrm & HrM & Hd & Hr) Hs.
    destruct Hs as [s e s' ps d u x He Hs|s s' d u x Hs|s p d u rc rc' Hp|s p d u rc buf ok Hp|s p d u rc w Hp];
      cbn [y_sender y_data y_ups y_recv] in *.
    - pose proof (uinv_work l cs i Hcs cap Hcap s _ n e s' ps Hu He Hs) as Hu'.
      pose proof (uinv_len _ _ _ Hu') as Hl. set (m' := length (map pk (seq 0 m) ++ ps)) in *.
      exists r. split.
      + exists m', n. cbn [y_sender y_data y_ups y_recv]. rewrite <- Hl. split; [done|].
        assert (m' = m + length ps) as Hm by (subst m'; rewrite app_length, map_length, seq_length; done).
        split; [lia|]. split; [done|]. split; [|done].
        rewrite Hd. rewrite Hm in Hl. rewrite seq_app, map_app in Hl. apply app_inv_head in Hl.
        rewrite Hl at 1. rewrite <- map_app. f_equal. rewrite Hm.
        replace (m + length ps - r) with (m - r + length ps) by lia. rewrite seq_app. do 2 f_equal. lia.
      + assert (e <> SAck) as He' by (destruct He as [->| ->]; done).
        pose proof (work_ends s e s' ps He' Hs). unfold weight. cbn [y_sender y_ups]. lia.
    - pose proof (uinv_ack l cs i cap s _ n s' Hu Hs) as Hu'.
      exists r. split.
      + exists m, (S n). cbn [y_sender y_data y_ups y_recv]. split; [done|]. split; [done|]. split; [done|]. split; [done|].
        destruct x; cbn [rinv] in *; try done. destruct Hr as (H1 & H2 & H3). split; [lia|]. done.
      + unfold weight. cbn [y_sender y_ups]. cbn [sstep] in Hs. injection Hs as <-. cbn [set_acks sd_acks sd_workers]. lia.
    - apply data_cons in Hd as (-> & -> & Hm). cbn [rinv] in Hr. destruct Hr as (H1 & H2 & H3).
      destruct (take_packet r rc H2 H3) as [(Hlt & buf & Ht & Ha)|(-> & Ht)]; [|congruence].
      assert (rc' = mkRecv (Some h) buf) as -> by congruence.
      exists (S r). split.
      + exists m, n. cbn [y_sender y_data y_ups y_recv]. split; [done|]. split; [done|]. split; [lia|]. split; [done|].
        cbn [rinv]. split; [lia|]. split; [lia|]. right. exists buf. done.
      + unfold weight. cbn [y_sender y_ups]. lia.
    - apply data_cons in Hd as (-> & -> & Hm). cbn [rinv] in Hr. destruct Hr as (H1 & H2 & H3).
      destruct (take_packet r rc H2 H3) as [(Hlt & b0 & Ht & Ha)|(-> & Ht)]; [congruence|].
      exists (S M). split.
      + exists m, n. cbn [y_sender y_data y_ups y_recv]. split; [done|]. split; [done|]. split; [lia|]. split; [done|].
        cbn [rinv]. split; congruence.
      + unfold weight. cbn [y_sender y_ups]. lia.
    - exfalso. apply data_cons in Hd as (-> & -> & Hm). cbn [rinv] in Hr. destruct Hr as (H1 & H2 & H3).
      destruct (take_packet r rc H2 H3) as [(Hlt & b0 & Ht & Ha)|(-> & Ht)]; congruence.
  Qed.
  Lemma ystart_inv a : ystart l cs i cap a -> yinv 0 a /\ weight 0 a <= 3 * M + 4.
  Proof.
    intros (fuel & rd & s & p & Hrd & Hk & ->).
    destruct (kickstart_ok l cs i Hcs Hi cap s p fuel rd Hrd Hk) as [-> ->]. split.
    - exists 1, 0. cbn [y_sender y_data y_ups y_recv]. split; [|split; [lia|split; [lia|split; [done|]]]].
      + exists 0, 1. split; [by apply us_first|]. done.
      + cbn [rinv]. split; [done|]. split; [lia|]. by left.
    - unfold weight. cbn. lia.
  Qed.
  (** *** safety, with time-outs *)
  Lemma safe_lemma a b : ystart l cs i cap a -> rtc ystep_t a b ->
    (forall buf ok, y_recv b = RDone buf ok -> buf = B /\ ok = true) /\ y_recv b <> RCrash.
  Proof.
    intros Ha Hs. assert (exists r, yinv r b) as (r & m & n & _ & _ & _ & _ & Hr).
    { apply ystart_inv in Ha as [Ha _]. assert (exists r, yinv r a) as H0 by (eexists; exact Ha). clear Ha. revert H0.
      induction Hs as [a|a b c Hab Hbc IH]; [done|]. intros (r & Ha). apply IH.
      inversion Hab as [? ? Hy|s d u rc]; subst.
      - destruct (ystep_inv r a b Ha Hy) as (r' & H' & _). by exists r'.
      - destruct Ha as (m & n & H1 & H2 & H3 & H4 & H5). exists r, m, n. cbn [y_sender y_data y_ups y_recv rinv] in *. done. }
    split.
    - intros buf ok Hb. rewrite Hb in Hr. exact Hr.
    - intros Hb. rewrite Hb in Hr. exact Hr.
  Qed.
  (** *** termination *)
  Lemma bounded_lemma a b k : ystart l cs i cap a -> nsteps ystep k a b -> k <= 3 * M + 4.
  Proof.
    intros Ha Hk. apply ystart_inv in Ha as [Ha Hw].
    cut (k + 0 <= weight 0 a); [lia|].
    cut (exists r, yinv r b /\ k + weight r b <= weight 0 a); [intros (r & _ & ?); lia|].
    clear Hw. revert Ha. generalize 0 as r0. induction Hk as [a|k a b c Hab Hbc IH]; intros r0 Ha.
    - exists r0. split; [done|lia].
    - destruct (ystep_inv r0 a b Ha Hab) as (r1 & H1 & H2).
      destruct (IH r1 H1) as (r & H3 & H4). exists r. split; [done|lia].
  Qed.
  (** *** the chunk arrives *)
  Lemma no_timeout a b : rtc ystep a b -> y_recv a <> RTimeout -> y_recv b <> RTimeout.
  Proof.
    induction 1 as [a|a b c Hab Hbc IH]; [done|]. intros Ha. apply IH.
    destruct Hab; cbn [y_recv] in *; done.
  Qed.
  Lemma reach_inv a b : ystart l cs i cap a -> rtc ystep a b -> exists r, yinv r b.
  Proof.
    intros Ha Hs. apply ystart_inv in Ha as [Ha _].
    assert (exists r, yinv r a) as H0 by (eexists; exact Ha). clear Ha. revert H0.
    induction Hs as [a|a b c Hab Hbc IH]; [done|]. intros (r & Ha). apply IH.
    destruct (ystep_inv r a b Ha Hab) as (r' & H' & _). by exists r'.
  Qed.
  Lemma live_lemma a b : ~ ragged cs B \/ M <= C -> ystart l cs i cap a -> rtc ystep a b -> (forall c, ~ ystep b c) ->
    y_recv b = RDone B true.
  Proof.
    intros Hr Ha Hs Hend. destruct (reach_inv a b Ha Hs) as (r & m & n & Hu & Hrm & HrM & Hd & Hx).
    assert (y_recv b <> RTimeout) as Ht.
    { eapply no_timeout; [exact Hs|]. destruct Ha as (? & ? & ? & ? & _ & _ & ->). done. }
    destruct b as [s d u x]. cbn [y_sender y_data y_ups y_recv] in *.
    destruct x as [rc|buf ok| |]; cbn [rinv] in Hx; [|destruct Hx as [-> ->]; done|done|done].
    exfalso. destruct Hx as (Hn & Hr1 & Hr2).
    assert (quiet s) as Hq.
    { apply (proj2 (quiet_iff s)). destruct (decide (sd_workers s = 0)) as [|Hw]; [by left|right]. split.
      - destruct (decide (sd_acks s = 0)) as [|Hk]; [done|]. exfalso.
        destruct (uinv_kicks l cs i Hcs cap Hcap s _ n Hu) as (s' & ps' & Hk'); [lia|lia|].
        eapply Hend. eapply ys_work; [left; reflexivity|exact Hk'].
      - destruct (sd_tok s) eqn:Et; [|done]. exfalso. eapply Hend. eapply ys_work; [right; reflexivity|].
        cbn [sstep]. rewrite decide_True by (split; [lia|done]). reflexivity. }
    destruct u as [|u]; [|eapply Hend; eapply ys_ack; done].
    destruct (m - r) as [|q] eqn:Eq.
    2: { cbn [seq map] in Hd. destruct (take_packet r rc Hr1 Hr2) as [(_ & buf' & Hp & _)|(_ & Hp)]; subst d.
         - eapply Hend. eapply ys_more. exact Hp.
         - eapply Hend. eapply ys_save. exact Hp. }
    pose proof (C47_inv l cs i cap Hcap s (map pk (seq 0 m)) n Hr Hu Hq) as Hm.
    rewrite map_length, seq_length in Hm. specialize (Hm ltac:(lia)). lia.
  Qed.
  Lemma start_exists : exists a, ystart l cs i cap a.
  Proof.
    destruct (C73_ok_lemma l cs i Hcs Hi) as (fuel & rd & Hrd).
    pose proof (reader_at l cs i fuel rd Hcs Hi Hrd) as ->.
    eexists. exists fuel. do 3 eexists. split; [exact Hrd|]. split; [apply kickstart_eq; done|reflexivity].
  Qed.

  (** *** a transfer that stops before its end packet *)
  Lemma drain s q : forall r u rc, r + q <= M ->
    (r = 0 \/ exists buf, rc = mkRecv (Some h) buf /\ assembled B (seq 0 r) buf) -> 0 < r + q ->
    exists buf, rtc ystep (mkSys s (map pk (seq r q)) u (RRun rc)) (mkSys s [] (q + u) (RRun (mkRecv (Some h) buf)))
      /\ assembled B (seq 0 (r + q)) buf.
  Proof.
    induction q as [|q IH]; intros r u rc Hq Hrc H0.
    - destruct Hrc as [->|(buf & -> & Ha)]; [lia|]. exists buf. rewrite Nat.add_0_r. split; [apply rtc_refl|done].
    - destruct (take_packet r rc) as [(Hlt & b1 & Hp & Ha)|(-> & _)]; [lia|done| |lia].
      destruct (IH (S r) (S u) (mkRecv (Some h) b1)) as (b2 & H2 & Ha2); [lia|right; eauto|lia|].
      exists b2. replace (r + S q) with (S r + q) by lia. split; [|done].
      eapply rtc_l; [cbn [seq map]; eapply ys_more; exact Hp|].
      replace (S q + u) with (q + S u) by lia. exact H2.
  Qed.
  Definition lockstep (a : sys) (k m : nat) : Prop :=
    exists s buf, a = mkSys s [] (m - k) (RRun (mkRecv (Some h) buf)) /\ assembled B (seq 0 m) buf
      /\ ustate l cs i cap s k m /\ sd_file s = FRegular l /\ sd_cap s = cap /\ sd_rd s = rdk (m - 1) /\ sd_acks s = 0
      /\ sd_workers s + sd_stuck s = 1.
  Lemma lock_next a k m : lockstep a k m -> m <= E -> C + S k <= M -> k < m -> 
    exists b, rtc ystep a b /\ lockstep b (S k) (C + S k).
  Proof.
    intros (s & buf & -> & Ha & Hu & Hf & Hc & Hr & Hk & Hz) Hm HM Hkm.
    assert (sd_workers s = 1) as Hw by (inversion Hu; lia).
    destruct (ukick l cs i Hcs cap Hcap s k m) as (s1 & m1 & Hk1 & Hm1 & -> & Hu1 & Hf1 & Hc1 & Hr1 & Ha1 & Hz1); try done; [lia|].
    destruct (drain s1 (C + S k - m) m (m - S k) (mkRecv (Some h) buf)) as (b2 & H2 & Ha2); [lia|right; eauto|lia|].
    replace (m + (C + S k - m)) with (C + S k) in Ha2 by lia.
    eexists. split.
    - eapply rtc_l.
      { replace (m - k) with (S (m - S k)) by lia. eapply ys_ack. reflexivity. }
      eapply rtc_l.
      { eapply ys_work; [left; reflexivity|]. cbn [sstep]. rewrite decide_True by (cbn; lia).
        assert (set_acks (set_acks s (S (sd_acks s))) (pred (sd_acks (set_acks s (S (sd_acks s))))) = s) as -> by (destruct s; done).
        rewrite Hk1. reflexivity. }
      cbn [app]. exact H2.
    - exists s1, b2. split; [f_equal; lia|]. split; [done|]. repeat split; try done. congruence.
  Qed.
  Lemma lock_start : 1 < M \/ 1 <= E -> exists a b, ystart l cs i cap a /\ rtc ystep a b /\ lockstep b 0 1.
  Proof.
    intros _. destruct (C73_ok_lemma l cs i Hcs Hi) as (fuel & rd & Hrd).
    pose proof (reader_at l cs i fuel rd Hcs Hi Hrd) as ->.
    pose proof (kickstart_eq l cs i Hcs cap) as Hk.
    destruct (drain (mkSender (FRegular l) (rdk 0) 1 cap 0 false 1 0) 1 0 0 new_recv) as (buf & H1 & H2);
      [unfold first_empty; lia|by left|lia|].
    eexists _, _. split; [exists fuel; do 3 eexists; split; [exact Hrd|]; split; [exact Hk|reflexivity]|].
    split; [exact H1|]. exists (mkSender (FRegular l) (rdk 0) 1 cap 0 false 1 0), buf. split; [done|]. split; [done|].
    split; [by apply us_first|]. done.
  Qed.
  Lemma lock_run k : C + S k <= E + 1 -> E + 1 <= M -> exists a b, ystart l cs i cap a /\ rtc ystep a b /\ lockstep b (S k) (C + S k).
  Proof.
    pose proof (first_eof_bounds cs B). induction k as [|k IH]; intros Hk HE.
    - destruct lock_start as (a & b & Ha & Hab & Hl); [lia|].
      destruct (lock_next b 0 1 Hl) as (c & Hbc & Hc); [lia|lia|lia|].
      exists a, c. split; [done|]. split; [by etrans|done].
    - destruct IH as (a & b & Ha & Hab & Hl); [lia|lia|].
      destruct (lock_next b _ _ Hl) as (c & Hbc & Hc); [lia|lia|lia|].
      exists a, c. split; [done|]. split; [by etrans|done].
  Qed.
  Lemma lost_lemma : ragged cs B -> C < M -> exists a b, ystart l cs i cap a /\ rtc ystep a b /\ (forall c, ~ ystep b c)
    /\ exists r, y_recv b = RRun r.
  Proof.
    intros Hr HC. pose proof (first_eof_bounds cs B).
    assert (E = M - 1) as HE by (unfold first_eof; rewrite decide_True by done; done).
    destruct (lock_run (E - C)) as (a & b & Ha & Hab & (s & buf & -> & _ & Hu & _ & _ & _ & Hk & Hz)); [lia|lia|].
    assert (sd_workers s = 1 /\ sd_tok s = true) as [Hw Ht].
    { inversion Hu as [|k W1 W2 W3 W4 W5|k W2|k W2]; try lia. split; [done|]. rewrite W5. apply bool_decide_true. lia. }
    set (u := C + S (E - C) - S (E - C)) in *.
    set (s' := mkSender (sd_file s) (sd_rd s) (sd_ws s) (sd_cap s) (sd_acks s) false (pred (sd_workers s)) (sd_stuck s)).
    assert (forall u x, rtc ystep (mkSys x [] u (RRun (mkRecv (Some h) buf))) (mkSys (set_acks x (u + sd_acks x)) [] 0 (RRun (mkRecv (Some h) buf)))) as Hacks.
    { clear. induction u as [|u IH]; intros x; [destruct x; apply rtc_refl|].
      eapply rtc_l; [eapply ys_ack; reflexivity|]. specialize (IH (set_acks x (S (sd_acks x)))).
      cbn [set_acks sd_acks sd_file sd_rd sd_ws sd_cap sd_tok sd_workers sd_stuck] in *.
      unfold set_acks in *. cbn [sd_acks sd_file sd_rd sd_ws sd_cap sd_tok sd_workers sd_stuck] in *.
      replace (S u + sd_acks x) with (u + S (sd_acks x)) by lia. exact IH. }
    exists a. eexists. split; [done|]. split; [|split].
    - etrans; [exact Hab|]. eapply rtc_l; [|apply (Hacks u s')].
      eapply (ys_work s SCancel s' []); [by right|]. cbn [sstep]. rewrite decide_True by (split; [lia|done]). done.
    - intros c Hc. inversion Hc as [s0 e s1 ps d0 u0 r0 He Hs| | | |]; subst.
      assert (sd_workers (set_acks s' (u + sd_acks s')) = 0) as Hw0 by (cbn; lia).
      destruct He as [->| ->]; cbn [sstep] in Hs;
        (destruct (decide _) as [[Hx _]|]; [cbn in Hx; rewrite Hw in Hx; lia|done]).
    - eexists. reflexivity.
  Qed.
End sys.
