(** Proofs about the sending side of a chunk transfer (C45-C48). *)
From Verif Require Export TransferProofs.
From Verif Require Import HashProofs ChunkProofs MessagesProofs.
From Coq Require Import ZifyBool ZifyNat ZifyN.
Ltac Zify.zify_post_hook ::= Z.div_mod_to_equations.

Section upload.
  Context (l : list byte) (cs i : nat) (Hcs : (Z.of_nat cs < 4294967296)%Z) (Hi : (Z.of_nat i < 65536)%Z).
  Notation B := (chunk_bytes l cs i).
  Notation E := (first_eof cs (chunk_bytes l cs i)).
  Notation pk := (stream (sha1 (chunk_bytes l cs i)) (chunk_bytes l cs i)).
  Notation rdk j := (rd_at l cs i (stream_pos (chunk_bytes l cs i) j)).

  (** *** C45: a prefix of the stream, whatever happens *)
  Definition pinv (s : sender) (ps : list packet) : Prop :=
    exists m, ps = map pk (seq 0 (S m)) /\ sd_file s = FRegular l
      /\ (0 < sd_workers s -> sd_rd s = rdk m) /\ sd_workers s <= 1.
  Lemma seq_join m k : map pk (seq 0 (S m)) ++ map pk (seq (S m) k) = map pk (seq 0 (S (m + k))).
  Proof. rewrite <- map_app, <- seq_app. f_equal. Qed.
  Lemma pinv_kick s ps w s' ps' d : pinv s ps -> 0 < sd_workers s -> kick s w = (s', ps', d) ->
    (d = false -> pinv s' (ps ++ ps')) /\ exists m, ps ++ ps' = map pk (seq 0 (S m)).
  Proof.
    intros (m & -> & Hf & Hr & Hw) H0. specialize (Hr H0). unfold kick.
    rewrite Hf, Hr.
    destruct (kick_loop_fail l cs i Hcs (N.to_nat (sd_cap s - (sd_ws s + 65535) mod 65536)) m w) as (k & j' & ts & err & -> & Hj).
    intros [= <- <- <-]. split.
    - intros Hd. exists (m + k). rewrite seq_join. split; [done|].
      cbn [sd_file sd_workers sd_rd]. split; [done|].
      destruct (1 <? _)%nat eqn:Hb.
      + split; [|lia]. intros; lia.
      + split; [|done]. intros _. rewrite andb_true_r in Hd. rewrite Hj by done. done.
    - exists (m + k). apply seq_join.
  Qed.
  Lemma pinv_step s ps e s' ps' : pinv s ps -> sstep s e = SGo s' ps' -> pinv s' (ps ++ ps').
  Proof.
    intros H. destruct e as [|w|]; cbn [sstep].
    - intros [= <- <-]. rewrite app_nil_r. exact H.
    - destruct (decide _) as [[H1 H2]|]; [|done].
      destruct (kick _ w) as [[s1 p1] d] eqn:Ek. destruct d; [done|]. intros [= <- <-].
      apply (pinv_kick (set_acks s (pred (sd_acks s))) ps w s1 p1 false); done.
    - destruct (decide _) as [[H1 H2]|]; [|done]. intros [= <- <-]. rewrite app_nil_r.
      destruct H as (m & ? & ? & ? & ?). exists m. cbn [sd_file sd_workers sd_rd]. repeat split; try done; lia.
  Qed.
  Lemma uploads_pinv cap s ps : uploads l cs i cap s ps -> pinv s ps.
  Proof.
    induction 1 as [fuel rd s p H1 H2|s ps e s' ps' H IH Hs].
    - destruct (kickstart_ok l cs i Hcs Hi cap s p fuel rd H1 H2) as [-> ->].
      exists 0. cbn [sd_file sd_workers sd_rd]. done.
    - eapply pinv_step; done.
  Qed.
  Lemma C45_lemma cap s ps : uploads l cs i cap s ps ->
    exists m, ps = map pk (seq 0 (S m))
    /\ forall w ps', sstep s (SKick w) = SDead ps' -> exists m', ps ++ ps' = map pk (seq 0 (S m')).
  Proof.
    intros H. apply uploads_pinv in H. pose proof H as (m & Hp & _). exists m. split; [done|].
    intros w ps'. cbn [sstep]. destruct (decide _) as [[H1 H2]|]; [|done].
    destruct (kick _ w) as [[s1 p1] d] eqn:Ek. destruct d; [|done]. intros [= <-].
    apply (pinv_kick (set_acks s (pred (sd_acks s))) ps w s1 p1 true); done.
  Qed.

  (** *** Exact state of an upload after [k] kicks *)
  Context (cap : N) (Hcap : (1 <= cap < 65536)%N).
  Notation C := (N.to_nat cap).
  Inductive ustate (s : sender) : nat -> nat -> Prop :=
  | us_first : sd_ws s = 1%N -> sd_workers s = 1 -> sd_stuck s = 0 -> sd_tok s = false -> ustate s 0 1
  | us_run k : sd_ws s = cap -> sd_workers s = 1 -> sd_stuck s = 0 -> C + S k <= E + 1 ->
      sd_tok s = bool_decide (C + S k = E + 1) -> ustate s (S k) (C + S k)
  | us_exit k : sd_workers s = 0 -> sd_stuck s = 0 -> sd_tok s = false -> C + S k = E + 1 -> ustate s (S k) (C + S k)
  | us_stuck k : sd_workers s = 0 -> sd_stuck s = 1 -> sd_tok s = true -> E + 2 <= C + S k -> ustate s (S k) (C + S k).
  Definition uinv (s : sender) (ps : list packet) (n : nat) : Prop :=
    exists k m, ustate s k m /\ ps = map pk (seq 0 m) /\ sd_file s = FRegular l /\ sd_cap s = cap
      /\ sd_rd s = rdk (m - 1) /\ n = k + sd_acks s.

  Lemma E_pos : 1 <= E.
  Proof. apply first_eof_bounds. Qed.
  Lemma ustate_acks s a k m : ustate s k m -> ustate (set_acks s a) k m.
  Proof.
    intros H. destruct H; [apply us_first|apply us_run|apply us_exit|apply us_stuck]; done.
  Qed.
  Lemma ukick s k m : ustate s k m -> 0 < sd_workers s -> sd_file s = FRegular l -> sd_cap s = cap ->
    sd_rd s = rdk (m - 1) ->
    exists s' m', kick s None = (s', map pk (seq m (m' - m)), false) /\ m < m' /\ m' = C + S k /\ ustate s' (S k) m'
      /\ sd_file s' = FRegular l /\ sd_cap s' = cap /\ sd_rd s' = rdk (m' - 1) /\ sd_acks s' = sd_acks s
      /\ sd_workers s' + sd_stuck s' = 1.
  Proof.
    pose proof E_pos as HE.
    intros Hu Hw Hf Hc Hr. unfold kick. rewrite Hf, Hr, Hc.
    inversion Hu as [W1 W2 W3 W4|k0 W1 W2 W3 W4 W5|k0 W2|k0 W2]; subst k m; try lia.
    - rewrite W1. replace ((1 + 65535) mod 65536)%N with 0%N by reflexivity.
      rewrite kick_loop_ok by done. rewrite W4. cbn zeta.
      rewrite map_length, seq_length. replace (N.to_nat (cap - 0)) with C by lia.
      set (toks := 0 + (S (1 - 1) + C - Nat.max E (S (1 - 1)))).
      assert (toks = C + 1 - E) as Ht by lia.
      eexists _, (C + 1). split.
      { f_equal. f_equal. replace (C + 1 - 1) with C by lia. done. }
      split; [lia|]. split; [lia|].
      split; [|cbn [sd_file sd_cap sd_rd sd_acks sd_workers sd_stuck]; repeat split;
        [do 2 f_equal; lia|rewrite W2, W3; destruct (1 <? toks)%nat; done]].
      destruct (Nat.ltb_spec 1 toks) as [Hb|Hb].
      + apply us_stuck; cbn [sd_workers sd_stuck sd_tok]; try lia.
      + apply us_run; cbn [sd_workers sd_stuck sd_tok sd_ws]; try lia.
        destruct (decide (C + 1 = E + 1)); [rewrite bool_decide_true by done|rewrite bool_decide_false by done]; lia.
    - rewrite W1. replace ((cap + 65535) mod 65536)%N with (cap - 1)%N by lia.
      rewrite kick_loop_ok by done. rewrite W5. cbn zeta.
      rewrite map_length, seq_length. replace (N.to_nat (cap - (cap - 1))) with 1 by lia.
      set (toks := (if bool_decide (C + S k0 = E + 1) then 1 else 0) + _).
      set (m := C + S k0) in *.
      assert (toks = if decide (m = E + 1) then 2 else if decide (m = E) then 1 else 0) as Ht.
      { subst toks. destruct (decide (m = E + 1)); [rewrite bool_decide_true by done; lia|].
        rewrite bool_decide_false by done. destruct (decide (m = E)); lia. }
      eexists _, (C + S (S k0)). split.
      { f_equal. f_equal. replace (S (m - 1)) with m by lia. f_equal. f_equal. lia. }
      split; [lia|]. split; [lia|].
      split; [|cbn [sd_file sd_cap sd_rd sd_acks sd_workers sd_stuck]; repeat split;
        [do 2 f_equal; lia|rewrite W2, W3; destruct (1 <? toks)%nat; done]].
      destruct (Nat.ltb_spec 1 toks) as [Hb|Hb].
      + apply us_stuck; cbn [sd_workers sd_stuck sd_tok]; clearbody toks; repeat case_decide; lia.
      + apply us_run; cbn [sd_workers sd_stuck sd_tok sd_ws]; clearbody toks; try (repeat case_decide; lia).
        destruct (decide (C + S (S k0) = E + 1)); [rewrite bool_decide_true by done|rewrite bool_decide_false by done]; repeat case_decide; lia.
  Qed.

  Lemma uinv_ack s ps n s' : uinv s ps n -> sstep s SAck = SGo s' [] -> uinv s' ps (S n).
  Proof.
    intros (k & m & Hu & Hp & Hf & Hc & Hr & ->). cbn [sstep]. intros [= <-].
    exists k, m. split; [by apply ustate_acks|]. cbn. repeat split; try done; lia.
  Qed.
  Lemma uinv_work s ps n e s' ps' : uinv s ps n -> e = SKick None \/ e = SCancel ->
    sstep s e = SGo s' ps' -> uinv s' (ps ++ ps') n.
  Proof.
    intros (k & m & Hu & -> & Hf & Hc & Hr & ->) [->| ->]; cbn [sstep].
    - destruct (decide _) as [[H1 H2]|]; [|done].
      destruct (ukick (set_acks s (pred (sd_acks s))) k m) as (s1 & m1 & Hk & Hm & _ & Hu1 & Hf1 & Hc1 & Hr1 & Ha1 & Hz1);
        try done; [by apply ustate_acks|].
      rewrite Hk. intros [= <- <-]. exists (S k), m1. split; [done|]. split.
      { rewrite <- map_app. f_equal. replace m1 with (m + (m1 - m)) at 2 by lia. rewrite seq_app. done. }
      repeat split; try done. rewrite Ha1. cbn [set_acks sd_acks]. lia.
    - destruct (decide _) as [[H1 H2]|]; [|done]. intros [= <- <-]. rewrite app_nil_r.
      exists k, m. split; [|done].
      inversion Hu as [W1 W2 W3 W4|k0 W1 W2 W3 W4 W5|k0 W2|k0 W2]; subst k m; try congruence; try lia.
      apply us_exit; cbn; try done; try lia.
      rewrite W5 in H2. apply bool_decide_eq_true in H2. done.
  Qed.
  Lemma ua_uinv s ps n : uploads_acked l cs i cap s ps n -> uinv s ps n.
  Proof.
    induction 1 as [fuel rd s p H1 H2|s ps n s' H IH Hs|s ps n e s' ps' H IH He Hs].
    - destruct (kickstart_ok l cs i Hcs Hi cap s p fuel rd H1 H2) as [-> ->].
      exists 0, 1. split; [by apply us_first|]. done.
    - eapply uinv_ack; done.
    - eapply uinv_work; done.
  Qed.
  Lemma quiet_iff s : quiet s <-> sd_workers s = 0 \/ (sd_acks s = 0 /\ sd_tok s = false).
  Proof.
    clear. unfold quiet. cbn [sstep]. split.
    - intros H. destruct (H None) as [H1 H2].
      destruct (decide (0 < sd_workers s /\ 0 < sd_acks s)) as [|Hn]; [destruct (kick _ None) as [[? ?] []]; done|].
      destruct (decide (0 < sd_workers s /\ sd_tok s = true)) as [|Hn']; [done|].
      destruct (sd_workers s); [by left|]. right. split; [lia|]. destruct (sd_tok s); [|done].
      exfalso. apply Hn'. split; [lia|done].
    - intros H w. rewrite !decide_False; [done| |]; intros [H1 H2]; destruct H as [H|[H H']]; try lia; congruence.
  Qed.

  (** *** C46 *)
  Lemma C46_lemma s ps n : uploads_acked l cs i cap s ps n -> length ps <= C + n.
  Proof.
    intros H. apply ua_uinv in H as (k & m & Hu & -> & _ & _ & _ & ->).
    rewrite map_length, seq_length. inversion Hu; lia.
  Qed.
  (** *** C47, C48 *)
  Lemma settled_inv s ps n : uinv s ps n -> quiet s -> length ps <= n ->
    sd_workers s = 0 /\ C < length ps /\
    (sd_stuck s = 0 /\ length ps = S E \/ sd_stuck s = 1 /\ S E < length ps).
  Proof.
    intros (k & m & Hu & -> & _ & _ & _ & ->) Hq Hn.
    rewrite map_length, seq_length in *. apply quiet_iff in Hq.
    inversion Hu; subst; try (destruct Hq; lia); (split; [done|]); (split; [lia|]); lia.
  Qed.
  Lemma settled s ps n : uploads_acked l cs i cap s ps n -> quiet s -> length ps <= n ->
    sd_workers s = 0 /\ C < length ps /\
    (sd_stuck s = 0 /\ length ps = S E \/ sd_stuck s = 1 /\ S E < length ps).
  Proof. intros H. apply settled_inv. by apply ua_uinv. Qed.
  Lemma uinv_kicks s ps n : uinv s ps n -> 0 < sd_workers s -> 0 < sd_acks s ->
    exists s' ps', sstep s (SKick None) = SGo s' ps'.
  Proof.
    intros (k & m & Hu & _ & Hf & Hc & Hr & _) Hw Ha.
    destruct (ukick (set_acks s (pred (sd_acks s))) k m) as (s1 & m1 & Hk & _);
      try done; [by apply ustate_acks|].
    cbn [sstep]. rewrite decide_True by done. rewrite Hk. eauto.
  Qed.
  Lemma C47_inv s ps n : ~ ragged cs B \/ first_empty B <= C ->
    uinv s ps n -> quiet s -> length ps <= n -> first_empty B < length ps.
  Proof.
    intros Hr H Hq Hn. destruct (settled_inv s ps n H Hq Hn) as (_ & Hc & Hs).
    destruct Hr as [Hr|Hr]; [|lia].
    assert (E = first_empty B) as HE by (unfold first_eof; rewrite decide_False by done; done). lia.
  Qed.
  Lemma C47_lemma s ps n : ~ ragged cs B \/ first_empty B <= C ->
    uploads_acked l cs i cap s ps n -> quiet s -> length ps <= n -> first_empty B < length ps.
  Proof.
    intros Hr H. apply C47_inv; [done|]. by apply ua_uinv.
  Qed.

  (** *** Constructing executions *)
  Definition reached (s : sender) (ps : list packet) (n k m : nat) : Prop :=
    uploads_acked l cs i cap s ps n /\ ustate s k m /\ ps = map pk (seq 0 m) /\ sd_file s = FRegular l
      /\ sd_cap s = cap /\ sd_rd s = rdk (m - 1) /\ n = k + sd_acks s.
  Lemma reached_begin : exists s, reached s [pk 0] 0 0 1.
  Proof.
    destruct (C73_ok_lemma l cs i Hcs Hi) as (fuel & rd & Hrd).
    pose proof (reader_at l cs i fuel rd Hcs Hi Hrd) as ->.
    eexists. split; [eapply ua_start; [exact Hrd|apply kickstart_eq; done]|].
    split; [by apply us_first|done].
  Qed.
  Lemma reached_acks a s ps n k m : reached s ps n k m -> reached (set_acks s (a + sd_acks s)) ps (a + n) k m.
  Proof.
    intros (H & Hu & Hp & Hf & Hc & Hr & ->). split.
    - clear -H. induction a as [|a IH]; [destruct s; exact H|]. eapply ua_ack; [exact IH|done].
    - split; [by apply ustate_acks|]. cbn. repeat split; try done; lia.
  Qed.
  Lemma reached_kick s ps n k m : reached s ps n k m -> 0 < sd_workers s -> 0 < sd_acks s ->
    exists s' ps', reached s' ps' n (S k) (C + S k) /\ sd_workers s' + sd_stuck s' = 1.
  Proof.
    intros (H & Hu & -> & Hf & Hc & Hr & ->) Hw Ha.
    destruct (ukick (set_acks s (pred (sd_acks s))) k m) as (s1 & m1 & Hk & Hm & -> & Hu1 & Hf1 & Hc1 & Hr1 & Ha1 & Hz1);
      try done; [by apply ustate_acks|].
    exists s1. eexists. split; [|done]. split.
    - eapply (ua_work _ _ _ _ _ _ _ (SKick None)); [exact H|by left|].
      cbn [sstep]. rewrite decide_True by done. rewrite Hk. reflexivity.
    - split; [done|]. split.
      { rewrite <- map_app. f_equal. replace (C + S k) with (m + (C + S k - m)) at 2 by lia. rewrite seq_app. done. }
      repeat split; try done. rewrite Ha1. cbn [set_acks sd_acks]. lia.
  Qed.
  (** with acknowledgements arriving one by one, the upload gets to any point up
      to the end of the file *)
  Lemma reached_run k : C + S k <= E + 1 -> exists s ps, reached s ps (S k) (S k) (C + S k) /\ sd_workers s + sd_stuck s = 1.
  Proof.
    induction k as [|k IH]; intros Hk.
    - destruct reached_begin as (s & H).
      apply (reached_acks 1) in H. eapply reached_kick in H; [exact H| |cbn; lia].
      destruct H as (_ & Hu & _). inversion Hu; lia.
    - destruct IH as (s & ps & H & Hz); [lia|].
      apply (reached_acks 1) in H. eapply reached_kick in H; [exact H| |cbn; lia].
      destruct H as (_ & Hu & _). cbn. inversion Hu; cbn in *; lia.
  Qed.
  Lemma reached_cancel s ps n k m : reached s ps n k m -> 0 < sd_workers s -> sd_tok s = true ->
    exists s', uploads_acked l cs i cap s' ps n /\ sd_workers s' = 0 /\ sd_stuck s' = 0.
  Proof.
    intros (H & Hu & _) Hw Ht. eexists. split.
    - rewrite <- (app_nil_r ps). eapply (ua_work _ _ _ _ _ _ _ SCancel); [exact H|by right|].
      cbn [sstep]. rewrite decide_True by done. reflexivity.
    - inversion Hu; cbn; split; lia.
  Qed.
  Lemma exits_lemma : C <= E -> exists s ps n, uploads_acked l cs i cap s ps n /\ quiet s /\ n = length ps
    /\ length ps = S E /\ sd_stuck s = 0.
  Proof.
    intros Hc. destruct (reached_run (E - C)) as (s & ps & H & Hz); [lia|].
    apply (reached_acks C) in H.
    pose proof H as (_ & Hu & Hp & _).
    assert (sd_workers (set_acks s (C + sd_acks s)) = 1 /\ sd_tok (set_acks s (C + sd_acks s)) = true) as [Hw Ht].
    { pose proof E_pos. inversion Hu as [|k W1 W2 W3 W4 W5|k W2|k W2]; try lia.
      all: cbn in *; try lia. split; [done|]. rewrite W5. apply bool_decide_true. lia. }
    destruct (reached_cancel _ _ _ _ _ H) as (s' & Hs' & Hw' & Hk'); [lia|done|].
    exists s', ps, (C + S (E - C)). split; [done|]. split; [apply quiet_iff; by left|].
    rewrite Hp, map_length, seq_length. split; [lia|]. split; [lia|done].
  Qed.
  Lemma C47_refuted_lemma : ragged cs B -> C < first_empty B ->
    exists s ps n, uploads_acked l cs i cap s ps n /\ quiet s /\ n = length ps /\ length ps = first_empty B.
  Proof.
    intros Hr Hc. pose proof E_pos.
    assert (E = first_empty B - 1) as HE by (unfold first_eof; rewrite decide_True by done; done).
    destruct exits_lemma as (s & ps & n & H1 & H2 & H3 & H4 & _); [lia|].
    exists s, ps, n. split; [exact H1|]. split; [exact H2|]. split; [exact H3|]. lia.
  Qed.
  Lemma blocks_lemma : exists s ps n, uploads_acked l cs i cap s ps n /\ n <= length ps
    /\ sd_workers s = 0 /\ sd_stuck s = 1.
  Proof.
    assert (exists s ps n k, reached s ps n k (C + k) /\ E + 2 <= C + k /\ k = n) as (s & ps & n & k & H & Hk & Hn).
    { destruct (decide (C <= E)) as [Hc|Hc].
      - destruct (reached_run (E - C)) as (s & ps & H & Hz); [lia|].
        apply (reached_acks 1) in H. pose proof H as (_ & Hu & _).
        eapply reached_kick in H; [|cbn; inversion Hu; cbn in *; lia|cbn; lia].
        destruct H as (s' & ps' & H & _). exists s', ps', (1 + S (E - C)), (S (S (E - C))). split; [exact H|]. lia.
      - destruct reached_begin as (s & H). apply (reached_acks 1) in H. pose proof H as (_ & Hu & _).
        eapply reached_kick in H; [|cbn; inversion Hu; cbn in *; lia|cbn; lia].
        destruct H as (s' & ps' & H & _). exists s', ps', 1, 1. split; [exact H|]. lia. }
    exists s, ps, n. destruct H as (H & Hu & Hp & _). split; [done|].
    rewrite Hp, map_length, seq_length. split; [lia|].
    inversion Hu; lia.
  Qed.
  Lemma always_blocks_lemma s ps n : S E <= C -> uploads_acked l cs i cap s ps n -> quiet s -> 1 <= n ->
    sd_workers s = 0 /\ sd_stuck s = 1.
  Proof.
    intros Hc H Hq Hn. apply ua_uinv in H as (k & m & Hu & _ & _ & _ & _ & ->). apply quiet_iff in Hq.
    inversion Hu; subst; lia.
  Qed.
End upload.

Lemma stuck_forever s e s' ps : sd_workers s = 0 -> sstep s e = SGo s' ps ->
  ps = [] /\ sd_workers s' = 0 /\ sd_stuck s' = sd_stuck s.
Proof.
  intros Hw. destruct e as [|w|]; cbn [sstep].
  - intros [= <- <-]. done.
  - rewrite decide_False by lia. done.
  - rewrite decide_False by lia. done.
Qed.
(** workers stop: each of their steps uses up an acknowledgement or a worker *)
Lemma work_ends s e s' ps : e <> SAck -> sstep s e = SGo s' ps ->
  sd_acks s' + sd_workers s' < sd_acks s + sd_workers s.
Proof.
  intros He. destruct e as [|w|]; cbn [sstep]; [done| |].
  - destruct (decide _) as [[H1 H2]|]; [|done]. unfold kick.
    destruct (kick_loop _ _ _ w) as [[[q ts] rd] err]. destruct (err && _); [done|].
    intros [= <- <-]. cbn [sd_acks sd_workers set_acks]. destruct (1 <? _)%nat; lia.
  - destruct (decide _) as [[H1 H2]|]; [|done]. intros [= <- <-]. cbn [sd_acks sd_workers]. lia.
Qed.
(** a window of zero *)
Lemma zero_window l cs i s ps : (Z.of_nat cs < 4294967296)%Z -> (Z.of_nat i < 65536)%Z ->
  uploads l cs i 0 s ps -> ps = [stream (sha1 (chunk_bytes l cs i)) (chunk_bytes l cs i) 0].
Proof.
  intros Hcs Hi H. cut (sd_cap s = 0%N /\ ps = [stream (sha1 (chunk_bytes l cs i)) (chunk_bytes l cs i) 0]); [by intros [_ ?]|].
  induction H as [fuel rd s p H1 H2|s ps e s' ps' H [IH1 IH2] Hs].
  - destruct (kickstart_ok l cs i Hcs Hi 0 s p fuel rd H1 H2) as [-> ->]. done.
  - assert (sd_cap s' = 0%N /\ ps' = []) as [? ->]; [|rewrite app_nil_r; done].
    destruct e as [|w|]; cbn [sstep] in Hs.
    + injection Hs as <- <-. done.
    + destruct (decide _) as [[H1 H2]|]; [|done]. unfold kick in Hs. cbn [set_acks sd_cap] in Hs.
      rewrite IH1 in Hs. rewrite N.sub_0_l in Hs. cbn [N.to_nat kick_loop] in Hs.
      cbn [andb] in Hs. injection Hs as <- <-. done.
    + destruct (decide _) as [[H1 H2]|]; [|done]. injection Hs as <- <-. done.
Qed.

