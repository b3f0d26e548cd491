(** Proofs about entries under concurrent use: the theorems. *)
From Verif Require Export FillProofs.

Lemma C92_lemma s : freach s ->
  progress (f_mem s) ⊆ m_held (f_mem s)
  /\ (forall d, m_disk (f_mem s) = FSet d -> d ⊆ m_held (f_mem s))
  /\ (forall i d, answered s i (Some d) -> d ⊆ m_held (f_mem s)).
Proof.
  intros H. apply finv_reach in H. split; [apply progress_sub, i_heap, H|]. split; [apply i_disk, H|].
  intros i d [k Hi]. apply (i_thr _ H) in Hi as (_ & _ & Hi). done.
Qed.

(** *** after the record has been loaded *)
Lemma finv_settled_new s i k : finv s -> m_ptr (f_mem s) <> None -> f_thr s !! i <> Some (k, PNew).
Proof. intros I Hp Hi. by destruct (i_new _ I _ _ Hi). Qed.
Lemma heap_sub_all s : finv s -> progress (f_mem s) ⊆ all_chunks (m_count (f_mem s)).
Proof. intros I. etrans; [apply progress_sub, I|apply I]. Qed.
Lemma progress_alter m f o : m_ptr m = Some o -> o < length (m_heap m) -> progress (set_progress m f) = f (progress m).
Proof.
  intros Hp Hl. unfold set_progress, progress. rewrite Hp. cbn.
  apply lookup_lt_is_Some in Hl as [d Hd]. apply list_lookup_total_correct.
  rewrite list_lookup_alter, Hd. cbn. f_equal. f_equal. symmetry. by apply list_lookup_total_correct.
Qed.
Lemma settled_move s i k p m' p' :
  finv s -> settled s -> f_thr s !! i = Some (k, p) -> tnext i k (f_mem s) p = Some (Some (m', p')) ->
  m_ptr m' = m_ptr (f_mem s) /\ progress (f_mem s) ⊆ progress m' /\ p' <> PLoad /\ (forall o, p' <> PAssign o)
  /\ (forall x, k = KSave x -> p = PSet -> x ∈ progress m').
Proof.
  intros I (S1 & S2 & S3) Hi Hn. pose proof (heap_sub_all s I) as Hall.
  pose proof (i_thr _ I _ _ _ Hi) as (_ & _ & Hp).
  destruct (m_ptr (f_mem s)) as [o|] eqn:Eo; [|done]. pose proof (i_ptr _ I _ Eo) as Ho.
  assert (Hprog : forall f, progress (set_progress (f_mem s) f) = f (progress (f_mem s))) by (intros; by eapply progress_alter).
  destruct p as [| | |o'| | | |d|d| | | |r].
  3:{ by apply S2 in Hi. }
  3:{ by apply S3 in Hi. }
  9:{ exfalso. eapply finv_settled_new; [done| |done]. by rewrite Eo. }
  all: unfold tnext in Hn; try rewrite Eo in Hn; unfold fail, leave in Hn.
  9:{ injection Hn as <- <-. rewrite Hprog. split; [unfold set_progress; rewrite Eo; done|]. split; [done|]. done. }
  4:{ injection Hn as <- <-. destruct Hp as ((x & -> & _) & _). rewrite Hprog. split; [unfold set_progress; rewrite Eo; done|].
      split; [set_solver|]. split; [done|]. split; [done|]. intros ? [= <-] _. set_solver. }
  all: destruct k; cbn in Hn; repeat (case_match; simplify_eq/=; try done); simplify_eq/=.
  all: split; [done|]; split; [unfold progress; cbn; set_solver|]; split; [discriminate|]; split; [intros; discriminate|]; intros; discriminate.
Qed.
Lemma settled_step s t : finv s -> settled s -> fstep s t ->
  settled t /\ progress (f_mem s) ⊆ progress (f_mem t).
Proof.
  intros I S H. destruct H as [m ts k Hc|m ts i k p m' p' Hi Hn].
  - split; [|done]. destruct S as (S1 & S2 & S3). cbn in *. split; [done|]. split; cbn.
    + intros j k' [Hj|[_ Hj]]%lookup_app_Some; [by eapply S2|]. apply list_lookup_singleton_Some in Hj as [_ [=]].
    + intros j k' o [Hj|[_ Hj]]%lookup_app_Some; [by eapply S3|]. apply list_lookup_singleton_Some in Hj as [_ [=]].
  - destruct (settled_move _ _ _ _ _ _ I S Hi Hn) as (E1 & E2 & E3 & E4 & _). split; [|done].
    destruct S as (S1 & S2 & S3). cbn in *. split; [cbn; by rewrite E1|]. split; cbn.
    + intros j k' [(<- & [= <- ->] & _)|[Hne Hj]]%list_lookup_insert_Some; [done|]. by eapply S2.
    + intros j k' o [(<- & [= <- ->] & _)|[Hne Hj]]%list_lookup_insert_Some; [by eapply E4|]. by eapply S3.
Qed.
(** a call of SaveChunk made after [n] calls whose chunk has been recorded *)
Definition past (p : fpc) : Prop := p = PSer \/ (exists d, p = PTrunc d) \/ (exists d, p = PWrite d) \/ (exists r, p = PDone r).
Lemma settled_past s i x p m' p' :
  finv s -> f_thr s !! i = Some (KSave x, p) -> tnext i (KSave x) (f_mem s) p = Some (Some (m', p')) ->
  past p' -> past p \/ p = PSet.
Proof.
  intros I Hi Hn Hp'. pose proof (i_thr _ I _ _ _ Hi) as (_ & _ & Hp). unfold past in *.
  destruct p as [| | |o'| | | |d|d| | | |r]; cbn in Hn, Hp; try (by eauto 10); repeat (case_match; simplify_eq/=); naive_solver.
Qed.
Lemma settled_saved s t : finv s -> settled s -> fsteps s t ->
  settled t /\ progress (f_mem s) ⊆ progress (f_mem t)
  /\ forall i x p, length (f_thr s) <= i -> f_thr t !! i = Some (KSave x, p) -> past p -> x ∈ progress (f_mem t).
Proof.
  intros I S H. induction H as [|s t u Hst IH Hu].
  { split; [done|]. split; [done|]. intros i x p Hi Hl. apply lookup_lt_Some in Hl. lia. }
  destruct (IH I S) as (S1 & Hsub & Hsv). pose proof (finv_steps _ _ Hst I) as It.
  destruct (settled_step _ _ It S1 Hu) as (S2 & Hsub2). split; [done|]. split; [set_solver|].
  intros i x p Hi Hl Hp. destruct Hu as [m ts k Hc|m ts j k q m' q' Hj Hn]; cbn in *.
  - apply lookup_app_Some in Hl as [Hl|[_ Hl]]; [apply Hsub2; by eapply Hsv|].
    apply list_lookup_singleton_Some in Hl as [_ [= -> <-]]. destruct Hp as [?|[[? ?]|[[? ?]|[? ?]]]]; discriminate.
  - apply list_lookup_insert_Some in Hl as [(<- & [= -> ->] & _)|[Hne Hl]]; [|apply Hsub2; by eapply Hsv].
    destruct (settled_past _ _ _ _ _ _ It Hj Hn Hp) as [Hq| ->].
    + apply Hsub2. by eapply Hsv.
    + destruct (settled_move _ _ _ _ _ _ It S1 Hj Hn) as (_ & _ & _ & _ & Hx). by apply Hx.
Qed.
Lemma C93_lemma s t : freach s -> settled s -> fsteps s t ->
  progress (f_mem s) ⊆ progress (f_mem t) /\ forall i x, length (f_thr s) <= i -> saved t i x -> x ∈ progress (f_mem t).
Proof.
  intros H S Hst. apply finv_reach in H. destruct (settled_saved _ _ H S Hst) as (_ & H1 & H2). split; [done|].
  intros i x Hi [r Hr]. eapply H2; [done..|]. right. right. right. eauto.
Qed.

(** *** death *)
Lemma C94_lemma s : freach s -> (fdies s <-> m_disk (f_mem s) = FShort /\ exists i, f_thr s !! i = Some (KPeek, PLoad)).
Proof.
  intros H. apply finv_reach in H. split.
  - intros (i & k & p & Hi & Hn). pose proof (i_thr _ H _ _ _ Hi) as (Hl & _ & Hp).
    destruct p as [| | |o| | | |d|d| | | |r]; cbn in Hn.
    1,4-13: exfalso; destruct k; cbn in Hn; try discriminate; try (destruct (m_lock (f_mem s)); discriminate); destruct (m_index (f_mem s)); discriminate.
    + (* PTest: the record is in the index *)
      destruct (m_index (f_mem s)) eqn:Ei; [by destruct (m_ptr (f_mem s))|].
      exfalso. unfold fail in Hn. pose proof (i_thr _ H _ _ _ Hi) as (_ & Hc & _). destruct k; cbn in Hn, Hc; try done; rewrite Ei in Hc; naive_solver.
    + destruct (m_disk (f_mem s)) as [| |d] eqn:Ed; [|split; [done|]|done].
      * exfalso. unfold fail in Hn. destruct (must k) eqn:Em; [|done].
        destruct (i_miss _ H) as (j & k' & q & Hj & Hr & Hq); [apply Hp|done|].
        assert (C1 : crit k PLoad) by (split; [by destruct k|split; [discriminate|intros; discriminate]]).
        assert (C2 : crit k' q).
        { split; [by destruct k'|]. destruct Hq as [->|[->|[->|[d ->]]]]; (split; [discriminate|intros; discriminate]). }
        pose proof (proj1 (i_thr _ H _ _ _ Hj) C2) as E2. rewrite (Hl C1) in E2. injection E2 as <-.
        rewrite Hi in Hj. injection Hj as <- <-. naive_solver.
      * destruct (i_short _ H Ed) as (j & k' & d & Hj).
        destruct (locks k) eqn:El; [exfalso|destruct k; try done; by eauto].
        assert (C1 : crit k PLoad) by (split; [done|split; [discriminate|intros; discriminate]]).
        pose proof (i_thr _ H _ _ _ Hj) as (Hl2 & _ & Hk' & _).
        assert (C2 : crit k' (PWrite d)) by (split; [done|split; [discriminate|intros; discriminate]]).
        specialize (Hl C1). specialize (Hl2 C2). rewrite Hl in Hl2. injection Hl2 as <-. rewrite Hi in Hj. discriminate.
  - intros (Hd & i & Hi). exists i, KPeek, PLoad. split; [done|]. cbn. by rewrite Hd.
Qed.
Lemma C94_settled_lemma s t : freach s -> settled s -> fsteps s t -> ~ fdies t.
Proof.
  intros H S Hst Hd. pose proof (finv_reach _ H) as I. destruct (settled_saved _ _ I S Hst) as ((_ & S2 & _) & _).
  assert (Hr : freach t).
  { destruct H as (s0 & H0 & H1). exists s0. split; [done|]. clear -H1 Hst. induction Hst; [done|]. eapply fs_snoc; [|done]. auto. }
  apply (C94_lemma _ Hr) in Hd as (_ & i & Hi). by apply S2 in Hi.
Qed.
(** without queries nothing is ever lost and nobody dies *)
Definition unqueried (s : fstate) : Prop := forall i p, f_thr s !! i <> Some (KPeek, p).
Record linv (s : fstate) : Prop := {
  l_load : forall i k p, f_thr s !! i = Some (k, p) -> p = PLoad \/ (exists o, p = PAssign o) -> m_ptr (f_mem s) = None;
  l_past : forall i x p, f_thr s !! i = Some (KSave x, p) -> past p -> m_ptr (f_mem s) <> None /\ x ∈ progress (f_mem s) }.
Lemma tnext_load i k m p m' p' : tnext i k m p = Some (Some (m', p')) -> p' = PLoad \/ (exists o, p' = PAssign o) ->
  m_ptr m' = m_ptr m /\ (m_ptr m = None \/ p = PLoad).
Proof.
  intros H Hp'. destruct p as [| | |o| | | |d|d| | | |r]; cbn in H; unfold fail, leave, set_progress in H.
  all: destruct k; cbn in H; repeat (case_match; simplify_eq/=; try done); simplify_eq/=; destruct Hp' as [?|[? ?]]; simplify_eq/=; auto.
Qed.
(** a thread that is not inside the lock and does not query leaves the record alone *)
Lemma tnext_outside i k m p m' p' : locks k = true -> ~ crit k p -> tnext i k m p = Some (Some (m', p')) ->
  p = PStart /\ m_lock m = None /\ m_ptr m' = m_ptr m /\ m_heap m' = m_heap m.
Proof.
  intros Hk Hc H. assert (p = PStart) as ->.
  { destruct p; try done; exfalso; apply Hc; (split; [done|]; split; [discriminate|]; intros; discriminate). }
  cbn in H. rewrite Hk in H. destruct (m_lock m); [done|]. injection H as <- <-. done.
Qed.
Lemma progress_same m m' : m_ptr m' = m_ptr m -> m_heap m' = m_heap m -> progress m' = progress m.
Proof. unfold progress. by intros -> ->. Qed.
Lemma linv_step s t : finv s -> unqueried s -> linv s -> fstep s t -> linv t.
Proof.
  intros I Hun L H. destruct H as [m ts k Hc|m ts i k p m' p' Hi Hn].
  - destruct L as [L1 L2]. split; cbn in *.
    + intros j k' q [Hj|[_ Hj]]%lookup_app_Some Hq; [by eapply L1|]. apply list_lookup_singleton_Some in Hj as [_ [= <- <-]]. naive_solver.
    + intros j x q [Hj|[_ Hj]]%lookup_app_Some Hq; [by eapply L2|]. apply list_lookup_singleton_Some in Hj as [_ [= -> <-]].
      unfold past in Hq. naive_solver.
  - destruct L as [L1 L2]. cbn in *. pose proof (i_thr _ I _ _ _ Hi) as Hk. cbn in Hk.
    assert (El : locks k = true) by (destruct k; try done; by apply Hun in Hi).
    assert (Hset : m_ptr m <> None -> settled (mkF m ts)).
    { intros Hp. split; [done|]. split; cbn; [intros j k' Hj|intros j k' o Hj]; apply Hp; (eapply L1; [exact Hj|]); eauto. }
    assert (Hkeep : m_ptr m <> None -> m_ptr m' <> None /\ progress m ⊆ progress m').
    { intros Hp. destruct (settled_move _ _ _ _ _ _ I (Hset Hp) Hi Hn) as (E1 & E2 & _). cbn in *. by rewrite E1. }
    split; cbn.
    + intros j k' q [(<- & [= <- <-] & _)|[Hne Hj]]%list_lookup_insert_Some Hq.
      * destruct (tnext_load _ _ _ _ _ _ Hn Hq) as [-> [?|Hp]]; [done|]. eapply L1; [exact Hi|]. by left.
      * pose proof (L1 _ _ _ Hj Hq) as Hnone.
        assert (El' : locks k' = true) by (destruct k'; try done; by apply Hun in Hj).
        assert (C' : crit k' q) by (split; [done|]; destruct Hq as [->|[o ->]]; (split; [discriminate|intros; discriminate])).
        pose proof (proj1 (i_thr _ I _ _ _ Hj) C') as Hlk. cbn in Hlk.
        assert (Hnc : ~ crit k p).
        { intros C. pose proof (proj1 Hk C) as E. rewrite Hlk in E. injection E as E. by apply Hne. }
        destruct (tnext_outside _ _ _ _ _ _ El Hnc Hn) as (_ & E & _). congruence.
    + intros j x q [(<- & [= -> <-] & _)|[Hne Hj]]%list_lookup_insert_Some Hq.
      * destruct (settled_past _ _ _ _ _ _ I Hi Hn Hq) as [Hp| ->].
        -- destruct (L2 _ _ _ Hi Hp) as [E1 E2]. destruct (Hkeep E1) as [E3 E4]. split; [done|]. by apply E4.
        -- destruct Hk as (_ & _ & _ & _ & E1). destruct (Hkeep E1) as [E3 E4]. split; [done|].
           destruct (settled_move _ _ _ _ _ _ I (Hset E1) Hi Hn) as (_ & _ & _ & _ & Hx). by apply Hx.
      * destruct (L2 _ _ _ Hj Hq) as [E1 E2]. destruct (Hkeep E1) as [E3 E4]. split; [done|]. by apply E4.
Qed.
Lemma unqueried_back s t : fstep s t -> unqueried t -> unqueried s.
Proof.
  intros H Hu i p Hi. destruct H as [m ts k Hc|m ts j k q m' q' Hj Hn]; cbn in *.
  - eapply (Hu i). cbn. by apply lookup_app_l_Some.
  - destruct (decide (j = i)) as [->|Hne].
    + rewrite Hi in Hj. injection Hj as <- <-. eapply (Hu i). cbn. apply list_lookup_insert. by eapply lookup_lt_Some.
    + eapply (Hu i). cbn. by rewrite list_lookup_insert_ne.
Qed.
Lemma C93_locked_lemma s i x : freach s -> unqueried s -> saved s i x -> x ∈ progress (f_mem s).
Proof.
  intros (s0 & H0 & H) Hu [r Hr]. assert (L : linv s).
  { clear Hr. induction H as [s|s t u Hst IH Hu']; [destruct H0; split; cbn; intros; done|].
    pose proof (unqueried_back _ _ Hu' Hu) as Hut. eapply linv_step; [|exact Hut|by apply IH|exact Hu'].
    eapply finv_steps; [done|]. by apply finv_begin. }
  eapply (l_past _ L); [done|]. right. right. right. eauto.
Qed.

(** *** executions *)
Definition callableb (m : fmem) (k : fkind) : bool :=
  match k with
  | KMust => m_index m
  | KSave x => m_index m && bool_decide (x < m_count m)
  | KShare => bool_decide (all_chunks (m_count m) ⊆ m_held m)
  | _ => true
  end.
Definition fdo (s : fstate) (a : fkind + nat) : option fstate :=
  match a with
  | inl k => if callableb (f_mem s) k then Some (mkF (f_mem s) (f_thr s ++ [(k, PStart)])) else None
  | inr i => '(k, p) ← f_thr s !! i; x ← tnext i k (f_mem s) p; y ← x; Some (mkF y.1 (<[i := (k, y.2)]> (f_thr s)))
  end.
Fixpoint frun (s : fstate) (l : list (fkind + nat)) : option fstate :=
  match l with [] => Some s | a :: l => t ← fdo s a; frun t l end.
Lemma fdo_step s a t : fdo s a = Some t -> fstep s t.
Proof.
  destruct s as [m ts], a as [k|i]; cbn.
  - destruct (callableb m k) eqn:E; [|done]. intros [= <-]. constructor.
    destruct k; cbn in *; try done; [|by apply bool_decide_eq_true in E].
    apply andb_true_iff in E as [E1 E2]. split; [done|]. by apply bool_decide_eq_true in E2.
  - destruct (ts !! i) as [[k p]|] eqn:Ei; [|done]. cbn. destruct (tnext i k m p) as [[[m' p']|]|] eqn:En; [|done..].
    cbn. intros [= <-]. by econstructor.
Qed.
Lemma frun_steps s l t : frun s l = Some t -> fsteps s t.
Proof.
  assert (G : forall l s0 s t, fsteps s0 s -> frun s l = Some t -> fsteps s0 t).
  { clear. induction l as [|a l IH]; intros s0 s t H; cbn; [by intros [= <-]|].
    destruct (fdo s a) as [u|] eqn:E; [|done]. cbn. intros Hr. eapply IH; [|exact Hr]. eapply fs_snoc; [done|]. by eapply fdo_step. }
  intros H. eapply G; [|exact H]. constructor.
Qed.
