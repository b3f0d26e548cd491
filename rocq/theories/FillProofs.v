(** Proofs about entries under concurrent use. *)
From Verif Require Export FillSpec.

(** thread [k], at [p], is inside the lock *)
Definition crit (k : fkind) (p : fpc) : Prop :=
  locks k = true /\ p <> PStart /\ forall r, p <> PDone r.
Definition registers (k : fkind) : bool := match k with KReg | KShare => true | _ => false end.
(** what is known about thread [i] *)
Definition tok (m : fmem) (i : nat) (k : fkind) (p : fpc) : Prop :=
  (crit k p -> m_lock m = Some i)
  /\ callable (mkMem (m_count m) (m_index m) (m_ptr m) (m_heap m) (m_disk m) (m_held m) (m_lock m)) k
  /\ match p with
     | PStart => True
     | PTest => registers k = false
     | PLoad => registers k = false /\ m_index m = true
     | PAssign o => registers k = false /\ m_index m = true /\ o < length (m_heap m)
     | PUse => registers k = false /\ m_index m = true /\ m_ptr m <> None
     | PSet => (exists x, k = KSave x /\ x ∈ m_held m) /\ m_index m = true /\ m_ptr m <> None
     | PSer => locks k = true /\ m_index m = true /\ m_ptr m <> None
     | PTrunc d | PWrite d => locks k = true /\ m_index m = true /\ m_ptr m <> None /\ d ⊆ m_held m
     | PAdd => registers k = true
     | PNew => registers k = true /\ m_index m = true
     | PFill => k = KShare /\ m_index m = true /\ m_ptr m <> None
     | PDone (Some d) => d ⊆ m_held m
     | PDone None => True
     end.
Record finv (s : fstate) : Prop := {
  i_thr : forall i k p, f_thr s !! i = Some (k, p) -> tok (f_mem s) i k p;
  i_heap : Forall (fun d => d ⊆ m_held (f_mem s)) (m_heap (f_mem s));
  i_ptr : forall o, m_ptr (f_mem s) = Some o -> o < length (m_heap (f_mem s));
  i_disk : forall d, m_disk (f_mem s) = FSet d -> d ⊆ m_held (f_mem s);
  i_short : m_disk (f_mem s) = FShort -> exists i k d, f_thr s !! i = Some (k, PWrite d);
  i_miss : m_index (f_mem s) = true -> m_disk (f_mem s) = FMissing ->
    exists i k p, f_thr s !! i = Some (k, p) /\ registers k = true /\ (p = PNew \/ p = PFill \/ p = PSer \/ exists d, p = PTrunc d);
  i_idx : m_index (f_mem s) = false -> m_ptr (f_mem s) = None /\ m_disk (f_mem s) = FMissing /\ m_heap (f_mem s) = [];
  i_new : forall i k, f_thr s !! i = Some (k, PNew) -> m_ptr (f_mem s) = None /\ m_disk (f_mem s) = FMissing /\ m_heap (f_mem s) = [];
  i_all : m_held (f_mem s) ⊆ all_chunks (m_count (f_mem s)) }.

Lemma finv_begin s : fbegin s -> finv s.
Proof.
  destruct 1; split; cbn; try done.
  intros d' [= <-]. done.
Qed.

(** what a step does to the memory that the others rely on *)
Definition grows (m m' : fmem) : Prop :=
  m_count m' = m_count m /\ (m_index m = true -> m_index m' = true) /\ (m_ptr m <> None -> m_ptr m' <> None)
  /\ length (m_heap m) <= length (m_heap m') /\ m_held m ⊆ m_held m'.
Lemma grows_refl m : grows m m.
Proof. done. Qed.
Lemma tok_grows m m' i k p : tok m i k p -> grows m m' -> (crit k p -> m_lock m' = m_lock m) -> tok m' i k p.
Proof.
  intros (Hl & Hc & Hp) (Gc & Gi & Gp & Gh & Gs) Hlock. split; [|split].
  - intros Hcr. rewrite (Hlock Hcr). by apply Hl.
  - destruct k; cbn in *; rewrite ?Gc; try done; [auto|naive_solver|set_solver].
  - destruct p as [| | |o| | | |d|d| | | |[d|]]; try done.
    all: repeat match goal with H : _ /\ _ |- _ => destruct H | H : ex _ |- _ => destruct H end; repeat split; auto; try lia; try set_solver.
    all: eexists; split; [done|set_solver].
Qed.
Lemma progress_sub m : Forall (fun d => d ⊆ m_held m) (m_heap m) -> progress m ⊆ m_held m.
Proof.
  intros H. unfold progress. destruct (m_ptr m) as [o|]; [|set_solver].
  destruct (m_heap m !! o) as [d|] eqn:E.
  - rewrite (list_lookup_total_correct _ _ _ E). exact (proj1 (Forall_lookup _ _) H _ _ E).
  - rewrite list_lookup_total_alt, E. cbn. set_solver.
Qed.
Lemma forall_app_sub (h : gset nat) l d : Forall (fun d => d ⊆ h) l -> d ⊆ h -> Forall (fun d => d ⊆ h) (l ++ [d]).
Proof. intros H1 H2. apply Forall_app. split; [done|]. by constructor. Qed.
Lemma forall_alter_sub (h : gset nat) l f o : Forall (fun d => d ⊆ h) l -> (forall d, d ⊆ h -> f d ⊆ h) -> Forall (fun d => d ⊆ h) (alter f o l).
Proof. intros H1 H2. apply Forall_alter; [done|]. intros x Hx Hs. by apply H2. Qed.
Lemma forall_mono (h h' : gset nat) l : Forall (fun d => d ⊆ h) l -> h ⊆ h' -> Forall (fun d => d ⊆ h') l.
Proof. intros H1 H2. eapply Forall_impl; [exact H1|]. cbn. intros d Hd. set_solver. Qed.

(** one step of a thread: everything that the invariant needs to know *)
Lemma tnext_grows i k m p m' p' : tnext i k m p = Some (Some (m', p')) -> grows m m'.
Proof.
  intros H. unfold grows. destruct p as [| | |o| | | |d|d| | | |r], k; cbn in H; unfold fail, leave, set_progress in H; cbn in H;
    repeat (case_match; simplify_eq/=; try done); simplify_eq/=; rewrite ?app_length, ?alter_length; cbn; repeat split; try done; try lia; try set_solver.
Qed.
Lemma tnext_tok i k m p m' p' :
  Forall (fun d => d ⊆ m_held m) (m_heap m) -> (forall d, m_disk m = FSet d -> d ⊆ m_held m) ->
  tok m i k p -> tnext i k m p = Some (Some (m', p')) -> tok m' i k p'.
Proof.
  intros Hh Hd (Hl & Hc & Hp) H. pose proof (progress_sub m Hh) as Hpr.
  assert (Hcr : forall q, crit k q -> p <> PStart -> (forall r, p <> PDone r) -> m_lock m = Some i)
    by (intros q (? & _) ? ?; apply Hl; done).
  unfold tok. destruct p as [| | |o| | | |d|d| | | |r]; cbn in H.
  all: destruct k; cbn in H, Hp, Hc |- *; unfold fail, leave, set_progress, crit in *; cbn in H, Hp, Hc |- *.
  all: repeat (case_match; simplify_eq/=; try done); simplify_eq/=.
  all: rewrite ?app_length, ?alter_length; cbn.
  all: split; [intros (? & ? & HD); first [discriminate | reflexivity | exfalso; eapply HD; reflexivity | assumption
    | apply Hl; split; [reflexivity|]; split; [discriminate|]; intros; discriminate]|].
  all: split; [first [done | set_solver]|].
  all: repeat match goal with H : _ /\ _ |- _ => destruct H | H : ex _ |- _ => destruct H end; simplify_eq/=.
  all: repeat split; try assumption; try discriminate; try lia; try done.
  all: try (eexists; split; [reflexivity|]; set_solver).
  all: try (apply Hd; assumption).
  all: try (rewrite app_length; cbn; lia).
  all: congruence.
Qed.

Lemma tnext_lock i k m p m' p' : tnext i k m p = Some (Some (m', p')) ->
  m_lock m' = m_lock m \/ m_lock m = None \/ crit k p.
Proof.
  intros H. destruct (locks k) eqn:El.
  - destruct p as [| | |o| | | |d|d| | | |r]; try (right; right; split; [done|]; split; [discriminate|]; intros; discriminate).
    cbn in H. rewrite El in H. destruct (m_lock m) eqn:E; [done|]. right. left. done.
  - left. destruct k; try done. destruct p as [| | |o| | | |d|d| | | |r]; cbn in H; unfold set_progress in H;
      repeat (case_match; simplify_eq/=; try done); simplify_eq/=; done.
Qed.
Lemma tnext_heap i k m p m' p' :
  Forall (fun d => d ⊆ m_held m) (m_heap m) -> (forall d, m_disk m = FSet d -> d ⊆ m_held m) ->
  tok m i k p -> tnext i k m p = Some (Some (m', p')) ->
  Forall (fun d => d ⊆ m_held m') (m_heap m') /\ (forall d, m_disk m' = FSet d -> d ⊆ m_held m')
  /\ (m_held m ⊆ all_chunks (m_count m) -> m_held m' ⊆ all_chunks (m_count m')).
Proof.
  intros Hh Hd (Hl & Hc & Hp) H.
  destruct p as [| | |o| | | |d|d| | | |r]; cbn in H; unfold fail, leave, set_progress in H.
  all: destruct k; cbn in H, Hp, Hc.
  all: repeat (case_match; simplify_eq/=; try done); simplify_eq/=.
  all: repeat match goal with H : _ /\ _ |- _ => destruct H | H : ex _ |- _ => destruct H end; simplify_eq/=.
  all: split; [first [assumption | apply forall_app_sub; [assumption|first [apply empty_subseteq | by apply Hd]]
     | eapply forall_mono; [eassumption|set_solver] | apply forall_alter_sub; [assumption|set_solver]]|].
  all: split; [first [assumption | discriminate | intros ? [= <-]; assumption | intros ? ?; etrans; [apply Hd; congruence|set_solver] ]|].
  all: try (intros ?; assumption).
  all: intros Ha; apply union_subseteq; split; [done|]; apply singleton_subseteq_l, elem_of_set_seq; lia.
Qed.
Lemma tnext_short i k m p m' p' : tnext i k m p = Some (Some (m', p')) -> m_disk m' = FShort ->
  (exists d, p' = PWrite d) \/ (m_disk m = FShort /\ forall d, p <> PWrite d).
Proof.
  intros H Hs. destruct p as [| | |o| | | |d|d| | | |r]; cbn in H; unfold fail, leave, set_progress in H.
  all: destruct k; cbn in H.
  all: repeat (case_match; simplify_eq/=; try done); simplify_eq/=.
  all: first [left; eexists; reflexivity | right; split; [congruence|]; intros; discriminate].
Qed.
Definition late (p : fpc) : Prop := p = PNew \/ p = PFill \/ p = PSer \/ exists d, p = PTrunc d.
Lemma tnext_miss i k m p m' p' : tok m i k p -> tnext i k m p = Some (Some (m', p')) -> m_index m' = true -> m_disk m' = FMissing ->
  (registers k = true /\ late p') \/ (m_index m = true /\ m_disk m = FMissing /\ ~ (registers k = true /\ late p)).
Proof.
  intros (_ & _ & Hp) H Hi Hs. unfold late.
  destruct p as [| | |o| | | |d|d| | | |r]; cbn in H; unfold fail, leave, set_progress in H.
  all: destruct k; cbn in H, Hp.
  all: repeat (case_match; simplify_eq/=; try done); simplify_eq/=.
  all: first [left; split; [reflexivity|]; naive_solver
    | right; split; [congruence|]; split; [congruence|]; intros [? [?|[?|[?|[? ?]]]]]; discriminate].
Qed.
Lemma tnext_idx i k m p m' p' : tok m i k p -> tnext i k m p = Some (Some (m', p')) -> m_index m' = false ->
  m_index m = false /\ m_ptr m' = m_ptr m /\ m_disk m' = m_disk m /\ m_heap m' = m_heap m.
Proof.
  intros (_ & _ & Hp) H Hi.
  destruct p as [| | |o| | | |d|d| | | |r]; cbn in H; unfold fail, leave, set_progress in H.
  all: destruct k; cbn in H, Hp.
  all: repeat (case_match; simplify_eq/=; try done); simplify_eq/=; try (repeat split; congruence).
  all: repeat match goal with H : _ /\ _ |- _ => destruct H | H : ex _ |- _ => destruct H end; congruence.
Qed.
Lemma tnext_new i k m p m' : tnext i k m p = Some (Some (m', PNew)) ->
  m_index m = false /\ m_ptr m' = m_ptr m /\ m_disk m' = m_disk m /\ m_heap m' = m_heap m.
Proof.
  intros H. destruct p as [| | |o| | | |d|d| | | |r]; cbn in H; unfold fail, leave, set_progress in H.
  all: destruct k; cbn in H; repeat (case_match; simplify_eq/=; try done); simplify_eq/=.
Qed.
(** an unlocked call changes nothing while the record is being created *)
Lemma tnext_peek i m p m' p' : tok m i KPeek p -> m_ptr m = None -> m_disk m = FMissing -> m_heap m = [] ->
  tnext i KPeek m p = Some (Some (m', p')) -> m' = m.
Proof.
  intros (_ & _ & Hp) H1 H2 H3 H.
  destruct p as [| | |o| | | |d|d| | | |r]; cbn in H; unfold fail, leave, set_progress in H; cbn in H; rewrite ?H1, ?H2 in H; cbn in H, Hp;
    repeat (case_match; simplify_eq/=; try done); simplify_eq/=; try done.
  - destruct Hp as (_ & _ & Hp). rewrite H3 in Hp. cbn in Hp. lia.
  - naive_solver.
  - naive_solver.
  - naive_solver.
Qed.

Lemma finv_step s t : finv s -> fstep s t -> finv t.
Proof.
  intros I Hst. destruct Hst as [m ts k Hc|m ts i k p m' p' Hi Hn].
  - destruct I as [I1 I2 I3 I4 I5 I6 I7 I8 I9]. cbn in *. split; cbn; try assumption.
    + intros j k' p' [?|[Hj Hx]]%lookup_app_Some; [by apply I1|].
      apply list_lookup_singleton_Some in Hx as [_ [= <- <-]].
      split; [intros (_ & ? & _); done|]. split; [by destruct m|done].
    + intros Hs. destruct (I5 Hs) as (j & k' & d & Hj). exists j, k', d. by apply lookup_app_l_Some.
    + intros H1 H2. destruct (I6 H1 H2) as (j & k' & d & Hj & ?). exists j, k', d. split; [by apply lookup_app_l_Some|done].
    + intros j k' [?|[Hj Hx]]%lookup_app_Some; [by eapply I8|].
      apply list_lookup_singleton_Some in Hx as [_ [=]].
  - destruct I as [I1 I2 I3 I4 I5 I6 I7 I8 I9]. cbn in *.
    pose proof (I1 _ _ _ Hi) as Hk. pose proof (tnext_grows _ _ _ _ _ _ Hn) as G.
    pose proof (tnext_tok _ _ _ _ _ _ I2 I4 Hk Hn) as Hk'.
    destruct (tnext_heap _ _ _ _ _ _ I2 I4 Hk Hn) as (Hh & Hd & Ha).
    assert (Hlen : i < length ts) by (by eapply lookup_lt_Some).
    assert (Hoth : forall j k' q, j <> i -> ts !! j = Some (k', q) -> tok m' j k' q /\ (crit k' q -> ~ crit k p)).
    { intros j k' q Hne Hj. pose proof (I1 _ _ _ Hj) as Hq.
      assert (Hno : crit k' q -> ~ crit k p).
      { intros C1 C2. pose proof (proj1 Hq C1). pose proof (proj1 Hk C2). congruence. }
      split; [|done]. eapply tok_grows; [done..|]. intros C. destruct (tnext_lock _ _ _ _ _ _ Hn) as [E|[E|E]]; [done| |].
      - pose proof (proj1 Hq C). congruence.
      - exfalso. by apply Hno. }
    split; cbn; try assumption.
    + intros j k' q Hj. apply list_lookup_insert_Some in Hj as [(<- & [= <- <-] & _)|[Hne Hj]]; [done|].
      by apply Hoth.
    + intros o Ho. destruct p as [| | |o'| | | |d|d| | | |r]; cbn in Hn; unfold fail, leave, set_progress in Hn.
      all: destruct k; cbn in Hn; repeat (case_match; simplify_eq/=; try done); simplify_eq/=.
      all: rewrite ?app_length, ?alter_length; cbn.
      all: try (by apply I3). all: try (pose proof (I3 _ Ho); lia). all: try lia. all: try (destruct Hk as (_ & _ & ? & ? & ?); cbn in *; lia).
    + intros Hs. destruct (tnext_short _ _ _ _ _ _ Hn Hs) as [[d ->]|[Hm Hp]].
      * exists i, k, d. by apply list_lookup_insert.
      * destruct (I5 Hm) as (j & k' & d & Hj). exists j, k', d. rewrite list_lookup_insert_ne; [done|]. intros ->.
        rewrite Hi in Hj. injection Hj as _ Hj. by apply (Hp d).
    + intros H1 H2. destruct (tnext_miss _ _ _ _ _ _ Hk Hn H1 H2) as [[Hr Hl]|(Hi' & Hm & Hnot)].
      * exists i, k, p'. split; [by apply list_lookup_insert|]. done.
      * destruct (I6 Hi' Hm) as (j & k' & q & Hj & Hr & Hl). exists j, k', q. split; [|done]. rewrite list_lookup_insert_ne; [done|]. intros ->.
        rewrite Hi in Hj. injection Hj as -> ->. by apply Hnot.
    + intros H1. destruct (tnext_idx _ _ _ _ _ _ Hk Hn H1) as (H0 & -> & -> & ->). by apply I7.
    + intros j k' Hj. apply list_lookup_insert_Some in Hj as [(<- & [= <- ->] & _)|[Hne Hj]].
      * destruct (tnext_new _ _ _ _ _ Hn) as (H0 & -> & -> & ->). by apply I7.
      * destruct (I8 _ _ Hj) as (E1 & E2 & E3). destruct (Hoth _ _ _ (not_eq_sym Hne) Hj) as [_ Hno].
        assert (Hcj : crit k' PNew).
        { pose proof (I1 _ _ _ Hj) as (_ & _ & Hr & _). split; [|split; [discriminate|intros; discriminate]]. by destruct k'. }
        specialize (Hno Hcj). destruct (locks k) eqn:El.
        -- destruct p as [| | |o| | | |d|d| | | |r]; try (exfalso; apply Hno; split; [done|]; split; [discriminate|]; intros; discriminate).
           cbn in Hn. rewrite El in Hn. rewrite (proj1 (I1 _ _ _ Hj) Hcj) in Hn. done.
        -- destruct k; try done. rewrite (tnext_peek _ _ _ _ _ Hk E1 E2 E3 Hn). done.
    + by apply Ha.
Qed.
Lemma finv_steps s t : fsteps s t -> finv s -> finv t.
Proof. induction 1; [done|]. intros I. eapply finv_step; [|done]. auto. Qed.
Lemma finv_reach s : freach s -> finv s.
Proof. intros (s0 & H0 & H). eapply finv_steps; [done|]. by apply finv_begin. Qed.
