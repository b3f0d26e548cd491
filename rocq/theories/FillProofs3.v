(** Proofs about entries under concurrent use: what others see of ShareFile. *)
From Verif Require Export FillProofs2.

Definition unregistered (s : fstate) : Prop := forall i p, f_thr s !! i <> Some (KReg, p).
Inductive phase (n : nat) (s : fstate) : Prop :=
| ph_none : m_ptr (f_mem s) = None -> m_heap (f_mem s) = [] -> m_disk (f_mem s) = FMissing -> phase n s
| ph_empty i : m_ptr (f_mem s) = Some 0 -> m_heap (f_mem s) = [∅] -> m_disk (f_mem s) = FMissing ->
    f_thr s !! i = Some (KShare, PFill) -> phase n s
| ph_full o : m_ptr (f_mem s) = Some o -> Forall (fun d => d = all_chunks n) (m_heap (f_mem s)) ->
    (forall d, m_disk (f_mem s) = FSet d -> d = all_chunks n) -> phase n s.
Record sinv (n : nat) (s : fstate) : Prop := {
  s_count : m_count (f_mem s) = n;
  s_held : m_held (f_mem s) = all_chunks n;
  s_phase : phase n s;
  s_data : forall i k d, f_thr s !! i = Some (k, PTrunc d) \/ f_thr s !! i = Some (k, PWrite d) -> d = all_chunks n;
  s_done : forall i k d, f_thr s !! i = Some (k, PDone (Some d)) -> d = all_chunks n \/ (k = KPeek /\ d = ∅) }.

Lemma full_progress n m o : m_ptr m = Some o -> o < length (m_heap m) -> Forall (fun d => d = all_chunks n) (m_heap m) -> progress m = all_chunks n.
Proof.
  intros Hp Hl H. unfold progress. rewrite Hp. apply lookup_lt_is_Some in Hl as [d Hd].
  rewrite (list_lookup_total_correct _ _ _ Hd). exact (proj1 (Forall_lookup _ _) H _ _ Hd).
Qed.
Lemma all_union n x : x < n -> all_chunks n ∪ {[x]} = all_chunks n.
Proof.
  intros Hx. apply set_eq. intros y. rewrite elem_of_union, elem_of_singleton. unfold all_chunks. rewrite !elem_of_set_seq. lia.
Qed.
Lemma sinv_step n s t : finv s -> unregistered s -> sinv n s -> fstep s t -> sinv n t.
Proof.
  intros I Hu S H. destruct H as [m ts k Hc|m ts i k p m' p' Hi Hn].
  { destruct S as [S1 S2 S3 S4 S5]. cbn in *. split; cbn; [done..| | |].
    - destruct S3 as [?|j|o]; [by apply ph_none|eapply (ph_empty _ _ j); cbn in *; try done; by apply lookup_app_l_Some|by eapply (ph_full _ _ o)].
    - intros j k' d [[Hj|[_ Hj]]%lookup_app_Some|[Hj|[_ Hj]]%lookup_app_Some]; try (eapply S4; by eauto); apply list_lookup_singleton_Some in Hj as [_ [=]].
    - intros j k' d [Hj|[_ Hj]]%lookup_app_Some; [by eapply S5|]. apply list_lookup_singleton_Some in Hj as [_ [=]]. }
  destruct S as [S1 S2 S3 S4 S5]. cbn in *.
  pose proof (i_thr _ I _ _ _ Hi) as Hk. cbn in Hk. pose proof Hk as (Hl & Hcall & Hp).
  assert (Hreg : k <> KReg) by (intros ->; by apply Hu in Hi).
  assert (Hlen : i < length ts) by (by eapply lookup_lt_Some).
  (* it is enough to look at what this thread does *)
  cut (m_count m' = n /\ m_held m' = all_chunks n
       /\ ((m_ptr m' = None /\ m_heap m' = [] /\ m_disk m' = FMissing)
           \/ (m_ptr m' = Some 0 /\ m_heap m' = [∅] /\ m_disk m' = FMissing
               /\ ((k = KShare /\ p' = PFill) \/ exists j, j <> i /\ ts !! j = Some (KShare, PFill)))
           \/ (exists o, m_ptr m' = Some o /\ Forall (fun d => d = all_chunks n) (m_heap m') /\ forall d, m_disk m' = FSet d -> d = all_chunks n))
       /\ (forall d, p' = PTrunc d \/ p' = PWrite d -> d = all_chunks n)
       /\ (forall d, p' = PDone (Some d) -> d = all_chunks n \/ (k = KPeek /\ d = ∅))).
  { intros (H1 & H2 & H3 & H4 & H5). split; cbn; [done..| | |].
    - destruct H3 as [(?&?&?)|[(?&?&?&H3)|(o&?&?&?)]]; [by apply ph_none| |by eapply (ph_full _ _ o)].
      destruct H3 as [[-> ->]|(j & Hne & Hj)].
      + eapply (ph_empty _ _ i); cbn; try done. by apply list_lookup_insert.
      + eapply (ph_empty _ _ j); cbn; try done. by rewrite list_lookup_insert_ne.
    - intros j k' d [[(<- & [= <- ->] & _)|[Hne Hj]]%list_lookup_insert_Some|[(<- & [= <- ->] & _)|[Hne Hj]]%list_lookup_insert_Some].
      + apply H4; eauto.
      + eapply S4; eauto.
      + apply H4; eauto.
      + eapply S4; eauto.
    - intros j k' d [(<- & [= <- ->] & _)|[Hne Hj]]%list_lookup_insert_Some; [by apply H5|by eapply S5]. }
  destruct S3 as [P1 P2 P3|j P1 P2 P3 Pj|o P1 P2 P3]; cbn in *.
  - (* there is no progress file *)
    assert (Hno : m_ptr m <> None -> False) by (intros E; by apply E).
    destruct p as [| | |o| | | |d|d| | | |r]; cbn in Hn, Hp; unfold fail, leave, set_progress in Hn; rewrite ?P1, ?P3 in Hn;
      try (exfalso; apply Hno; apply Hp).
    all: try (destruct k; cbn in Hn; try done; repeat (case_match; simplify_eq/=; try done); simplify_eq/=;
      (split; [done|]; split; [done|]; split; [by left|]; split; [intros ? [?|?]; discriminate|intros; discriminate])).
    + destruct Hp as (_ & _ & Hp). rewrite P2 in Hp. cbn in Hp. lia.
    + destruct Hp as [Hr _]. destruct k; try done. injection Hn as <- <-. cbn. rewrite P2. cbn.
      split; [done|]. split; [done|]. split; [right; left; auto 10|]. split; [intros ? [?|?]; discriminate|intros; discriminate].
  - (* it is empty *)
    assert (Cj : crit KShare PFill) by (split; [done|split; [discriminate|intros; discriminate]]).
    pose proof (proj1 (i_thr _ I _ _ _ Pj) Cj) as Hlj. cbn in Hlj.
    destruct (decide (j = i)) as [->|Hne].
    + rewrite Hi in Pj. injection Pj as -> ->. cbn in Hn. unfold set_progress in Hn. rewrite P1 in Hn. injection Hn as <- <-. cbn.
      split; [done|]. split; [done|]. split.
      * right. right. exists 0. split; [done|]. rewrite P2, P3, S1. cbn. split; [by repeat constructor|]. done.
      * split; [intros ? [?|?]; discriminate|intros; discriminate].
    + assert (Hnc : ~ crit k p).
      { intros C. pose proof (Hl C) as E. rewrite Hlj in E. injection E as ->. done. }
      destruct (locks k) eqn:El.
      * destruct (tnext_outside _ _ _ _ _ _ El Hnc Hn) as (_ & E & _). congruence.
      * destruct k; try done.
        destruct p as [| | |o| | | |d|d| | | |r]; cbn in Hn, Hp; unfold progress in Hn; rewrite ?P1, ?P2, ?P3 in Hn;
        try (exfalso; clear -Hp; naive_solver); repeat (case_match; simplify_eq/=; try done); simplify_eq/=.
        all: try (assert (o = 0) as -> by (destruct Hp as (_ & _ & Hp); rewrite P2 in Hp; cbn in Hp; lia)).
        all: split; [done|]; split; [done|]; split;
          [right; left; rewrite ?P1, ?P2, ?P3; split; [try done|]; split; [done|]; split; [done|]; right; exists j; done|].
        all: try (split; [intros ? [?|?]; discriminate|]; intros; discriminate).
        split; [intros ? [?|?]; discriminate|]. intros d [= <-]. by right.
  - (* it is complete *)
    pose proof (i_ptr _ I _ P1) as Ho. cbn in Ho. pose proof (full_progress _ _ _ P1 Ho P2) as Hpr.
    assert (Hkeep : forall f, (forall d, d = all_chunks n -> f d = all_chunks n) -> Forall (fun d => d = all_chunks n) (alter f o (m_heap m))).
    { intros f Hf. apply Forall_alter; [done|]. intros x _ Hx. by apply Hf. }
    destruct p as [| | |o'| | | |d|d| | | |r]; cbn in Hn, Hp; unfold fail, leave, set_progress in Hn; rewrite ?P1 in Hn.
    all: try (exfalso; destruct (i_new _ I _ _ Hi) as [E _]; cbn in E; congruence).
    all: destruct k; cbn in Hn, Hcall, Hp; try done; repeat (case_match; simplify_eq/=; try done); simplify_eq/=.
    all: repeat match goal with H : _ /\ _ |- _ => destruct H | H : ex _ |- _ => destruct H end; simplify_eq/=.
    all: split; [done|]; split; [first [done | rewrite S2; by apply all_union]|].
    all: split; [right; right; eexists; split; [first [exact P1|reflexivity]|];
      split; [first [done | apply Forall_app; split; [done|]; constructor; [by apply P3|constructor]
                    | apply Hkeep; intros; subst; first [by apply all_union | reflexivity]]
             |first [done | intros ? [= <-]; eapply S4; eauto | intros ? ?; apply P3; congruence]]|].
    all: split; [first [intros ? [?|?]; discriminate | intros ? [[= <-]|?]; [done|discriminate] | intros ? [?|[= <-]]; [discriminate|]; eapply S4; eauto]|].
    all: first [intros; discriminate | intros ? [= <-]; left; first [done | eapply S4; by eauto]].
Qed.
Lemma unregistered_back s t : fstep s t -> unregistered t -> unregistered s.
Proof.
  intros H Hu i p Hi. destruct H as [m ts k Hc|m ts j k q m' q' Hj Hn]; cbn in *.
  - eapply (Hu i). cbn. by apply lookup_app_l_Some.
  - destruct (decide (j = i)) as [->|Hne].
    + rewrite Hi in Hj. injection Hj as <- <-. eapply (Hu i). cbn. apply list_lookup_insert. by eapply lookup_lt_Some.
    + eapply (Hu i). cbn. by rewrite list_lookup_insert_ne.
Qed.
Lemma sinv_steps n s t : fsteps s t -> finv s -> sinv n s -> unregistered t -> sinv n t.
Proof.
  induction 1 as [|s t u Hst IH Hu]; [done|]. intros I S Hun. pose proof (unregistered_back _ _ Hu Hun) as Hut.
  eapply sinv_step; [by eapply finv_steps|done|by apply IH|done].
Qed.
Lemma sinv_begin n : sinv n (fresh_entry n (all_chunks n)).
Proof. split; cbn; try done; [by apply ph_none|]. intros ? ? ? [?|?]; done. Qed.
Lemma C95_lemma n s i k d :
  fsteps (fresh_entry n (all_chunks n)) s -> unregistered s -> f_thr s !! i = Some (k, PDone (Some d)) ->
  d = all_chunks n \/ (k = KPeek /\ d = ∅).
Proof.
  intros H Hu Hi. eapply s_done; [|done]. eapply sinv_steps; [done| |apply sinv_begin|done].
  apply finv_begin. by constructor.
Qed.

(** *** after ShareFile has returned *)
Record uinv (s : fstate) : Prop := {
  u_idx : forall i d, f_thr s !! i = Some (KShare, PDone (Some d)) -> m_index (f_mem s) = true /\ m_ptr (f_mem s) <> None;
  u_one : forall i d j, f_thr s !! i = Some (KShare, PDone (Some d)) -> f_thr s !! j <> Some (KShare, PNew) /\ f_thr s !! j <> Some (KShare, PFill) }.
Lemma tnext_done i m p m' d : tnext i KShare m p = Some (Some (m', PDone (Some d))) -> tok m i KShare p -> p = PWrite d.
Proof.
  intros H (_ & _ & Hp). destruct p as [| | |o| | | |d'|d'| | | |r]; cbn in H, Hp; unfold set_progress in H; repeat (case_match; simplify_eq/=; try done); simplify_eq/=; try done.
  all: destruct Hp; done.
Qed.
Lemma tnext_born i m p m' p' : tnext i KShare m p = Some (Some (m', p')) -> p' = PNew \/ p' = PFill -> p = PAdd /\ m_index m = false \/ p = PNew.
Proof.
  intros H Hp'. destruct p as [| | |o| | | |d'|d'| | | |r]; cbn in H; unfold set_progress in H; repeat (case_match; simplify_eq/=; try done); simplify_eq/=; destruct Hp'; try done; eauto.
Qed.
Lemma uinv_step s t : finv s -> uinv s -> fstep s t -> uinv t.
Proof.
  intros I [U1 U2] H. destruct H as [m ts k Hc|m ts i k p m' p' Hi Hn]; cbn in *.
  - split; cbn.
    + intros j d [Hj|[_ Hj]]%lookup_app_Some; [by eapply U1|]. apply list_lookup_singleton_Some in Hj as [_ [=]].
    + intros j d j' [Hj|[_ Hj]]%lookup_app_Some; [|by apply list_lookup_singleton_Some in Hj as [_ [=]]].
      split; (intros [Hj'|[_ Hj']]%lookup_app_Some; [by destruct (U2 _ _ j' Hj)|by apply list_lookup_singleton_Some in Hj' as [_ [=]]]).
  - pose proof (i_thr _ I _ _ _ Hi) as Hk. cbn in Hk. pose proof (tnext_grows _ _ _ _ _ _ Hn) as (_ & Gi & Gp & _).
    assert (Hlen : i < length ts) by (by eapply lookup_lt_Some).
    split; cbn.
    + intros j d [(<- & [= -> ->] & _)|[Hne Hj]]%list_lookup_insert_Some.
      * pose proof (tnext_done _ _ _ _ _ Hn Hk) as ->. destruct Hk as (_ & _ & _ & ? & ? & _). auto.
      * destruct (U1 _ _ Hj). auto.
    + intros j d j' Hj.
      assert (Hnot : forall q, q = PNew \/ q = PFill -> <[i:=(k, p')]> ts !! j' <> Some (KShare, q)).
      { intros q Hq Hj'. apply list_lookup_insert_Some in Hj as [(<- & [= -> ->] & _)|[Hne Hj]].
        - pose proof (tnext_done _ _ _ _ _ Hn Hk) as ->.
          apply list_lookup_insert_Some in Hj' as [(<- & [= <-] & _)|[Hne Hj']]; [destruct Hq; discriminate|].
          assert (C1 : crit KShare (PWrite d)) by (split; [done|split; [discriminate|intros; discriminate]]).
          assert (C2 : crit KShare q) by (split; [done|]; destruct Hq as [->| ->]; (split; [discriminate|intros; discriminate])).
          pose proof (proj1 Hk C1) as E1. pose proof (proj1 (i_thr _ I _ _ _ Hj') C2) as E2. cbn in E2. congruence.
        - apply list_lookup_insert_Some in Hj' as [(<- & [= -> <-] & _)|[Hne' Hj']].
          + destruct (tnext_born _ _ _ _ _ Hn Hq) as [[-> E]| ->].
            * destruct (U1 _ _ Hj). congruence.
            * by destruct (U2 _ _ i Hj).
          + destruct (U2 _ _ j' Hj) as [N1 N2]. by destruct Hq as [->| ->]. }
      split; apply Hnot; auto.
Qed.
Lemma uinv_steps s t : fsteps s t -> finv s -> uinv s -> uinv t.
Proof. induction 1 as [|s t u Hst IH Hu]; [done|]. intros I U. eapply uinv_step; [by eapply finv_steps|by apply IH|done]. Qed.
Lemma uinv_begin n h : uinv (fresh_entry n h).
Proof. split; cbn; done. Qed.
Lemma shared_stays s t i d : fsteps s t -> f_thr s !! i = Some (KShare, PDone (Some d)) -> f_thr t !! i = Some (KShare, PDone (Some d)).
Proof.
  induction 1 as [|s t u Hst IH Hu]; [done|]. intros Hi. specialize (IH Hi). destruct Hu as [m ts k Hc|m ts j k p m' p' Hj Hn]; cbn in *.
  - by apply lookup_app_l_Some.
  - rewrite list_lookup_insert_ne; [done|]. intros ->. rewrite IH in Hj. injection Hj as <- <-. cbn in Hn. done.
Qed.
Lemma shared_progress n s i d : finv s -> sinv n s -> uinv s -> f_thr s !! i = Some (KShare, PDone (Some d)) ->
  m_index (f_mem s) = true /\ m_ptr (f_mem s) <> None /\ progress (f_mem s) = all_chunks n.
Proof.
  intros I S U Hi. destruct (u_idx _ U _ _ Hi) as [E1 E2]. split; [done|]. split; [done|].
  destruct (s_phase _ _ S) as [?|j ? ? ? Hj|o P1 P2 P3]; [done| |].
  - by destruct (u_one _ U _ _ j Hi).
  - eapply full_progress; [done| |done]. by apply I.
Qed.
Lemma C95_after_lemma n s t i d j k r :
  fsteps (fresh_entry n (all_chunks n)) s -> f_thr s !! i = Some (KShare, PDone (Some d)) ->
  fsteps s t -> unregistered t -> length (f_thr s) <= j -> f_thr t !! j = Some (k, PDone r) -> k <> KShare ->
  r = Some (all_chunks n).
Proof.
  intros H0 Hi Hst Hu Hlen Hj Hk.
  assert (I0 : finv s) by (eapply finv_steps; [done|]; apply finv_begin; by constructor).
  assert (U0 : uinv s) by (eapply uinv_steps; [done| |apply uinv_begin]; apply finv_begin; by constructor).
  assert (Hun : unregistered s).
  { clear -Hst Hu. induction Hst as [|s t u Hst IH Hu']; [done|]. apply IH. by eapply unregistered_back. }
  assert (S0 : sinv n s) by (eapply sinv_steps; [exact H0| |apply sinv_begin|done]; apply finv_begin; by constructor).
  cut (forall j k p, length (f_thr s) <= j -> f_thr t !! j = Some (k, p) -> k <> KShare ->
         p <> PLoad /\ (forall o, p <> PAssign o) /\ (forall r, p = PDone r -> r = Some (all_chunks n))).
  { intros Hc. by eapply Hc. }
  clear j k r Hlen Hj Hk. induction Hst as [|s t u Hst IH Hu'].
  { intros j k p Hl Hj. apply lookup_lt_Some in Hj. lia. }
  pose proof (unregistered_back _ _ Hu' Hu) as Hut.
  specialize (IH H0 Hi Hut I0 U0 Hun S0). pose proof (finv_steps _ _ Hst I0) as It.
  pose proof (sinv_steps _ _ _ Hst I0 S0 Hut) as St. pose proof (uinv_steps _ _ Hst I0 U0) as Ut.
  destruct (shared_progress _ _ _ _ It St Ut (shared_stays _ _ _ _ Hst Hi)) as (E1 & E2 & E3).
  intros j k p Hl Hj Hk. destruct Hu' as [m ts k' Hc|m ts j' k' q m' q' Hj' Hn]; cbn in *.
  - apply lookup_app_Some in Hj as [Hj|[_ Hj]]; [by eapply IH|]. apply list_lookup_singleton_Some in Hj as [_ [= <- <-]]. done.
  - apply list_lookup_insert_Some in Hj as [(<- & [= -> ->] & _)|[Hne Hj]]; [|by eapply IH].
    destruct (IH _ _ _ Hl Hj' Hk) as (N1 & N2 & N3). pose proof (i_thr _ It _ _ _ Hj') as (_ & _ & Hq). cbn in Hq.
    assert (Hreg : k <> KReg) by (intros ->; by apply Hut in Hj').
    destruct q as [| | |o| | | |d'|d'| | | |r']; try done; try (by destruct (N2 o)); cbn in Hn, Hq; unfold fail, leave, set_progress in Hn.
    all: destruct (m_ptr m) as [o0|] eqn:Eo; [|done].
    all: rewrite ?E1 in Hn.
    all: destruct k; try done; cbn in Hn; repeat (case_match; simplify_eq/=; try done); simplify_eq/=; try done.
    all: split; [discriminate|]; split; [intros; discriminate|]; intros r [= <-]; f_equal; try done.
    all: eapply (s_data _ _ St); by eauto.
Qed.

(** *** executions *)
#[global] Instance fkind_dec : EqDecision fkind.
Proof. solve_decision. Defined.
#[global] Instance fpc_dec : EqDecision fpc.
Proof. solve_decision. Defined.
#[global] Instance fdisk_dec : EqDecision fdisk.
Proof. solve_decision. Defined.
Lemma run_case s0 l (f : fstate -> bool) :
  match frun s0 l with Some s => f s | None => false end = true -> exists s, fsteps s0 s /\ f s = true.
Proof. destruct (frun s0 l) as [s|] eqn:E; [|done]. intros H. exists s. split; [by eapply frun_steps|done]. Qed.
Definition quietb (s : fstate) : bool := forallb (fun x => match x.2 with PDone _ => true | _ => false end) (f_thr s).
Lemma quietb_quiet s : quietb s = true -> quiet s.
Proof.
  unfold quietb. rewrite forallb_forall. intros H i k p Hi. apply elem_of_list_lookup_2, elem_of_list_In in Hi. specialize (H _ Hi).
  cbn in H. destruct p; try done. eauto.
Qed.
Definition settledb (s : fstate) : bool :=
  bool_decide (m_ptr (f_mem s) <> None) && forallb (fun x => match x.2 with PLoad | PAssign _ => false | _ => true end) (f_thr s).
Lemma settledb_settled s : settledb s = true -> settled s.
Proof.
  unfold settledb. rewrite andb_true_iff, forallb_forall. intros [H1 H]. apply bool_decide_eq_true in H1. split; [done|].
  split; [intros i k Hi|intros i k o Hi]; apply elem_of_list_lookup_2, elem_of_list_In in Hi; by specialize (H _ Hi).
Qed.
