(** Proofs about locks and shared memory. *)
From Verif Require Export LocksSpec.

Definition all_calls : list call :=
  [CListFiles; CShareFile; CUnshareFile; CRegister; CContains; CRehash; CGet; CComplete; CMissing; CSaveChunk; CChunkReader;
   CRequestID; CRegisterChan; CUnregisterChan; CDeliver; CStartUpload; CContinueUpload; CDownload].
Lemma all_calls_in c : c ∈ all_calls.
Proof. apply elem_of_list_In. destruct c; cbn; tauto. Qed.
(** locks held after some actions *)
Definition hold1 (h : list lock) (a : act) : list lock :=
  match a with Acq k => k :: h | Rel k => filter (fun x => x <> k) h | _ => h end.
Definition held (p : list act) : list lock := foldl hold1 [] p.
Definition rank (k : lock) : nat := match k with KTransfer => 0 | KCat => 1 | KProg => 2 | KReq => 3 | KRes => 3 end.
(** locks are taken in the order of [rank], and given back in the end *)
Fixpoint ordered (h : list lock) (t : list act) : bool :=
  match t with
  | [] => bool_decide (h = [])
  | Acq k :: t => forallb (fun x => rank x <? rank k) h && ordered (k :: h) t
  | Rel k :: t => ordered (filter (fun x => x <> k) h) t
  | _ :: t => ordered h t
  end.
Definition lock_of (l : loc) : lock :=
  match l with LIndex | LRecord => KCat | LReq => KReq | LRes => KRes | LDownloads | LUploads => KTransfer end.
(** every use of [l] has its lock *)
Fixpoint guarded (l : loc) (h : list lock) (t : list act) : bool :=
  match t with
  | [] => true
  | a :: t => (if decide (a = Rd l \/ a = Wr l) then bool_decide (lock_of l ∈ h) else true) && guarded l (hold1 h a) t
  end.
Definition unlockedb (c : call) (l : loc) : bool :=
  match c, l with
  | (CContains | CRehash), (LIndex | LRecord) => true
  | (CStartUpload | CContinueUpload), LUploads => true
  | _, _ => false
  end.
Lemma unlockedb_spec c l : unlockedb c l = true <-> unlocked c l.
Proof.
  split; [destruct c, l; try done; intros _; constructor; auto|]. intros [? [->| ->]|? [->| ->]| |]; done.
Qed.
Definition all_locs : list loc := [LIndex; LRecord; LReq; LRes; LDownloads; LUploads].
Lemma all_locs_in l : l ∈ all_locs.
Proof. apply elem_of_list_In. destruct l; cbn; tauto. Qed.
Lemma paths_ordered c p : p ∈ paths c -> ordered [] p = true /\ p <> [].
Proof.
  intros Hp. assert (H : forallb (fun c => forallb (fun p => ordered [] p && negb (bool_decide (p = []))) (paths c)) all_calls = true) by by vm_compute.
  rewrite forallb_forall in H. specialize (H c (proj1 (elem_of_list_In _ _) (all_calls_in c))). rewrite forallb_forall in H.
  apply elem_of_list_In in Hp. specialize (H p Hp). apply andb_true_iff in H as [H1 H2]. split; [done|].
  apply negb_true_iff, bool_decide_eq_false in H2. done.
Qed.
Lemma paths_guarded c p l : p ∈ paths c -> ~ unlocked c l -> guarded l [] p = true.
Proof.
  intros Hp Hu. assert (H : forallb (fun c => forallb (fun l => unlockedb c l || forallb (guarded l []) (paths c)) all_locs) all_calls = true) by by vm_compute.
  rewrite forallb_forall in H. specialize (H c (proj1 (elem_of_list_In _ _) (all_calls_in c))). rewrite forallb_forall in H.
  specialize (H l (proj1 (elem_of_list_In _ _) (all_locs_in l))). apply orb_true_iff in H as [H|H].
  - apply unlockedb_spec in H. done.
  - rewrite forallb_forall in H. apply H. by apply elem_of_list_In.
Qed.
Lemma ordered_app p q : ordered (held p) q = true -> forall q1 q2, q = q1 ++ q2 -> ordered (held (p ++ q1)) q2 = true.
Proof.
  intros H q1. revert p q H. induction q1 as [|a q1 IH]; intros p q H q2 ->; [by rewrite app_nil_r|].
  replace (p ++ a :: q1) with ((p ++ [a]) ++ q1) by (by rewrite <- app_assoc). apply (IH (p ++ [a]) (q1 ++ q2)); [|done].
  unfold held in *. rewrite foldl_app. cbn in *. destruct a; cbn in *; try done. by apply andb_true_iff in H as [_ H].
Qed.
Lemma guarded_app l p q : guarded l (held p) q = true -> forall q1 q2, q = q1 ++ q2 -> guarded l (held (p ++ q1)) q2 = true.
Proof.
  intros H q1. revert p q H. induction q1 as [|a q1 IH]; intros p q H q2 ->; [by rewrite app_nil_r|].
  replace (p ++ a :: q1) with ((p ++ [a]) ++ q1) by (by rewrite <- app_assoc). apply (IH (p ++ [a]) (q1 ++ q2)); [|done].
  unfold held in *. rewrite foldl_app. cbn in *. by apply andb_true_iff in H as [_ H].
Qed.

(** *** where a goroutine is: in the middle of a call, or at its end *)
Inductive where_ (P : call -> Prop) : goroutine -> Prop :=
| wh_end : where_ P ([], [])
| wh_in c p pre a s l : P c -> p ∈ paths c -> p = pre ++ a :: s -> program P l -> where_ P (held pre, a :: s ++ l).
Lemma where_program P l : program P l -> where_ P ([], l).
Proof.
  destruct 1 as [|c p l Hc Hp Hl]; [constructor|]. destruct (paths_ordered _ _ Hp) as [_ Hne].
  destruct p as [|a p']; [done|]. by apply (wh_in P c (a :: p') [] a p' l).
Qed.
Lemma where_step P h a t : where_ P (h, a :: t) -> where_ P (hold1 h a, t).
Proof.
  intros H. inversion H as [|c p pre a' s l Hc Hp Heq Hl]; subst. clear H.
  destruct s as [|b s].
  - destruct (paths_ordered _ _ Hp) as [Ho _].
    pose proof (ordered_app [] (pre ++ [a]) Ho (pre ++ [a]) [] (eq_sym (app_nil_r _))) as H1. cbn in H1.
    apply bool_decide_eq_true in H1. unfold held in H1. rewrite foldl_app in H1. cbn in H1. unfold held. rewrite H1. by apply where_program.
  - replace (hold1 (held pre) a) with (held (pre ++ [a])) by (unfold held; by rewrite foldl_app).
    eapply (wh_in P c _ (pre ++ [a]) b s l); try done. by rewrite <- app_assoc.
Qed.
Record ginv (P : nat -> call -> Prop) (gs : list goroutine) : Prop := {
  g_where : forall i g, gs !! i = Some g -> where_ (P i) g;
  g_excl : forall i j g g' k, i <> j -> gs !! i = Some g -> gs !! j = Some g' -> k ∈ g.1 -> k ∉ g'.1 }.
Lemma move_where gs gs' : gmove gs gs' -> exists i h a t, gs !! i = Some (h, a :: t) /\ gs' = <[i := (hold1 h a, t)]> gs
  /\ (forall k, a = Acq k -> forall j g, gs !! j = Some g -> k ∉ g.1).
Proof.
  destruct 1 as [gs i h k t Hi Hf|gs i h k t Hi|gs i h l t Hi|gs i h l t Hi].
  - exists i, h, (Acq k), t. split; [done|]. split; [done|]. by intros ? [= <-].
  - exists i, h, (Rel k), t. split; [done|]. split; [done|]. by intros ? [=].
  - exists i, h, (Rd l), t. split; [done|]. split; [done|]. by intros ? [=].
  - exists i, h, (Wr l), t. split; [done|]. split; [done|]. by intros ? [=].
Qed.
Lemma hold1_in h a k : k ∈ hold1 h a -> k ∈ h \/ a = Acq k.
Proof. destruct a; cbn; [intros [->|?]%elem_of_cons; auto|intros [_ ?]%elem_of_list_filter; auto|auto|auto]. Qed.
Lemma ginv_move P gs gs' : ginv P gs -> gmove gs gs' -> ginv P gs'.
Proof.
  intros [G1 G2] H. apply move_where in H as (i & h & a & t & Hi & -> & Hf). split.
  - intros j g [(<- & <- & _)|[_ Hj]]%list_lookup_insert_Some; [|by eapply G1]. apply where_step. by eapply G1.
  - intros j1 j2 g g' k Hne H1 H2 Hk.
    apply list_lookup_insert_Some in H1 as [(E1 & <- & _)|[Hn1 Hj1]]; apply list_lookup_insert_Some in H2 as [(E2 & <- & _)|[Hn2 Hj2]]; [congruence| | |by eapply (G2 j1 j2)].
    + cbn in Hk. apply hold1_in in Hk as [Hk| ->]; [eapply (G2 i j2); [congruence|done..]|]. by eapply Hf.
    + cbn. intros [Hk'| ->]%hold1_in; [eapply (G2 j1 i); [congruence|done..]|]. by eapply Hf.
Qed.
Lemma ginv_go P gs l : ginv (fun _ => P) gs -> program P l -> ginv (fun _ => P) (gs ++ [([], l)]).
Proof.
  intros [G1 G2] Hl. split.
  - intros i g [Hi|[_ Hi]]%lookup_app_Some; [by eapply G1|]. apply list_lookup_singleton_Some in Hi as [_ <-]. by apply where_program.
  - intros i j g g' k Hne [Hi|[Hx Hi]]%lookup_app_Some [Hj|[Hy Hj]]%lookup_app_Some Hk; [by eapply G2| | |].
    + apply list_lookup_singleton_Some in Hj as [_ <-]. set_solver.
    + apply list_lookup_singleton_Some in Hi as [_ <-]. set_solver.
    + apply list_lookup_singleton_Some in Hi as [E1 _]. apply list_lookup_singleton_Some in Hj as [E2 _]. lia.
Qed.
Lemma ginv_reach P gs : greach P gs -> ginv (fun _ => P) gs.
Proof. induction 1; [split; intros; done|by apply ginv_go|by eapply ginv_move]. Qed.
(** a use of a location: by whom, and with which locks *)
Lemma where_use P g a : where_ P g -> about_to g a ->
  exists c p, P c /\ p ∈ paths c /\ a ∈ p /\ forall l, a = Rd l \/ a = Wr l -> ~ unlocked c l -> lock_of l ∈ g.1.
Proof.
  intros Hw (t & Ht). destruct Hw as [|c p pre a' s l Hc Hp Heq Hl]; [done|]. cbn in Ht. injection Ht as -> _.
  exists c, p. split; [done|]. split; [done|]. split; [subst; set_solver|]. intros l' Ha Hu.
  pose proof (paths_guarded _ _ _ Hp Hu) as Hg. pose proof (guarded_app l' [] p Hg pre (a :: s) Heq) as H. cbn in H.
  apply andb_true_iff in H as [H _]. rewrite decide_True in H by done. by apply bool_decide_eq_true in H.
Qed.
Definition conflict (c d : call) (l : loc) : Prop :=
  uses c l /\ uses d l /\ (writes c l \/ writes d l) /\ (unlocked c l \/ unlocked d l).
Lemma unlocked_dec c l : unlocked c l \/ ~ unlocked c l.
Proof. destruct (unlockedb c l) eqn:E; [left; by apply unlockedb_spec|right; intros H%unlockedb_spec; congruence]. Qed.
Lemma race_conflict P gs l : ginv P gs -> race gs l ->
  exists i j c d, i <> j /\ i < length gs /\ j < length gs /\ P i c /\ P j d /\ conflict c d l.
Proof.
  intros [G1 G2] (i & j & g & g' & Hne & Hi & Hj & Ha & Hb).
  destruct (where_use _ _ _ (G1 _ _ Hi) Ha) as (c & p & Hc & Hp & Hin & Hg).
  assert (Hd : exists d q, P j d /\ q ∈ paths d /\ (Rd l ∈ q \/ Wr l ∈ q) /\ (~ unlocked d l -> lock_of l ∈ g'.1)).
  { destruct Hb as [Hb|Hb]; destruct (where_use _ _ _ (G1 _ _ Hj) Hb) as (d & q & Hd & Hq & Hin' & Hg'); exists d, q.
    all: split; [done|]; split; [done|]; split; [auto|]; apply Hg'; auto. }
  destruct Hd as (d & q & Hd & Hq & Hin' & Hg'). exists i, j, c, d. split; [done|]. split; [by eapply lookup_lt_Some|]. split; [by eapply lookup_lt_Some|]. split; [done|]. split; [done|].
  split; [exists p; eauto|]. split; [exists q; eauto|]. split; [left; exists p; eauto|].
  destruct (unlocked_dec c l) as [|Hu]; [by left|]. destruct (unlocked_dec d l) as [|Hu']; [by right|].
  exfalso. eapply (G2 i j); [done..| |by apply Hg']. by apply (Hg l); [right|].
Qed.

(** *** executions *)
Definition gdo (gs : list goroutine) (i : nat) : option (list goroutine) :=
  match gs !! i with
  | Some (h, a :: t) =>
      match a with
      | Acq k => if forallb (fun g : goroutine => negb (bool_decide (k ∈ g.1))) gs then Some (<[i := (k :: h, t)]> gs) else None
      | _ => Some (<[i := (hold1 h a, t)]> gs)
      end
  | _ => None
  end.
Lemma gdo_move gs i gs' : gdo gs i = Some gs' -> gmove gs gs'.
Proof.
  unfold gdo. destruct (gs !! i) as [[h [|a t]]|] eqn:E; [done| |done]. destruct a as [k|k|l|l].
  - destruct (forallb _ gs) eqn:F; [|done]. intros [= <-]. constructor; [done|]. intros j g Hj. rewrite forallb_forall in F.
    apply elem_of_list_lookup_2, elem_of_list_In in Hj. specialize (F _ Hj). apply negb_true_iff, bool_decide_eq_false in F. done.
  - intros [= <-]. by constructor.
  - intros [= <-]. by eapply g_rd.
  - intros [= <-]. by eapply g_wr.
Qed.
Fixpoint grun (gs : list goroutine) (l : list nat) : option (list goroutine) :=
  match l with [] => Some gs | i :: l => match gdo gs i with Some gs' => grun gs' l | None => None end end.
Lemma grun_moves gs l gs' : grun gs l = Some gs' -> gmoves gs gs'.
Proof.
  assert (G : forall l g0 gs gs', gmoves g0 gs -> grun gs l = Some gs' -> gmoves g0 gs').
  { clear. induction l as [|i l IH]; intros g0 gs gs' H; cbn; [by intros [= <-]|].
    destruct (gdo gs i) as [g1|] eqn:E; [|done]. apply IH. eapply gm_snoc; [done|]. by eapply gdo_move. }
  apply G. constructor.
Qed.
Definition raceb (gs : list goroutine) (l : loc) : bool :=
  match gs with
  | [(_, Wr l1 :: _); (_, (Rd l2 | Wr l2) :: _)] => bool_decide (l1 = l) && bool_decide (l2 = l)
  | [(_, Rd l1 :: _); (_, Wr l2 :: _)] => bool_decide (l1 = l) && bool_decide (l2 = l)
  | _ => false
  end.
Lemma raceb_race gs l : raceb gs l = true -> race gs l.
Proof.
  unfold raceb. intros H. destruct gs as [|[h1 [|[k|k|l1|l1] t1]] [|[h2 [|[k'|k'|l2|l2] t2]] [|]]]; try done.
  all: apply andb_true_iff in H as [H1 H2]; apply bool_decide_eq_true in H1, H2; subst.
  - exists 1, 0, (h2, Wr l :: t2), (h1, Rd l :: t1). split; [done|]. split; [done|]. split; [done|]. split; [by eexists|]. left. by eexists.
  - exists 0, 1, (h1, Wr l :: t1), (h2, Rd l :: t2). split; [done|]. split; [done|]. split; [done|]. split; [by eexists|]. left. by eexists.
  - exists 0, 1, (h1, Wr l :: t1), (h2, Wr l :: t2). split; [done|]. split; [done|]. split; [done|]. split; [by eexists|]. right. by eexists.
Qed.
(** run [p] for [i] steps and then [q] for [j], or the other way round *)
Definition tries (p q : list act) : list (list nat) :=
  flat_map (fun i => flat_map (fun j => [replicate i 0 ++ replicate j 1; replicate j 1 ++ replicate i 0]) (seq 0 (length q))) (seq 0 (length p)).
Definition finds (c d : call) (l : loc) : bool :=
  existsb (fun p => existsb (fun q => existsb (fun sch =>
    match grun [([], p); ([], q)] sch with Some gs => raceb gs l | None => false end) (tries p q)) (paths d)) (paths c).
Lemma finds_race c d l : finds c d l = true -> can_race c d l.
Proof.
  unfold finds. intros H. apply existsb_exists in H as (p & Hp & H). apply existsb_exists in H as (q & Hq & H).
  apply existsb_exists in H as (sch & _ & H). destruct (grun _ sch) as [gs|] eqn:E; [|done].
  exists p, q, gs. split; [by apply elem_of_list_In|]. split; [by apply elem_of_list_In|]. split; [by eapply grun_moves|by apply raceb_race].
Qed.
Definition usesb (c : call) (l : loc) : bool := existsb (fun p => bool_decide (Rd l ∈ p) || bool_decide (Wr l ∈ p)) (paths c).
Definition writesb (c : call) (l : loc) : bool := existsb (fun p => bool_decide (Wr l ∈ p)) (paths c).
Lemma usesb_spec c l : usesb c l = true <-> uses c l.
Proof.
  unfold usesb, uses. rewrite existsb_exists. setoid_rewrite orb_true_iff. setoid_rewrite bool_decide_eq_true. setoid_rewrite elem_of_list_In. done.
Qed.
Lemma writesb_spec c l : writesb c l = true <-> writes c l.
Proof. unfold writesb, writes. rewrite existsb_exists. setoid_rewrite bool_decide_eq_true. setoid_rewrite elem_of_list_In. done. Qed.
Definition conflictb (c d : call) (l : loc) : bool :=
  usesb c l && usesb d l && (writesb c l || writesb d l) && (unlockedb c l || unlockedb d l).
Lemma conflict_race c d l : conflict c d l -> can_race c d l.
Proof.
  intros (H1 & H2 & H3 & H4). apply usesb_spec in H1, H2. apply finds_race.
  assert (H : forallb (fun c => forallb (fun d => forallb (fun l => implb (conflictb c d l) (finds c d l)) all_locs) all_calls) all_calls = true) by by vm_compute.
  rewrite forallb_forall in H. specialize (H c (proj1 (elem_of_list_In _ _) (all_calls_in c))). rewrite forallb_forall in H.
  specialize (H d (proj1 (elem_of_list_In _ _) (all_calls_in d))). rewrite forallb_forall in H.
  specialize (H l (proj1 (elem_of_list_In _ _) (all_locs_in l))). enough (E : conflictb c d l = true) by (rewrite E in H; done).
  unfold conflictb. rewrite H1, H2. cbn. apply andb_true_iff. rewrite !orb_true_iff, !writesb_spec, !unlockedb_spec. done.
Qed.
Lemma conflict_sym c d l : conflict c d l -> conflict d c l.
Proof. unfold conflict. tauto. Qed.
Lemma pair_inv c d p q : p ∈ paths c -> q ∈ paths d -> ginv (fun i x => match i with 0 => x = c | _ => x = d end) [([], p); ([], q)].
Proof.
  intros Hp Hq. split.
  - intros [|[|i]] g [= <-]; apply where_program.
    + rewrite <- (app_nil_r p). by eapply (pr_call _ c); [|done|constructor].
    + rewrite <- (app_nil_r q). by eapply (pr_call _ d); [|done|constructor].
  - intros [|[|i]] [|[|j]] g g' k Hne [= <-] [= <-]; cbn; set_solver.
Qed.
Lemma moves_inv P gs gs' : gmoves gs gs' -> ginv P gs -> ginv P gs' /\ length gs' = length gs.
Proof.
  induction 1 as [|gs gs' gs'' H IH Hm]; [done|]. intros Hg. destruct (IH Hg) as [H1 H2]. split; [by eapply ginv_move|].
  apply move_where in Hm as (i & h & a & t & _ & -> & _). by rewrite insert_length.
Qed.
Lemma race_table c d l : can_race c d l <-> conflict c d l.
Proof.
  split; [|apply conflict_race]. intros (p & q & gs & Hp & Hq & Hm & Hr).
  destruct (moves_inv _ _ _ Hm (pair_inv _ _ _ _ Hp Hq)) as [Hg Hlen]. cbn in Hlen.
  destruct (race_conflict _ _ _ Hg Hr) as (i & j & c' & d' & Hne & Hi & Hj & Hc & Hd & Hcd). rewrite Hlen in Hi, Hj.
  destruct i as [|[|]], j as [|[|]]; try lia; subst; [done|by apply conflict_sym].
Qed.
Lemma C98_lemma P gs l : greach P gs -> race gs l -> exists c d, P c /\ P d /\ can_race c d l.
Proof.
  intros H Hr. destruct (race_conflict _ _ _ (ginv_reach _ _ H) Hr) as (i & j & c & d & _ & _ & _ & Hc & Hd & Hcd).
  exists c, d. split; [done|]. split; [done|]. by apply conflict_race.
Qed.
Lemma C98_safe_lemma P gs l : greach P gs -> (forall c, P c -> ~ unlocked c l) -> ~ race gs l.
Proof.
  intros H Hu Hr. destruct (C98_lemma _ _ _ H Hr) as (c & d & Hc & Hd & Hcd%race_table). destruct Hcd as (_ & _ & _ & [?|?]); naive_solver.
Qed.

(** *** no deadlock among locks *)
Lemma where_ordered P h t : where_ P (h, t) -> forall k t', t = Acq k :: t' -> Forall (fun x => rank x < rank k) h.
Proof.
  intros H k t' ->. inversion H as [|c p pre a s l Hc Hp Heq Hl]; subst. destruct (paths_ordered _ _ Hp) as [Ho _].
  pose proof (ordered_app [] _ Ho pre (Acq k :: s) eq_refl) as H1. cbn in H1. apply andb_true_iff in H1 as [H1 _].
  rewrite forallb_forall in H1. apply Forall_forall. intros x Hx. apply elem_of_list_In in Hx. apply H1 in Hx. by apply Nat.ltb_lt in Hx.
Qed.
Lemma move_exists P gs : ginv P gs -> forall n i h k t, gs !! i = Some (h, Acq k :: t) -> rank k + n = 4 -> exists gs', gmove gs gs'.
Proof.
  intros [G1 G2] n. induction n as [n IH] using lt_wf_ind. intros i h k t Hi Hn.
  destruct (decide (Exists (fun g : goroutine => k ∈ g.1) gs)) as [He|He].
  - apply Exists_exists in He as ([h' t'] & Hg & Hk). apply elem_of_list_lookup in Hg as (j & Hj). cbn in Hk.
    destruct t' as [|a t'].
    { pose proof (G1 _ _ Hj) as Hw. inversion Hw; subst. by apply elem_of_nil in Hk. }
    destruct a as [k'|k'|l|l].
    + pose proof (where_ordered _ _ _ (G1 _ _ Hj) _ _ eq_refl) as Hr. rewrite Forall_forall in Hr. specialize (Hr _ Hk).
      assert (rank k' <= 3) by (destruct k'; cbn; lia). eapply (IH (4 - rank k')); [lia|done|]. lia.
    + eexists. by eapply g_rel.
    + eexists. by eapply g_rd.
    + eexists. by eapply g_wr.
  - eexists. eapply g_acq; [done|]. intros j g Hj Hk. apply He, Exists_exists. exists g. split; [by eapply elem_of_list_lookup_2|done].
Qed.
Lemma C99_lemma P gs : greach P gs -> done_all gs \/ exists gs', gmove gs gs'.
Proof.
  intros H. apply ginv_reach in H. destruct (decide (Forall (fun g : goroutine => g.2 = []) gs)) as [Hd|Hd].
  - left. intros i g Hi. by eapply Forall_lookup_1 in Hd.
  - right. apply not_Forall_Exists in Hd; [|apply _]. apply Exists_exists in Hd as ([h t] & Hg & Ht). apply elem_of_list_lookup in Hg as (i & Hi).
    cbn in Ht. destruct t as [|[k|k|l|l] t]; [done| | | |].
    + eapply (move_exists _ _ H (4 - rank k)); [done|]. destruct k; cbn; lia.
    + eexists. by eapply g_rel.
    + eexists. by eapply g_rd.
    + eexists. by eapply g_wr.
Qed.
(** every execution without new goroutines ends, with no lock held *)
Definition work (gs : list goroutine) : nat := sum_list_with (fun g : goroutine => length g.2) gs.
Lemma work_insert gs i h a t h' : gs !! i = Some (h, a :: t) -> work gs = S (work (<[i := (h', t)]> gs)).
Proof.
  unfold work. revert i. induction gs as [|g gs IH]; intros [|i] H; [done..| |].
  - injection H as ->. cbn. lia.
  - change (<[S i:=(h', t)]> (g :: gs)) with (g :: <[i:=(h', t)]> gs). cbn [sum_list_with]. specialize (IH i H). lia.
Qed.
Lemma move_work gs gs' : gmove gs gs' -> work gs = S (work gs').
Proof. intros H. apply move_where in H as (i & h & a & t & Hi & -> & _). by eapply work_insert. Qed.
Lemma C99_ends_lemma P gs : greach P gs -> exists gs', gmoves gs gs' /\ done_all gs'.
Proof.
  intros H. assert (G : forall n g0, gmoves gs g0 -> greach P g0 -> work g0 = n -> exists gs', gmoves gs gs' /\ done_all gs').
  { induction n as [n IH] using lt_wf_ind. intros g0 Hm Hr Hn. destruct (C99_lemma _ _ Hr) as [Hd|[g1 H1]]; [by exists g0|].
    apply (IH (work g1)) with g1; [apply move_work in H1; lia|by eapply gm_snoc|by eapply gr_move|done]. }
  apply (G (work gs) gs); [constructor|done|done].
Qed.
Lemma C99_free_lemma P gs i h : greach P gs -> gs !! i = Some (h, []) -> h = [].
Proof. intros H Hi. apply ginv_reach in H. pose proof (g_where _ _ H _ _ Hi) as Hw. by inversion Hw. Qed.
Lemma moves_reach P gs gs' : greach P gs -> gmoves gs gs' -> greach P gs'.
Proof. intros H. induction 1; [done|]. eapply gr_move; [|done]. auto. Qed.
Lemma C99_ends P gs : greach P gs ->
  (exists gs', gmoves gs gs' /\ done_all gs')
  /\ (forall gs', gmoves gs gs' -> (forall gs'', ~ gmove gs' gs'') -> done_all gs')
  /\ (forall gs' gs'', gmoves gs gs' -> gmove gs' gs'' -> todo_count gs'' < todo_count gs').
Proof.
  intros H. split; [by eapply C99_ends_lemma|]. split.
  - intros gs' Hm Hn. destruct (C99_lemma P gs' (moves_reach _ _ _ H Hm)) as [?|[gs'' ?]]; [done|]. by destruct (Hn gs'').
  - intros gs' gs'' _ Hm. apply move_work in Hm. unfold work, todo_count in *. lia.
Qed.
Lemma run_race P gs sch gs' l : greach P gs -> grun gs sch = Some gs' -> raceb gs' l = true -> exists gs', greach P gs' /\ race gs' l.
Proof. intros H Hr Hb. exists gs'. split; [|by apply raceb_race]. eapply moves_reach; [done|]. by eapply grun_moves. Qed.
Lemma two_reach (P : call -> Prop) c d p q : P c -> P d -> p ∈ paths c -> q ∈ paths d -> greach P [([], p); ([], q)].
Proof.
  intros Hc Hd Hp Hq. apply (gr_go P [([], p)]); [apply (gr_go P []); [constructor|]|].
  - rewrite <- (app_nil_r p). apply (pr_call P c p []); [done|done|constructor].
  - rewrite <- (app_nil_r q). apply (pr_call P d q []); [done|done|constructor].
Qed.
Lemma C98_refuted_lemma :
  (exists gs, greach (fun c => c = CStartUpload) gs /\ race gs LUploads)
  /\ (exists gs, greach (fun c => c = CShareFile \/ c = CContains) gs /\ race gs LIndex).
Proof.
  split.
  - eapply (run_race _ _ [0; 1] _ LUploads).
    + eapply (two_reach _ CStartUpload CStartUpload [Rd LUploads; Wr LUploads; Rd LUploads] [Rd LUploads; Wr LUploads; Rd LUploads]); [done..| |];
        apply elem_of_list_In; vm_compute; tauto.
    + by vm_compute.
    + by vm_compute.
  - eapply (run_race _ _ [0; 0] _ LIndex).
    + eapply (two_reach _ CShareFile CContains (locked KCat [Rd LIndex; Wr LIndex; Rd LIndex]) [Rd LIndex]); [by left|by right| |];
        apply elem_of_list_In; vm_compute; tauto.
    + by vm_compute.
    + by vm_compute.
Qed.
