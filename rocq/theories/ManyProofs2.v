(** Proofs about several downloads at the same time, part 2: places and examples. *)
From Verif Require Export ManyProofs SwarmProofs2.
From Coq Require Import ZifyBool ZifyNat ZifyN.
Ltac Zify.zify_post_hook ::= Z.div_mod_to_equations.

(** *** C110 *)
Lemma apart_insert A h a : A !! h = None -> apart A -> (apart (<[h := a]> A) <-> unused A (a_path a)).
Proof.
  intros Hn HA. split.
  - intros H h1 a1 Ha1. assert (h1 <> h) as Hne by congruence. apply (H h1 h a1 a Hne); [|apply lookup_insert].
    rewrite lookup_insert_ne by done. done.
  - intros H h1 h2 a1 a2 Hne H1 H2. destruct (decide (h1 = h)) as [->|H1n].
    + rewrite lookup_insert in H1. rewrite lookup_insert_ne in H2 by done. simplify_eq. apply not_eq_sym. eapply H. done.
    + rewrite lookup_insert_ne in H1 by done. destruct (decide (h2 = h)) as [->|H2n].
      * rewrite lookup_insert in H2. simplify_eq. eapply H. done.
      * rewrite lookup_insert_ne in H2 by done. exact (HA h1 h2 a1 a2 Hne H1 H2).
Qed.
Lemma C110_exact_lemma cwd dir dl A c f q c' f' ans A' : reached cwd dir dl A c f -> allowed cwd dir dl A f q ->
  crun cwd c f q = Some (c', f', ans) -> reached cwd dir dl A' c' f' -> apart A ->
  (apart A' <-> new_place cwd dl A f q).
Proof.
  intros H Hal Hr H' HA. destruct (reached_call _ _ _ _ _ _ _ H Hal) as (c2 & f2 & A2 & ans2 & Hr2 & Hsp & Hre2).
  rewrite Hr in Hr2. simplify_eq.
  assert (A' = A2) as ->.
  { pose proof (reached_synced _ _ _ _ _ _ H') as (_ & S1 & _). pose proof (reached_synced _ _ _ _ _ _ Hre2) as (_ & S2 & _).
    eapply synced_unique; done. }
  destruct q as [p|size count chunk h name|h|h i data|order|h|h|fuel h i|h|pid now]; cbn [new_place]; cbn [aspec] in Hsp.
  - destruct Hsp as [_ Hsp]. destruct (file_at f (abs cwd p)) as [l|] eqn:El; [|destruct Hsp as [-> _]; split; [congruence|done]].
    destruct (A !! sha1 l) eqn:E; destruct Hsp as [-> _]; [split; [congruence|done]|].
    rewrite apart_insert by done. cbn [full_entry a_path]. split; [intros Hu l' ? _; simplify_eq; done|intros Hu; apply (Hu l); done].
  - destruct Hsp as [_ Hsp]. destruct (A !! h) eqn:E; destruct Hsp as [-> _]; [split; [congruence|done]|].
    rewrite apart_insert by done. cbn [new_entry a_path]. split; [done|auto].
  - destruct Hsp as (_ & -> & _). split; [done|]. intros _ h1 h2 a1 a2 Hne H1 H2.
    apply lookup_delete_Some in H1 as [_ H1]. apply lookup_delete_Some in H2 as [_ H2]. exact (HA h1 h2 a1 a2 Hne H1 H2).
  - destruct (A !! h) as [a|] eqn:Ha; [|done]. split; [done|]. intros _.
    destruct Hsp as [(_ & _ & -> & _)|(_ & _ & -> & _)]; [|done].
    intros h1 h2 a1 a2 Hne H1 H2.
    assert (forall h' a', (<[h := hold a i]> A) !! h' = Some a' -> exists a0, A !! h' = Some a0 /\ a_path a' = a_path a0) as Hold.
    { intros h' a'. destruct (decide (h' = h)) as [->|Hn].
      - rewrite lookup_insert. intros [= <-]. exists a. done.
      - rewrite lookup_insert_ne by done. eauto. }
    destruct (Hold h1 a1 H1) as (b1 & E1 & ->). destruct (Hold h2 a2 H2) as (b2 & E2 & ->). exact (HA h1 h2 b1 b2 Hne E1 E2).
  - destruct Hsp as (_ & -> & _). done.
  - destruct Hsp as (_ & -> & _). done.
  - destruct Hsp as (_ & -> & _). done.
  - destruct Hsp as (_ & -> & _). done.
  - destruct Hsp as (_ & -> & _). done.
  - destruct Hsp as (_ & -> & _). done.
Qed.
Lemma C110_same_name_lemma cwd dir dl A c f h1 h2 a1 size count chunk name : reached cwd dir dl A c f ->
  A !! h1 = Some a1 -> A !! h2 = None -> a_path a1 = join2 dl name ->
  allowed cwd dir dl A f (CRegister size count chunk h2 name) ->
  exists c' f' x A' a2, crun cwd c f (CRegister size count chunk h2 name) = Some (c', f', AExport x)
    /\ reached cwd dir dl A' c' f' /\ A' !! h1 = Some a1 /\ A' !! h2 = Some a2 /\ a_path a2 = a_path a1.
Proof.
  intros H Ha1 Hn Hp Hal. destruct (reached_call _ _ _ _ _ _ _ H Hal) as (c2 & f2 & A2 & ans2 & Hr2 & Hsp & Hre2).
  cbn [aspec] in Hsp. rewrite Hn in Hsp. destruct Hsp as (_ & -> & x & -> & _).
  eexists c2, f2, x, _, _. split; [done|]. split; [exact Hre2|].
  split; [rewrite lookup_insert_ne by congruence; done|]. split; [apply lookup_insert|]. done.
Qed.
Lemma C110_overwrites_lemma cwd dir dl A c f h1 h2 a1 a2 i data : reached cwd dir dl A c f ->
  h1 <> h2 -> A !! h1 = Some a1 -> A !! h2 = Some a2 -> a_path a1 = a_path a2 ->
  can_write f (a_path a2) -> parent (a_path a2) <> dir -> (i < 65536)%N ->
  exists c' f' A' new, crun cwd c f (CSave h2 i data) = Some (c', f', AOk)
    /\ overlay (default [] (file_at f (a_path a1))) (N.to_nat i * Z.to_nat (a_chunk a2)) data new
    /\ file_at f' (a_path a1) = Some new
    /\ reached cwd dir dl A' c' f' /\ A' !! h1 = Some a1
    /\ forall fuel j, length new < fuel -> (N.of_nat j < 65536)%N -> N.of_nat j ∈ a_held a1 ->
         exists c'' f'' cr, crun cwd c' f' (CReader fuel h1 j) = Some (c'', f'', AReader (FRegular new) cr)
           /\ cr_hash cr = sha1 (chunk_bytes new (Z.to_nat (a_chunk a1)) j)
           /\ forall ns, read_all (FRegular new) cr ns = Ok (expected_reads (chunk_bytes new (Z.to_nat (a_chunk a1)) j) (Z.to_nat (a_chunk a1)) 0 ns).
Proof.
  intros H Hne Ha1 Ha2 Hp Hw Hpar Hi.
  destruct (reached_call _ _ _ _ _ _ (CSave h2 i data) H) as (c' & f' & A' & ans & Hr & Hsp & Hre).
  { split; [done|]. exists a2. done. }
  cbn [aspec] in Hsp. rewrite Ha2 in Hsp. destruct Hsp as [(_ & -> & -> & new & Hov & Hsu)|(? & _)]; [|done].
  exists c', f', (<[h2 := hold a2 i]> A), new. split; [done|]. split; [rewrite Hp; done|].
  assert (f' !! a_path a1 = Some (NFile new)) as Hf.
  { rewrite Hp, Hsu by done. apply lookup_insert. }
  assert (file_at f' (a_path a1) = Some new) as Hfile by (unfold file_at; rewrite Hf; done).
  split; [done|]. split; [done|]. assert ((<[h2 := hold a2 i]> A) !! h1 = Some a1) as Hl by (rewrite lookup_insert_ne by done; done).
  split; [done|]. intros fuel j Hfuel Hj Hheld.
  destruct (reached_call _ _ _ _ _ _ (CReader fuel h1 j) Hre) as (c'' & f'' & A'' & ans & Hr2 & Hsp2 & _).
  { split; [done|]. intros a E. rewrite Hl in E. simplify_eq. split; [congruence|]. intros l E. congruence. }
  cbn [aspec] in Hsp2. rewrite Hl, decide_True, Hfile in Hsp2 by done. destruct Hsp2 as (_ & _ & cr & -> & _ & H2 & H3).
  exists c'', f'', cr. done.
Qed.

(** ** Examples *)
Definition hnew2 : list byte := replicate 20 x08.
Lemma hnew2_free : A3 !! hnew2 = None.
Proof.
  unfold A3, A2.
  assert (bool_decide (hnew = hnew2) || bool_decide (habc = hnew2) = false) as E by (vm_compute; reflexivity).
  apply orb_false_elim in E as [E1 E2]. apply bool_decide_eq_false in E1. apply bool_decide_eq_false in E2.
  rewrite !lookup_insert_ne by exact E1. apply lookup_singleton_ne. exact E2.
Qed.
Lemma hnew2_wf : hash_wf hnew2.
Proof. reflexivity. Qed.
Lemma hnew2_ne : hnew <> hnew2.
Proof. intros E. pose proof hnew2_free as H. rewrite <- E, A3_new in H. discriminate. Qed.
Global Opaque hnew2.
Definition entry_two (name : list byte) : aentry := new_entry (join2 ex_dl name) 3 3.
(** ... and registering a second file, of three bytes in one chunk *)
Definition ex4 (name : list byte) := next ex3 (CRegister 3 1 3 hnew2 name).
Definition A4 (name : list byte) : astate := <[hnew2 := entry_two name]> A3.
Lemma ex4_reached name : normal_name name -> at_ex (A4 name) (ex4 name).
Proof.
  intros Hn. eapply (next_reached A3 ex3 (CRegister 3 1 3 hnew2 name)).
  - exact ex3_reached.
  - cbn [allowed]. split_and!; [lia|lia|lia|exact hnew2_wf|exact Hn].
  - intros A f2 ans2 [_ H]. rewrite hnew2_free in H. destruct H as [-> _]. reflexivity.
Qed.
Lemma normal_two : normal_name (bs "two").
Proof. unfold normal_name. split_and!; [done..|]. refine (bool_decide_unpack (slash ∉ bs "two") _). vm_compute. done. Qed.
Lemma normal_new : normal_name (bs "new").
Proof. unfold normal_name. split_and!; [done..|]. refine (bool_decide_unpack (slash ∉ bs "new") _). vm_compute. done. Qed.
Lemma A4_new name : A4 name !! hnew = Some ex_new.
Proof. unfold A4. rewrite lookup_insert_ne by (apply not_eq_sym; exact hnew2_ne). exact A3_new. Qed.
Lemma A4_two name : A4 name !! hnew2 = Some (entry_two name).
Proof. apply lookup_insert. Qed.
Definition ex_T : targets :=
  <[hnew := mkTarget (bs "abcde") 3 (seeded ex_host) (eq ex_two) 2]> {[hnew2 := mkTarget (bs "xyz") 3 (seeded ex_host) (eq ex_two) 2]}.
Lemma ex4_disk : let f := (ex4 (bs "two")).1.2 in
  is_dir f (bs "/dl") && negb (is_dir f (bs "/dl/new")) && negb (is_dir f (bs "/dl/two"))
  && bool_decide (file_at f (bs "/dl/new") = Some [x00; x00; x00; x64; x65]) && match file_at f (bs "/dl/two") with None => true | _ => false end = true.
Proof. vm_compute. reflexivity. Qed.
Lemma not_ragged content : forall i, ~ ragged 3 (chunk_bytes content 3 i) \/ first_empty (chunk_bytes content 3 i) <= 1024.
Proof. intros i. left. intros [H _]. unfold chunk_bytes in H. rewrite take_length in H. lia. Qed.
Lemma parent_two : parent (bs "/dl/two") = bs "/dl".
Proof. vm_compute. reflexivity. Qed.
Lemma path_two : a_path (entry_two (bs "two")) = bs "/dl/two".
Proof. vm_compute. reflexivity. Qed.
Lemma path_new : a_path ex_new = bs "/dl/new".
Proof. vm_compute. reflexivity. Qed.
Lemma is_dir_true f p : is_dir f p = true -> f !! p = Some NDir.
Proof. unfold is_dir. destruct (f !! p) as [[]|]; done. Qed.
Lemma is_dir_false f p : negb (is_dir f p) = true -> f !! p <> Some NDir.
Proof. unfold is_dir. destruct (f !! p) as [[]|]; done. Qed.
Lemma ex4_fits1 : fits ex_dir (ex4 (bs "two")).1.2 (mkTarget (bs "abcde") 3 (seeded ex_host) (eq ex_two) 2) ex_new.
Proof.
  pose proof ex4_disk as E. cbn zeta in E. revert E. generalize ((ex4 (bs "two")).1.2). intros f E.
  apply andb_prop in E as [E E5]. apply andb_prop in E as [E E4]. apply andb_prop in E as [E E3]. apply andb_prop in E as [E1 E2].
  apply bool_decide_eq_true in E4.
  unfold fits. cbn [t_cs t_content t_R t_K]. split; [lia|]. split; [vm_compute; reflexivity|]. split; [vm_compute; reflexivity|].
  split; [vm_compute; discriminate|]. rewrite path_new, parent_new.
  split; [split; [rewrite parent_new; apply is_dir_true; exact E1|apply is_dir_false; exact E2]|].
  split; [vm_compute; discriminate|]. split.
  - unfold right_so_far. rewrite path_new, E4. cbn [ex_new hold entry_new new_entry a_held default].
    intros k Hk Hin. rewrite union_empty_r_L in Hin. apply elem_of_singleton in Hin.
    change (length (bs "abcde")) with 5 in Hk.
    do 5 (destruct k as [|k]; [vm_compute in Hin; try discriminate Hin; vm_compute; reflexivity|]). lia.
  - split; [apply not_ragged|]. intros hs <-. vm_compute. lia.
Qed.
Lemma ex4_fits2 : fits ex_dir (ex4 (bs "two")).1.2 (mkTarget (bs "xyz") 3 (seeded ex_host) (eq ex_two) 2) (entry_two (bs "two")).
Proof.
  pose proof ex4_disk as E. cbn zeta in E. revert E. generalize ((ex4 (bs "two")).1.2). intros f E.
  apply andb_prop in E as [E E5]. apply andb_prop in E as [E E4]. apply andb_prop in E as [E E3]. apply andb_prop in E as [E1 E2].
  apply bool_decide_eq_true in E4.
  unfold fits. cbn [t_cs t_content t_R t_K]. split; [lia|]. split; [vm_compute; reflexivity|]. split; [vm_compute; reflexivity|].
  split; [vm_compute; discriminate|]. rewrite path_two, parent_two.
  split; [split; [rewrite parent_two; apply is_dir_true; exact E1|apply is_dir_false; exact E3]|].
  split; [vm_compute; discriminate|]. split.
  - unfold right_so_far. intros k Hk Hin. cbn [entry_two new_entry a_held] in Hin. exfalso. revert Hin. apply not_elem_of_empty.
  - split; [apply not_ragged|]. intros hs <-. vm_compute. lia.
Qed.
Lemma ex_T_cases h t : ex_T !! h = Some t ->
  h = hnew /\ t = mkTarget (bs "abcde") 3 (seeded ex_host) (eq ex_two) 2 \/ h = hnew2 /\ t = mkTarget (bs "xyz") 3 (seeded ex_host) (eq ex_two) 2.
Proof.
  unfold ex_T. rewrite lookup_insert_Some, lookup_singleton_Some. intros [[<- <-]|[_ [<- <-]]]; [left|right]; split; reflexivity.
Qed.
Lemma ex4_set : well_set ex_dir (A4 (bs "two")) (ex4 (bs "two")).1.2 ex_T.
Proof.
  split.
  - intros h t Ht. destruct (ex_T_cases h t Ht) as [[-> ->]|[-> ->]].
    + exists ex_new. split; [exact (A4_new _)|exact ex4_fits1].
    + exists (entry_two (bs "two")). split; [exact (A4_two _)|exact ex4_fits2].
  - intros h1 h2 t1 t2 a1 a2 Hne Ht1 Ht2 Ha1 Ha2.
    destruct (ex_T_cases h1 t1 Ht1) as [[-> _]|[-> _]], (ex_T_cases h2 t2 Ht2) as [[-> _]|[-> _]]; try (exfalso; apply Hne; reflexivity);
      rewrite A4_new in *; rewrite A4_two in *; injection Ha1 as <-; injection Ha2 as <-; vm_compute; discriminate.
Qed.
Lemma ex_alive h t : ex_T !! h = Some t -> t_alive ex_own t.
Proof.
  intros Ht. assert (t_R t ex_two /\ t_has t = seeded ex_host) as [HR HS].
  { destruct (ex_T_cases h t Ht) as [[-> ->]|[-> ->]]; cbn [t_R t_has]; split; reflexivity. }
  intros i _. exists ex_two. split; [exact HR|]. rewrite HS. split; [apply Exists_cons_tl, Exists_cons_hd; reflexivity|exact ex_two_good].
Qed.
Lemma mexec_hashes cwd dir dl own T a n b : mexec cwd dir dl own T a n b -> map fst (m_loops b) = map fst (m_loops a).
Proof.
  induction 1 as [a|a n b j h pc t resps dg d out H IH Hj Ht Hnd Hnet Hst|a n b A1 q c' f' ans H IH Hre Hal Hq Hr|a n b A1 f' H IH Hre Hd Hc Hp];
    [done| |done|done].
  rewrite <- IH. cbn [m_loops]. change (fst <$> <[j := (h, l_pc d)]> (m_loops b) = fst <$> m_loops b).
  rewrite list_fmap_insert. cbn [fst]. apply list_insert_id. rewrite list_lookup_fmap, Hj. done.
Qed.
(** two files are downloaded at the same time *)
Lemma C109_case_lemma : exists n b,
  mexec ex_cwd ex_dir ex_dl ex_own ex_T (mkM (ex4 (bs "two")).1.1 (ex4 (bs "two")).1.2 ∅ (starting [hnew; hnew2])) n b
  /\ m_loops b = [(hnew, LDone); (hnew2, LDone)] /\ n <= 14
  /\ default [] (file_at (m_fs b) (bs "/dl/new")) = bs "abcde"
  /\ default [] (file_at (m_fs b) (bs "/dl/two")) = bs "xyz".
Proof.
  pose proof (ex4_reached (bs "two") normal_two) as Hre. unfold at_ex in Hre.
  assert (forall h, h ∈ [hnew; hnew2] -> is_Some (ex_T !! h)) as Hin.
  { intros h Hh. apply elem_of_cons in Hh as [->|Hh]; [eexists; apply lookup_insert|].
    apply elem_of_list_singleton in Hh as ->. eexists. unfold ex_T. rewrite lookup_insert_ne by exact hnew2_ne. apply lookup_singleton. }
  assert (NoDup [hnew; hnew2]) as Hnd.
  { apply NoDup_cons. split; [intros H; apply elem_of_list_singleton in H; exact (hnew2_ne H)|apply NoDup_singleton]. }
  destruct (C109_finish_lemma ex_cwd ex_dir ex_dl ex_own ex_T (A4 (bs "two")) _ _ [hnew; hnew2] 0 _ Hre ex4_set Hin Hnd ex_alive (me_nil _ _ _ _ _ _))
    as (n & b & Hex & Hd).
  destruct (C109_lemma ex_cwd ex_dir ex_dl ex_own ex_T (A4 (bs "two")) _ _ [hnew; hnew2] n b Hre ex4_set Hin Hex) as (Hn & _ & Hf & _).
  pose proof (mexec_hashes _ _ _ _ _ _ _ _ Hex) as Hh.
  assert (m_loops b = [(hnew, LDone); (hnew2, LDone)]) as Hl.
  { cbn [m_loops starting map fst] in Hh. clear - Hd Hh. destruct (m_loops b) as [|[h1 p1] [|[h2 p2] [|]]]; try discriminate Hh.
    cbn [map fst] in Hh. injection Hh as -> ->. apply Forall_cons in Hd as [H1 Hd]. apply Forall_cons in Hd as [H2 _].
    cbn [snd] in H1, H2. subst p1 p2. reflexivity. }
  exists n, b. split; [exact Hex|]. split; [exact Hl|]. rewrite Hl in Hf. split.
  { eapply Nat.le_trans; [exact Hn|]. cbn [sum_list_with]. unfold steps_for. unfold ex_T at 1. rewrite lookup_insert, A4_new, A4_two.
    unfold ex_T. rewrite lookup_insert_ne by exact hnew2_ne. rewrite lookup_singleton. cbn [t_K].
    assert (length (todo ex_new) = 1) as -> by (vm_compute; reflexivity).
    assert (length (todo (entry_two (bs "two"))) = 1) as -> by (vm_compute; reflexivity). lia. }
  pose proof ex4_disk as E. cbn zeta in E. revert E Hf. generalize ((ex4 (bs "two")).1.2). intros f E Hf.
  apply andb_prop in E as [E E5]. apply andb_prop in E as [_ E4]. apply bool_decide_eq_true in E4. split.
  - rewrite <- path_new. rewrite (Hf 0 hnew _ ex_new (eq_refl _) (lookup_insert _ _ _) (A4_new _)).
    rewrite path_new, E4. vm_compute. reflexivity.
  - rewrite <- path_two. rewrite (Hf 1 hnew2 (mkTarget (bs "xyz") 3 (seeded ex_host) (eq ex_two) 2) (entry_two (bs "two")) (eq_refl _)).
    + rewrite path_two. destruct (file_at f (bs "/dl/two")); [discriminate E5|]. vm_compute. reflexivity.
    + unfold ex_T. rewrite lookup_insert_ne by exact hnew2_ne. apply lookup_singleton.
    + exact (A4_two _).
Qed.
(** two loops for the same hash: the second dies when the first has finished between its
    check and its question for missing chunks *)
Definition ex_twice : option bool :=
  match lstep ex_own hnew ex_resps (Some ex_ds) (mkL LCheck ex3.1.1 ex3.1.2 ∅) with
  | Some (a, _) =>
      match DownloadProofs4.ex_loop 7 (mkL LCheck (l_cat a) (l_fs a) (l_active a)) [] with
      | Some (b, _) =>
          Some (match l_pc a, l_pc b, lstep ex_own hnew ex_resps (Some ex_ds) (mkL (l_pc a) (l_cat b) (l_fs b) (l_active b)) with
                | LMissing, LDone, None => true | _, _, _ => false end)
      | None => None
      end
  | None => None
  end.
Lemma C109_run_lemma : ex_twice = Some true.
Proof. vm_compute. reflexivity. Qed.
(** a second file under the name of the first *)
Definition ex5 := next (ex4 (bs "new")) (CSave hnew2 0 (bs "xyz")).
Lemma C110_case_lemma : at_ex (A4 (bs "new")) (ex4 (bs "new")) /\ A4 (bs "new") !! hnew = Some ex_new
  /\ A4 (bs "new") !! hnew2 = Some (entry_two (bs "new")) /\ a_path (entry_two (bs "new")) = a_path ex_new
  /\ ~ apart (A4 (bs "new")) /\ apart (A4 (bs "two")).
Proof.
  split; [exact (ex4_reached _ normal_new)|]. split; [exact (A4_new _)|]. split; [exact (A4_two _)|]. split; [vm_compute; reflexivity|].
  split.
  - intros H. apply (H hnew hnew2 ex_new (entry_two (bs "new")) hnew2_ne (A4_new _) (A4_two _)). vm_compute. reflexivity.
  - assert (apart A3) as H3.
    { assert (forall h a, A3 !! h = Some a -> h = hnew /\ a = ex_new \/ h = habc /\ a = entry_abc) as Hc.
      { intros h a. unfold A3, A2. rewrite !lookup_insert_Some, lookup_singleton_Some.
        intros [[<- <-]|[H1 [[<- _]|[_ [<- <-]]]]]; [left; split; reflexivity|exfalso; exact (H1 (eq_refl _))|right; split; reflexivity]. }
      intros h1 h2 a1 a2 Hne H1 H2.
      destruct (Hc h1 a1 H1) as [[-> ->]|[-> ->]], (Hc h2 a2 H2) as [[-> ->]|[-> ->]]; try (exfalso; exact (Hne (eq_refl _))); vm_compute; discriminate. }
    apply apart_insert; [exact hnew2_free|exact H3|]. intros h a Ha.
    unfold A3, A2 in Ha. rewrite !lookup_insert_Some, lookup_singleton_Some in Ha.
    destruct Ha as [[_ <-]|[_ [[_ <-]|[_ [_ <-]]]]]; vm_compute; discriminate.
Qed.
Lemma C110_run_lemma : bool_decide (file_at ex5.1.2 (bs "/dl/new") = Some (bs "xyzde"))
  && match crun ex_cwd ex5.1.1 ex5.1.2 (CContains hnew), crun ex_cwd ex5.1.1 ex5.1.2 (CComplete hnew2) with
     | Some (_, _, AExport x), Some (_, _, ABool true) => bool_decide (x_path x = bs "/dl/new")
     | _, _ => false end = true.
Proof. vm_compute. reflexivity. Qed.
