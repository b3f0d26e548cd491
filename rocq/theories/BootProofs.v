(** Proofs about the first start of a daemon (C125). *)
From Verif Require Import BootSpec CatalogueHist CatalogueCrash FirstStart.
From Coq Require Import ZifyBool ZifyNat ZifyN.

Lemma parent_root : parent (render []) = render [].
Proof. vm_compute. reflexivity. Qed.
Lemma above_chain d p : clean_abs d -> (above p d <-> p ∈ chain d).
Proof.
  intros (cs & Hcs & ->). split.
  - assert (forall e, above p e -> e = render cs -> exists k, k <= length cs /\ p = render (take k cs)) as H.
    { intros e H. induction H as [e|p e H IH]; intros ->.
      - exists (length cs). rewrite take_ge by lia. done.
      - destruct (IH eq_refl) as (k & Hk & ->). destruct k as [|k].
        + exists 0. split; [done|]. cbn [take]. apply parent_root.
        + exists k. split; [lia|]. destruct (lookup_lt_is_Some_2 cs k) as [b Hb]; [lia|].
          rewrite (take_S_r _ _ _ Hb). apply parent_render; [apply Forall_take; done|]. rewrite Forall_lookup in Hcs. eauto. }
    intros Hp. destruct (H _ Hp eq_refl) as (k & Hk & ->). rewrite chain_render by done. destruct (decide (cs = [])) as [->|Hn].
    + rewrite take_nil. set_solver.
    + apply elem_of_list_fmap. exists k. split; [done|]. apply elem_of_seq. lia.
  - intros Hp. apply (chain_shorter _ _ cs Hcs eq_refl) in Hp as (k & Hk & ->).
    remember (length cs - k) as j eqn:Ej. revert k Hk Ej. induction j as [|j IH]; intros k Hk Ej.
    + rewrite take_ge by lia. constructor.
    + destruct (lookup_lt_is_Some_2 cs k) as [b Hb]; [lia|].
      assert (above (render (take (S k) cs)) (render cs)) as H by (apply IH; lia). apply ab_up in H.
      rewrite (take_S_r _ _ _ Hb), parent_render in H; [done|apply Forall_take; done|]. rewrite Forall_lookup in Hcs. eauto.
Qed.
Lemma way_clear_chain f d : clean_abs d -> (way_clear f d <-> existsb (is_file f) (chain d) = false).
Proof.
  intros Hd. split.
  - intros H. apply not_true_is_false. intros G. apply existsb_exists in G as (p & Hp & G).
    apply elem_of_list_In, (above_chain d p Hd) in Hp. unfold is_file in G. destruct (f !! p) as [[l|]|] eqn:E; try done. apply (H p l); done.
  - intros H p l Hp E. apply (above_chain d p Hd), elem_of_list_In in Hp. assert (existsb (is_file f) (chain d) = true); [|congruence].
    apply existsb_exists. exists p. split; [done|]. unfold is_file. rewrite E. done.
Qed.
Lemma noent_child f d n : clean_abs d -> normal n -> noent f (join2 d n) = negb (existsb (is_file f) (chain d)).
Proof.
  intros (cs & Hcs & ->) Hn. unfold noent. f_equal. rewrite join2_normal by done. rewrite !chain_render by (first [done|apply Forall_app; split; [done|constructor; done]]).
  rewrite decide_False by (destruct cs; done). rewrite app_length. cbn [length]. rewrite Nat.add_1_r.
  rewrite (seq_S (S (length cs)) 0), map_app. cbn [map]. rewrite removelast_last. destruct (decide (cs = [])) as [->|E].
  - change (is_file f (render []) || false = is_file f (render []) || (is_file f (render []) || false))%bool. destruct (is_file f (render [])); reflexivity.
  - f_equal. apply map_ext_in. intros k Hk. apply in_seq in Hk. rewrite take_app_le by lia. done.
Qed.
Lemma boot_lemma cwd dir dl pid now f0 : let d := abs cwd dir in
  is_rooted cwd = true -> valid_utf8 d -> f0 !! join2 d index_name = None ->
  (-9223372036854775808 <= pid < 9223372036854775808)%Z -> (-9223372036854775808 <= now < 9223372036854775808)%Z ->
  (way_clear f0 d -> exists f c, run f0 (open_cat pid now cwd dir dl) = (f, Done (Ok c))
     /\ run f (list_files c []) = (f, Done (c, Ok [])) /\ c_index c = ∅ /\ starts cwd dir dl f c
     /\ f !! d = Some NDir /\ (forall p, above p d -> f0 !! d <> Some NDir -> f !! p = Some NDir)
     /\ (forall p, p <> join2 d index_name -> f0 !! d = Some NDir \/ ~ above p d -> f !! p = f0 !! p))
  /\ (~ way_clear f0 d -> exists e, run f0 (open_cat pid now cwd dir dl) = (f0, Done (Err e))).
Proof.
  intros d Hc Hu Hch Hp Hn. pose proof (abs_clean cwd dir Hc) as Hd. fold d in Hd. pose proof (abs_clean cwd dl Hc) as Hdl.
  assert (forall f1, do_op f0 (OMkdirAll d) = (ROk, f1) -> f1 !! d = Some NDir -> f1 !! join2 d index_name = None -> way_clear f1 d ->
    let c := mkCat d (abs cwd dl) pid now ∅ d in
    run f0 (open_cat pid now cwd dir dl) = (<[join2 d index_name := NFile (marshal c)]> f1, Done (Ok c))) as Hrun.
  { intros f1 Hmk Hdir Hni Hclear c. unfold open_cat, ind_init, new_cat. cbn [c_dir c_dl run]. fold d. rewrite Hmk. cbn [run do_op].
    rewrite Hdir. cbn [run do_op]. rewrite Hni. rewrite (noent_child f1 d _ Hd index_normal), (proj1 (way_clear_chain f1 d Hd) Hclear). cbn [negb run].
    rewrite run_bind, save_index_run.
    2:{ cbn [c_inddir]. apply writable_child; [done|apply index_normal|done|]. rewrite Hni. done. }
    cbn [c_inddir]. fold c.
    rewrite (ind_load_ok c _ ∅ pid now d (marshal c)); [done|cbn [c_dir c]; apply lookup_insert|].
    rewrite unmarshal_marshal_cat by (apply marshal_empty_ints; done). cbn [c c_pid c_touched c_index c_inddir].
    rewrite fmap_empty. rewrite (proj2 (sanitize_id_iff d) Hu). done. }
  split.
  - intros Hclear.
    assert (exists f1, do_op f0 (OMkdirAll d) = (ROk, f1) /\ f1 !! d = Some NDir /\ f1 !! join2 d index_name = None /\ way_clear f1 d
      /\ (forall p, above p d -> f0 !! d <> Some NDir -> f1 !! p = Some NDir)
      /\ (forall p, f0 !! d = Some NDir \/ ~ above p d -> f1 !! p = f0 !! p)) as (f1 & H1 & H2 & H3 & H4 & H5 & H6).
    { cbn [do_op]. destruct (is_dir f0 d) eqn:Ed.
      - exists f0. assert (f0 !! d = Some NDir) as E by (unfold is_dir in Ed; destruct (f0 !! d) as [[]|]; done).
        split; [done|]. split; [done|]. split; [exact Hch|]. split; [done|]. split; [intros p _ Hx; done|]. done.
      - rewrite (clean_abs_rooted d Hd). rewrite (proj1 (way_clear_chain f0 d Hd) Hclear). cbn [negb orb].
        eexists. split; [done|]. assert (f0 !! d <> Some NDir) as E by (unfold is_dir in Ed; destruct (f0 !! d) as [[]|]; done).
        assert (forall p, above p d -> foldr (fun d g => <[d := NDir]> g) f0 (chain d) !! p = Some NDir) as Hin.
        { intros p Hp2. apply foldr_dirs_lookup_in, above_chain; done. }
        assert (forall p, ~ above p d -> foldr (fun d g => <[d := NDir]> g) f0 (chain d) !! p = f0 !! p) as Hout.
        { intros p Hp2. apply foldr_dirs_lookup. rewrite <- above_chain; done. }
        split; [apply Hin; constructor|]. split.
        { rewrite Hout; [exact Hch|]. rewrite above_chain by done. intros G. exact (chain_not_child d index_name _ Hd index_normal G eq_refl). }
        split; [intros p l Hp2; rewrite Hin by done; done|]. split; [intros p Hp2 _; apply Hin; done|]. intros p [Hx|Hx]; [done|apply Hout; done]. }
    set (c := mkCat d (abs cwd dl) pid now ∅ d). specialize (Hrun f1 H1 H2 H3 H4). cbn zeta in Hrun. fold c in Hrun.
    assert (join2 d index_name <> d) as Nid by (apply dir_not_child; [done|apply index_normal]).
    assert (forall p, above p d -> p <> join2 d index_name) as Nab.
    { intros p Hp2. apply (chain_not_child d index_name p Hd index_normal). apply above_chain; done. }
    exists (<[join2 d index_name := NFile (marshal c)]> f1), c. split; [done|]. split; [done|]. split; [done|]. split; [|split; [|split]].
    + intros pid2 now2. rewrite (open_existing pid2 now2 cwd dir dl _ (marshal c)); [|done|fold d; rewrite lookup_insert_ne by done; done|fold d; apply lookup_insert].
      rewrite (ind_load_ok (new_cat cwd dir dl) _ ∅ pid now d (marshal c)); [done|cbn [c_dir new_cat]; fold d; apply lookup_insert|].
      rewrite unmarshal_marshal_cat by (apply marshal_empty_ints; done). cbn [c c_pid c_touched c_index c_inddir].
      rewrite fmap_empty. rewrite (proj2 (sanitize_id_iff d) Hu). done.
    + rewrite lookup_insert_ne by done. done.
    + intros p Hp2 Hx. rewrite lookup_insert_ne by (apply not_eq_sym, Nab; done). auto.
    + intros p Hp2 Hx. rewrite lookup_insert_ne by (apply not_eq_sym; done). auto.
  - intros Hclear. assert (existsb (is_file f0) (chain d) = true) as Hex.
    { destruct (existsb (is_file f0) (chain d)) eqn:E; [done|]. exfalso. apply Hclear. apply way_clear_chain; done. }
    unfold open_cat, ind_init, new_cat. cbn [c_dir c_dl run]. fold d. cbn [do_op]. rewrite (clean_abs_rooted d Hd), Hex. cbn [negb orb].
    destruct (is_dir f0 d) eqn:Ed; [|eexists; done]. cbn [run do_op].
    assert (f0 !! d = Some NDir) as -> by (unfold is_dir in Ed; destruct (f0 !! d) as [[]|]; done). cbn [run do_op].
    rewrite Hch, (noent_child f0 d _ Hd index_normal), Hex. cbn [negb run]. eexists; done.
Qed.
