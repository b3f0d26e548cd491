(** Proofs about the catalogue, part 3: the remaining calls, restart, histories. *)
From Verif Require Export CatalogueInv.
From Coq Require Import ZifyBool ZifyNat ZifyN.
Ltac Zify.zify_post_hook ::= Z.div_mod_to_equations.

Lemma shows_export f d h r a b : entry_rel f d h r a -> brel b (a_held a, a_count a) ->
  shows (export_of r (mkProg b (prog_path d h))) h a.
Proof.
  intros (H1 & H2 & H3 & H4 & H5 & H6 & H7 & H8 & _) (Hi & Hn & Hb). unfold shows, export_of. cbn [x_path x_size x_hash x_bits x_chunk p_bits].
  split_and!; [done..|]. intros i. cbn [fst snd] in *. rewrite Hb. assert (bcopy b = b) as -> by (destruct b; done). apply mem_bits. done.
Qed.

(** ** RegisterDownload *)
Lemma register_dup c f A size count chunk h name : synced c f A -> A !! h <> None ->
  run f (register_download c size count chunk h name) = (f, Done (c, Err "identical file already shared")).
Proof.
  intros H Ha. unfold register_download, add_record. cbn [r_hash].
  destruct (c_index c !! h) eqn:E; [done|].
  apply (entries_none _ _ _ _ _ (sy_ent _ _ _ H)) in E. done.
Qed.
Lemma register_ok c f A size count chunk h name : synced c f A -> A !! h = None ->
  (size < 9223372036854775808)%N -> (0 < chunk < 4294967296)%N -> hash_wf h ->
  let a := new_entry (join2 (c_dl c) name) (Z.of_N size) (Z.of_N chunk) in
  exists r x f', run f (register_download c size count chunk h name)
      = (f', Done (set_index c (<[h := r]> (c_index c)), Ok x))
    /\ synced (set_index c (<[h := r]> (c_index c))) f' (<[h := a]> A)
    /\ same_user (c_dir c) f f' /\ shows x h a.
Proof.
  intros H Ha Hs Hch Hw a. pose proof (sy_dir _ _ _ H) as Hd. unfold register_download.
  assert (int_of_u64 size = Z.of_N size) as Hsz.
  { apply int_of_u64_small. change p63 with 9223372036854775808%N. lia. }
  rewrite Hsz. set (r0 := mkRec (join2 (c_dl c) name) (Z.of_N size) h None (Z.of_N chunk)).
  unfold add_record. change (r_hash r0) with h.
  apply (entries_none _ _ _ _ _ (sy_ent _ _ _ H)) in Ha as Hc. rewrite Hc.
  set (c1 := set_index c (<[h := r0]> (c_index c))).
  rewrite run_bind, run_bind.
  rewrite save_index_run by (change (c_inddir c1) with (c_inddir c); rewrite (sy_ind _ _ _ H); apply (sy_writable _ _ _ _ H), index_normal).
  change (c_inddir c1) with (c_inddir c). rewrite (sy_ind _ _ _ H).
  cbn [run on_ok]. change (c_dir c1) with (c_dir c).
  set (f1 := <[join2 (c_dir c) index_name:=NFile (marshal c1)]> f).
  destruct (new_progress_ok r0 (c_dir c)) as (b & Hnp & Hb); [cbn [r_size r0]; lia|cbn [r_chunk r0]; lia|].
  rewrite Hnp. change (r_hash r0) with h. cbn [r_size r_chunk r0] in Hb.
  assert (writable f1 (prog_path (c_dir c) h) = true) as Hwr.
  { apply writable_child; [done|apply hash_normal; done| |].
    - unfold f1. rewrite lookup_insert_ne by (apply dir_not_child; [done|apply index_normal]). apply H.
    - unfold f1. destruct (decide (join2 (c_dir c) index_name = join2 (c_dir c) (hash_string h))) as [->|E].
      + rewrite lookup_insert. done.
      + rewrite lookup_insert_ne by done. apply H. apply hash_normal. done. }
  rewrite run_bind, save_prog_run by done. cbn [run].
  set (r := set_prog r0 (mkProg b (prog_path (c_dir c) h))).
  change (c_index c1) with (<[h := r0]> (c_index c)).
  assert (set_index c1 (<[h:=r]> (<[h:=r0]> (c_index c))) = set_index c (<[h := r]> (c_index c))) as ->
    by (rewrite insert_insert; done).
  assert (entry_rel (<[prog_path (c_dir c) h:=NFile (bserialize b)]> f) (c_dir c) h r a) as Hrel.
  { unfold entry_rel, a, new_entry, r. cbn [set_prog r_hash r_path r_size r_chunk r_prog r0 a_path a_size a_chunk a_held a_count].
    split_and!; [done|done|done|apply join2_clean, H|done|lia|lia|done|lia|lia|].
    exists b. split; [done|]. rewrite lookup_insert. split; [done|]. right. done. }
  eexists r, _, _. split; [done|]. split; [|split].
  - apply synced_put; [done|done|done|].
    apply marshal_ext; [done..|]. unfold c1. cbn [set_index c_index]. rewrite !fmap_insert. done.
  - eapply same_user_trans; [apply same_user_insert|apply same_user_insert]; [apply parent_index; done|apply parent_prog; done].
  - apply (shows_export _ _ _ _ _ _ Hrel Hb).
Qed.

(** ** Unshare *)
Lemma unshare_ok c f A h a : synced c f A -> A !! h = Some a ->
  exists f', run f (unshare_file c h) = (f', Done (set_index c (delete h (c_index c)), Ok tt))
    /\ synced (set_index c (delete h (c_index c))) f' (delete h A)
    /\ same_user (c_dir c) f f' /\ f' !! prog_path (c_dir c) h = None.
Proof.
  intros H Ha. pose proof (sy_dir _ _ _ H) as Hd.
  destruct (get_record_ok c f A h a H Ha) as (r & b & Hrun & Hp & Hrel & Hb & Hs & Hm & Hfile).
  pose proof Hrel as (Hrh & Hw & _).
  unfold unshare_file. rewrite run_bind, Hrun. cbn [on_ok snd fst]. unfold delete_prog. cbn [p_file].
  rewrite run_bind. cbn [run do_op]. rewrite join1_clean by (apply prog_path_clean; done). rewrite Hfile. cbn [run ok_or on_ok].
  unfold remove_record. rewrite Hrh. set (c1 := set_index c (<[h:=r]> (c_index c))) in *.
  change (c_index c1) with (<[h:=r]> (c_index c)). rewrite delete_insert_delete.
  set (c2 := set_index c1 (delete h (c_index c))). change c2 with (set_index c (delete h (c_index c))) in *.
  set (f1 := delete (prog_path (c_dir c) h) f).
  assert (prog_path (c_dir c) h <> c_dir c) as N1 by (apply dir_not_child; [done|apply hash_normal; done]).
  assert (join2 (c_dir c) index_name <> c_dir c) as N2 by (apply dir_not_child; [done|apply index_normal]).
  pose proof (prog_path_ne_index (c_dir c) h Hd Hw) as N3.
  rewrite run_bind, save_index_run.
  2:{ cbn [set_index c_inddir]. rewrite (sy_ind _ _ _ H). apply writable_child; [done|apply index_normal| |].
      - unfold f1. rewrite lookup_delete_ne by done. apply H.
      - unfold f1. rewrite lookup_delete_ne by done. apply H, index_normal. }
  cbn [run]. cbn [set_index c_inddir]. rewrite (sy_ind _ _ _ H). eexists. split; [done|]. split; [|split].
  - constructor; cbn [set_index c_dir c_dl c_inddir c_pid c_touched c_index]; try apply H.
    + rewrite lookup_insert_ne by done. unfold f1. rewrite lookup_delete_ne by done. apply H.
    + intros n Hn. destruct (decide (join2 (c_dir c) n = join2 (c_dir c) index_name)) as [->|E]; [rewrite lookup_insert; done|].
      rewrite lookup_insert_ne by done. unfold f1.
      destruct (decide (join2 (c_dir c) n = prog_path (c_dir c) h)) as [->|E2]; [rewrite lookup_delete; done|].
      rewrite lookup_delete_ne by done. apply H. done.
    + rewrite lookup_insert. do 2 f_equal.
    + apply entries_disk with (f := f); [apply entries_delete, H|].
      intros h' a' Ha' Hw'. rewrite lookup_delete_Some in Ha'. destruct Ha' as [Hne Ha'].
      rewrite lookup_insert_ne by (intros E; symmetry in E; revert E; apply prog_path_ne_index; done).
      unfold f1. apply lookup_delete_ne. intros E. apply prog_path_inj in E; done.
  - eapply same_user_trans; [apply same_user_delete|apply same_user_insert]; [apply parent_prog; done|apply parent_index; done].
  - rewrite lookup_insert_ne by done. apply lookup_delete.
Qed.
Lemma unshare_none c f A h : synced c f A -> A !! h = None ->
  run f (unshare_file c h) = (f, Done (c, Err "file not found")).
Proof. intros H Ha. unfold unshare_file. rewrite run_bind, (get_record_none c f A h H Ha). done. Qed.

(** ** SaveChunk *)
Lemma write_at_overlay old off data : overlay old off data (write_at old off data).
Proof.
  intros k. unfold write_at. destruct (decide (data = [])) as [->|Hd].
  - cbn [length]. rewrite decide_False by lia. case_decide; [done|]. rewrite decide_False by naive_solver.
    apply lookup_ge_None. lia.
  - assert (length (old ++ replicate (off - length old) x00) >= off) as Hl by (rewrite app_length, replicate_length; lia).
    destruct (decide (k < off)) as [Hk|Hk].
    + rewrite lookup_app_l by (rewrite take_length; lia). rewrite lookup_take by lia.
      rewrite decide_False by lia. case_decide.
      * rewrite lookup_app_l by lia. done.
      * rewrite decide_True by done. rewrite lookup_app_r by lia. apply lookup_replicate_2. lia.
    + rewrite lookup_app_r by (rewrite take_length; lia). rewrite take_length.
      replace (Nat.min off (length (old ++ replicate (off - length old) x00))) with off by lia.
      destruct (decide (k - off < length data)) as [Hk2|Hk2].
      * rewrite lookup_app_l by lia. rewrite decide_True by lia. done.
      * rewrite lookup_app_r by lia. rewrite decide_False by lia. rewrite lookup_drop.
        replace (off + length data + (k - off - length data)) with k by lia.
        case_decide; [done|]. rewrite decide_False by lia. apply lookup_ge_None. lia.
Qed.
Lemma contents_file_at f p : contents_or_empty f p = default [] (file_at f p).
Proof. unfold contents_or_empty, file_at. destruct (f !! p) as [[]|]; done. Qed.
Lemma bset_brel b X n i : brel b (X, n) -> (i < 65536)%N ->
  exists b', bset b i = Ok b' /\ brel b' ({[i]} ∪ X, Z.max n (Z.of_N i + 1)).
Proof.
  intros (Hi & Hn & Hb) Hlt. cbn [fst snd] in *. destruct (bset_inv b i Hi) as (b' & H1 & H2 & H3 & H4); [change (p63 - 1)%N with 9223372036854775807%N; lia|].
  exists b'. split; [done|]. split; [done|]. split; [cbn; congruence|]. intros x. cbn [fst]. rewrite H4, elem_of_union, elem_of_singleton, Hb.
  destruct (N.eqb_spec x i); cbn; naive_solver.
Qed.
Lemma save_fail c f A h a i data : synced c f A -> A !! h = Some a -> ~ can_write f (a_path a) ->
  exists e c', run f (save_chunk c h i data) = (f, Done (c', Err e)) /\ synced c' f A.
Proof.
  intros H Ha Hcw. destruct (get_record_ok c f A h a H Ha) as (r & b & Hrun & Hp & Hrel & Hb & Hs & Hm & Hfile).
  pose proof Hrel as (Hrh & Hw & Hrp & Hcl & _).
  unfold save_chunk. rewrite run_bind, Hrun. unfold save_chunk_data. rewrite run_bind. cbn [run do_op].
  assert (writable f (r_path r) = false) as ->.
  { rewrite Hrp. apply not_true_is_false. intros E. apply Hcw, writable_spec; done. }
  cbn [run ok_or on_ok]. eexists _, _. split; done.
Qed.
Lemma save_ok c f A h a i data : synced c f A -> A !! h = Some a -> can_write f (a_path a) ->
  (i < 65536)%N -> parent (a_path a) <> c_dir c ->
  exists r new f', run f (save_chunk c h i data) = (f', Done (set_index c (<[h := r]> (c_index c)), Ok tt))
    /\ overlay (default [] (file_at f (a_path a))) (N.to_nat i * Z.to_nat (a_chunk a)) data new
    /\ synced (set_index c (<[h := r]> (c_index c))) f' (<[h := hold a i]> A)
    /\ f' !! a_path a = Some (NFile new)
    /\ same_user (c_dir c) (<[a_path a := NFile new]> f) f'.
Proof.
  intros H Ha Hcw Hi Hpar. pose proof (sy_dir _ _ _ H) as Hd.
  destruct (get_record_ok c f A h a H Ha) as (r & b & Hrun & Hp & Hrel & Hb & Hs & Hm & Hfile).
  pose proof Hrel as (Hrh & Hw & Hrp & Hcl & Hrs & Hsz & Hrc & Hch & _).
  unfold save_chunk. rewrite run_bind, Hrun. unfold save_chunk_data. rewrite run_bind. cbn [run do_op].
  rewrite Hrp. rewrite (proj2 (writable_spec f _ Hcl) Hcw).
  rewrite Hrc. rewrite wrap64_small by nia.
  destruct (Z.ltb_spec (Z.of_N i * a_chunk a) 0) as [?|_]; [nia|]. cbn [run ok_or on_ok].
  rewrite contents_file_at.
  replace (Z.to_nat (Z.of_N i * a_chunk a)) with (N.to_nat i * Z.to_nat (a_chunk a)) by nia.
  set (new := write_at (default [] (file_at f (a_path a))) (N.to_nat i * Z.to_nat (a_chunk a)) data).
  destruct (bset_brel b _ _ i Hb Hi) as (b' & Hset & Hb'). cbn [p_bits p_file]. rewrite Hset.
  set (f1 := <[a_path a := NFile new]> f).
  assert (a_path a <> c_dir c) as Nd.
  { intros E. destruct Hcw as [_ Hn]. rewrite E in Hn. apply Hn. apply H. }
  assert (forall q, parent q = c_dir c -> f1 !! q = f !! q) as Hch1.
  { intros q Hq. apply lookup_insert_ne. intros E. apply Hpar. rewrite E. done. }
  assert (f1 !! c_dir c = f !! c_dir c) as Hch2 by (apply lookup_insert_ne; done).
  assert (synced (set_index c (<[h:=r]> (c_index c))) f1 A) as Hs1 by (apply (synced_user _ f); done).
  rewrite run_bind. rewrite save_prog_run; [|done|].
  2:{ change (c_dir c) with (c_dir (set_index c (<[h:=r]> (c_index c)))). apply (sy_writable _ _ _ _ Hs1), hash_normal. done. }
  cbn [run]. set (r2 := set_prog r (mkProg b' (prog_path (c_dir c) h))).
  assert (set_index (set_index c (<[h:=r]> (c_index c))) (<[h:=r2]> (c_index (set_index c (<[h:=r]> (c_index c)))))
    = set_index c (<[h:=r2]> (c_index c))) as -> by (cbn [set_index c_index]; rewrite insert_insert; done).
  exists r2, new. eexists. split; [done|]. split; [apply write_at_overlay|]. split; [|split].
  - assert (<[prog_path (c_dir c) h:=NFile (bserialize b')]> f1 =
       <[prog_path (c_dir c) h:=NFile (bserialize b')]> (<[join2 (c_dir c) index_name := NFile (marshal (set_index c (<[h:=r2]> (c_index c))))]> f1)) as ->.
    { f_equal. symmetry. apply insert_id. rewrite Hch1 by (apply parent_index; done). rewrite (sy_index _ _ _ H). do 2 f_equal.
      rewrite <- Hm. apply marshal_ext; [done..|]. cbn [set_index c_index]. rewrite !fmap_insert. done. }
    apply synced_put; [|done| |done].
    + apply (synced_user _ f); done.
    + unfold entry_rel, hold, r2. cbn [set_prog r_hash r_path r_size r_chunk r_prog a_path a_size a_chunk a_held a_count].
      split_and!; [done|done|done|done|done|lia|lia|done|lia|lia|].
      exists b'. split; [done|]. rewrite lookup_insert. split; [done|]. right. done.
  - rewrite lookup_insert_ne; [apply lookup_insert|]. intros E. apply Hpar. rewrite <- E. apply parent_prog; done.
  - apply same_user_insert, parent_prog; done.
Qed.

(** ** Queries *)
Lemma list_loop_ok order : forall c f A acc, synced c f A -> (forall h, h ∈ order -> A !! h <> None) ->
  exists c' l, run f (list_loop c order acc) = (f, Done (c', Ok (acc ++ l))) /\ synced c' f A /\ c_dir c' = c_dir c
    /\ c_dl c' = c_dl c
    /\ Forall2 (fun x h => exists a, A !! h = Some a /\ shows x h a) l order.
Proof.
  induction order as [|h order IH]; intros c f A acc H Hin; cbn [list_loop].
  - exists c, []. rewrite app_nil_r. split_and!; [done..|constructor].
  - destruct (A !! h) as [a|] eqn:Ha; [|exfalso; apply (Hin h); [set_solver|done]].
    destruct (get_record_ok c f A h a H Ha) as (r & b & Hrun & Hp & Hrel & Hb & Hs & Hm & Hfile).
    unfold get_record in Hrun. destruct (c_index c !! h) as [r0|] eqn:Er; [|cbn in Hrun; simplify_eq].
    rewrite run_bind, Hrun. cbn [on_ok fst snd].
    destruct (IH (set_index c (<[h:=r]> (c_index c))) f A (acc ++ [export_of r (mkProg b (prog_path (c_dir c) h))]) Hs) as (c' & l & H1 & H2 & H3 & H4 & H5); [set_solver|].
    exists c'. eexists. rewrite H1, <- app_assoc. cbn [app]. split; [done|]. split; [done|]. split; [done|]. split; [done|].
    constructor; [|done]. exists a. split; [done|]. apply (shows_export _ _ _ _ _ _ Hrel Hb).
Qed.

Lemma file_complete_ok c f A h a : synced c f A -> A !! h = Some a ->
  exists c', run f (file_complete c h) = (f, Done (c', bool_decide (all_below (a_count a) ⊆ a_held a))) /\ synced c' f A
    /\ c_dir c' = c_dir c /\ c_dl c' = c_dl c.
Proof.
  intros H Ha. destruct (get_record_ok c f A h a H Ha) as (r & b & Hrun & Hp & Hrel & (Hi & Hn & Hb) & Hs & Hm & Hfile).
  unfold file_complete. rewrite run_bind, Hrun. cbn [snd p_bits fst] in *.
  destruct (bfull_spec b Hi) as (v & Hv & Hspec). rewrite Hv. eexists. split; [|split; done]. cbn [run].
  do 3 f_equal. apply eq_true_iff_eq. rewrite bool_decide_eq_true, Hspec. split.
  - intros Hall x Hx. apply elem_of_all_below in Hx. apply Hb, Hall. rewrite Hn. done.
  - intros Hsub y Hy. apply Hb, Hsub. apply elem_of_all_below. rewrite Hn in Hy. done.
Qed.

(** ** Restart *)
Lemma chain_render cs : Forall normal cs -> chain (render cs) =
  if decide (cs = []) then [render []; render []] else map (fun k => render (take k cs)) (seq 0 (S (length cs))).
Proof.
  intros H. unfold chain. rewrite split_render by done. cbn [List.tl]. destruct (decide (cs = [])) as [->|Hn]; done.
Qed.
Lemma elem_of_chain_self p : clean_abs p -> p ∈ chain p.
Proof.
  intros (cs & Hcs & ->). rewrite chain_render by done. destruct (decide (cs = [])) as [->|Hn]; [set_solver|].
  apply elem_of_list_fmap. exists (length cs). rewrite take_ge by done. split; [done|]. apply elem_of_seq. lia.
Qed.
Lemma chain_shorter p q cs : Forall normal cs -> p = render cs -> q ∈ chain p ->
  exists k, k <= length cs /\ q = render (take k cs).
Proof.
  intros Hcs -> Hq. rewrite chain_render in Hq by done. destruct (decide (cs = [])) as [->|Hn].
  - exists 0. split; [cbn; lia|]. set_solver.
  - apply elem_of_list_fmap in Hq as (k & -> & Hk). apply elem_of_seq in Hk. exists k. split; [lia|done].
Qed.
Lemma chain_not_child d n q : clean_abs d -> normal n -> q ∈ chain d -> q <> join2 d n.
Proof.
  intros (cs & Hcs & ->) Hn Hq E. apply (chain_shorter _ _ cs Hcs eq_refl) in Hq as (k & Hk & ->).
  rewrite join2_normal in E by done. apply render_inj in E.
  - apply (f_equal length) in E. rewrite take_length, app_length in E. cbn in E. lia.
  - apply Forall_take. done.
  - apply Forall_app. split; [done|constructor; done].
Qed.
Lemma chain_parent d q : clean_abs d -> q ∈ chain d -> parent q = d -> q = d.
Proof.
  intros (cs & Hcs & ->) Hq Hp. apply (chain_shorter _ _ cs Hcs eq_refl) in Hq as (k & Hk & ->).
  destruct (decide (take k cs = [])) as [E|E].
  - rewrite E in *. exact Hp.
  - destruct (exists_last E) as (l & x & El). pose proof (Forall_take _ k _ Hcs) as Ht. rewrite El in *.
    apply Forall_app in Ht as [Hl Hx]. inversion Hx; subst. rewrite parent_render in Hp by done.
    apply render_inj in Hp; [|done..]. apply (f_equal length) in El. rewrite app_length, take_length in El. subst. cbn in El. lia.
Qed.

Lemma mkdir_noop f d : f !! d = Some NDir -> do_op f (OMkdirAll d) = (ROk, f).
Proof. intros H. cbn [do_op]. unfold is_dir. rewrite H. done. Qed.
