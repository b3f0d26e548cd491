(** Proofs about the catalogue, part 4: start, restart and whole histories. *)
From Verif Require Export CatalogueInv2.
From Coq Require Import ZifyBool ZifyNat ZifyN.
Ltac Zify.zify_post_hook ::= Z.div_mod_to_equations.

Definition paths_utf8 (A : astate) : Prop := forall h a, A !! h = Some a -> valid_utf8 (a_path a).

Lemma ind_load_ok c f m pid t d data : f !! join2 (c_dir c) index_name = Some (NFile data) ->
  unmarshal data = Ok (pid, t, m, d) ->
  run f (ind_load c) = (f, Done (Ok (mkCat (c_dir c) (c_dl c) pid t m d))).
Proof. intros H1 H2. unfold ind_load. cbn [run do_op]. rewrite H1. rewrite H2. done. Qed.

(** opening a directory that has an index *)
Lemma open_existing pid now cwd dir dl f data : is_rooted cwd = true ->
  f !! abs cwd dir = Some NDir -> f !! join2 (abs cwd dir) index_name = Some (NFile data) ->
  run f (open_cat pid now cwd dir dl) = run f (ind_load (new_cat cwd dir dl)).
Proof.
  intros Hc Hd Hi. unfold open_cat, ind_init. cbn [run]. rewrite mkdir_noop by done. cbn [run do_op c_dir new_cat].
  rewrite Hd. cbn [run do_op]. rewrite Hi. done.
Qed.
Lemma restart_gen c f A pid now cwd : is_rooted cwd = true -> synced c f A ->
  run f (open_cat pid now cwd (c_dir c) (c_dl c)) =
  (f, Done (Ok (mkCat (c_dir c) (c_dl c) (c_pid c) (c_touched c) (san_irec <$> c_index c) (sanitize (c_dir c))))).
Proof.
  intros Hc H. pose proof (sy_dir _ _ _ H) as Hd. pose proof (sy_dl _ _ _ H) as Hdl.
  rewrite (open_existing pid now cwd (c_dir c) (c_dl c) f (marshal c)); [|done|rewrite abs_id by done; apply H..].
  rewrite (ind_load_ok _ f (san_irec <$> c_index c) (c_pid c) (c_touched c) (sanitize (c_inddir c)) (marshal c)).
  - unfold new_cat. cbn [c_dir c_dl]. rewrite !abs_id by done. rewrite (sy_ind _ _ _ H). done.
  - unfold new_cat. cbn [c_dir]. rewrite abs_id by done. apply H.
  - apply unmarshal_marshal_cat. apply (synced_ints _ _ _ H).
Qed.
Lemma restart_ok c f A pid now cwd : is_rooted cwd = true -> synced c f A ->
  valid_utf8 (c_dir c) -> paths_utf8 A ->
  exists c', run f (open_cat pid now cwd (c_dir c) (c_dl c)) = (f, Done (Ok c'))
    /\ synced c' f A /\ c_dir c' = c_dir c /\ c_dl c' = c_dl c.
Proof.
  intros Hc H Hu Hp. eexists. split; [apply (restart_gen c f A); done|]. split; [|done].
  apply sanitize_id_iff in Hu. rewrite Hu.
  constructor; cbn [c_dir c_dl c_pid c_touched c_index c_inddir]; try apply H; [done| |].
  - rewrite (sy_index _ _ _ H). do 2 f_equal. apply marshal_ext; cbn [c_pid c_touched c_inddir c_index]; [done|done|apply H|].
    rewrite <- map_fmap_compose. apply map_fmap_ext. intros h r Hr.
    pose proof (sy_ent _ _ _ H h) as He. rewrite Hr in He. destruct (A !! h) as [a|] eqn:Ea; [|done].
    destruct He as (_ & _ & H3 & _). unfold compose, rec_to_json, san_irec. cbn. rewrite H3.
    rewrite (proj2 (sanitize_id_iff _)) by (apply (Hp h); done). done.
  - intros h. pose proof (sy_ent _ _ _ H h) as He. rewrite lookup_fmap.
    destruct (c_index c !! h) as [r|], (A !! h) as [a|] eqn:Ea; try done. cbn [fmap option_fmap option_map].
    destruct He as (H1 & H2 & H3 & H4 & H5 & H6 & H7 & H8 & b & H9 & H10 & H11).
    unfold entry_rel, san_irec. cbn [r_hash r_path r_size r_chunk r_prog].
    split_and!; [done|done| |done|done|lia|lia|done|lia|lia|].
    + rewrite H3. apply sanitize_id_iff. apply (Hp h). done.
    + exists b. split; [done|]. split; [done|]. left. done.
Qed.

Lemma marshal_empty_ints pid now dir dl : int64 pid -> int64 now -> cat_ints (mkCat dir dl pid now ∅ dir).
Proof. intros. split_and!; [done..|]. intros h r. cbn [c_index]. rewrite lookup_empty. done. Qed.
Lemma fresh_synced cwd dir dl pid now f0 f c : fresh_start cwd dir dl pid now f0 f c ->
  synced c f ∅ /\ c_dir c = abs cwd dir /\ c_dl c = abs cwd dl.
Proof.
  intros (Hc & Hne & Hu & Hp & Hn & Hch & Hrun).
  pose proof (abs_clean cwd dir Hc) as Hd. pose proof (abs_clean cwd dl Hc) as Hdl.
  set (d := abs cwd dir) in *. set (e := abs cwd dl) in *.
  unfold open_cat, ind_init, new_cat in Hrun. cbn [c_dir c_dl run] in Hrun. fold d e in Hrun.
  destruct (do_op f0 (OMkdirAll d)) as [rep f1] eqn:Emk.
  assert (rep = ROk -> f1 !! d = Some NDir /\ forall n, normal n -> f1 !! join2 d n = None) as Hf1.
  { intros ->. cbn [do_op] in Emk. destruct (is_dir f0 d) eqn:Ed.
    - simplify_eq. split.
      + unfold is_dir in Ed. destruct (f1 !! d) as [[]|]; done.
      + intros n Hnn. apply Hch; [apply parent_join2; done|apply dir_not_child; done].
    - destruct (negb (is_rooted d) || existsb (is_file f0) (chain d)); simplify_eq. split.
      + apply foldr_dirs_lookup_in, elem_of_chain_self. done.
      + intros n Hnn. rewrite foldr_dirs_lookup.
        * apply Hch; [apply parent_join2; done|apply dir_not_child; done].
        * intros Hin. apply (chain_not_child d n _ Hd Hnn Hin). done. }
  destruct rep; cbn [run] in Hrun; try (simplify_eq; fail).
  destruct (Hf1 eq_refl) as [Hdir Hnone]. cbn [do_op] in Hrun. rewrite Hdir in Hrun. cbn [run do_op] in Hrun.
  rewrite (Hnone _ index_normal) in Hrun.
  destruct (noent f1 (join2 d index_name)); cbn [run] in Hrun; [|simplify_eq].
  set (c0 := mkCat d e pid now ∅ d) in *. rewrite run_bind in Hrun.
  rewrite save_index_run in Hrun.
  2:{ cbn [c_inddir c0]. apply writable_child; [done|apply index_normal|done|]. rewrite Hnone by apply index_normal. done. }
  cbn [c_inddir c0] in Hrun. fold c0 in Hrun.
  assert (unmarshal (marshal c0) = Ok (pid, now, ∅, d)) as Hum.
  { rewrite unmarshal_marshal_cat by (apply marshal_empty_ints; done). cbn [c0 c_pid c_touched c_index c_inddir].
    rewrite fmap_empty. rewrite (proj2 (sanitize_id_iff d) Hu). done. }
  rewrite (ind_load_ok c0 _ ∅ pid now d (marshal c0)) in Hrun; [|cbn [c_dir c0]; apply lookup_insert|done].
  cbn [c_dir c_dl c0] in Hrun. simplify_eq. split; [|done].
  constructor; cbn [c_dir c_dl c_pid c_touched c_index c_inddir]; try done.
  - rewrite lookup_insert_ne by (apply dir_not_child; [done|apply index_normal]). done.
  - intros n Hnn. destruct (decide (join2 d n = join2 d index_name)) as [->|E]; [rewrite lookup_insert; done|].
    rewrite lookup_insert_ne by done. rewrite Hnone by done. done.
  - rewrite lookup_insert. done.
Qed.

(** ** One call *)
Lemma shows_reader l cs i fuel : (Z.of_nat cs < 4294967296)%Z -> (N.of_nat i < 65536)%N -> length l < fuel ->
  exists cr, new_chunk_reader fuel (FRegular l) (chunk_section (Z.of_nat i) (Z.of_nat cs)) = Some cr
   /\ cr_size cr = Z.of_nat (length (chunk_bytes l cs i)) /\ cr_hash cr = sha1 (chunk_bytes l cs i)
   /\ forall ns, read_all (FRegular l) cr ns = Ok (expected_reads (chunk_bytes l cs i) cs 0 ns).
Proof.
  intros H1 H2 H3. apply C23_lemma; [done|lia|]. unfold chunk_bytes. rewrite take_length, drop_length. lia.
Qed.

Lemma call_ok cwd c f A q : is_rooted cwd = true -> synced c f A ->
  allowed cwd (c_dir c) (c_dl c) A f q ->
  exists c' f' A' ans, crun cwd c f q = Some (c', f', ans)
    /\ aspec cwd (c_dir c) (c_dl c) A f q A' f' ans
    /\ synced c' f' A' /\ c_dir c' = c_dir c /\ c_dl c' = c_dl c.
Proof.
  intros Hcwd H Hal. destruct q as [p|size count chunk h name|h|h i data|order|h|h|fuel h i|h|pid now]; cbn [allowed crun aspec] in *.
  - (* share *)
    destruct (file_at f (abs cwd p)) as [l|] eqn:Ef.
    + specialize (Hal l eq_refl). destruct (A !! sha1 l) as [a|] eqn:Ea.
      * rewrite (share_dup cwd c f A p l H Ef) by congruence. cbn [finish fst snd ans_of].
        eexists _, _, _, _. split; [done|]. split; [split; [apply same_user_refl|done]|done].
      * destruct (share_ok cwd c f A p l Hcwd H Ef Hal Ea) as (r & pr & f' & Hr & Hs & Hu).
        rewrite Hr. cbn [finish fst snd ans_of]. eexists _, _, _, _. split; [done|]. split; [split; done|]. split; [done|done].
    + destruct (share_err cwd c f A p H Ef) as [e Hr]. rewrite Hr. cbn [finish fst snd ans_of].
      eexists _, _, _, _. split; [done|]. split; [split; [apply same_user_refl|done]|done].
  - (* register *)
    destruct Hal as (H1 & H2 & H3 & H4). destruct (A !! h) as [a|] eqn:Ea.
    + rewrite (register_dup c f A) by (try done; congruence). cbn [finish fst snd ans_of].
      eexists _, _, _, _. split; [done|]. split; [split; [apply same_user_refl|done]|done].
    + destruct (register_ok c f A size count chunk h name H Ea H1 H2 H3) as (r & x & f' & Hr & Hs & Hu & Hx).
      rewrite Hr. cbn [finish fst snd ans_of]. eexists _, _, _, _. split; [done|].
      split; [split; [done|split; [done|exists x; done]]|]. split; [done|done].
  - (* unshare *)
    destruct (A !! h) as [a|] eqn:Ea.
    + destruct (unshare_ok c f A h a H Ea) as (f' & Hr & Hs & Hu & _). rewrite Hr. cbn [finish fst snd ans_of].
      eexists _, _, _, _. split; [done|]. split; [|split; [exact Hs|done]]. split; [done|]. split; [done|]. rewrite decide_False by done. done.
    + rewrite (unshare_none c f A h H Ea). cbn [finish fst snd ans_of]. eexists _, _, _, _. split; [done|].
      split; [|split; [exact H|done]]. split; [apply same_user_refl|]. rewrite delete_notin by done. done.
  - (* save *)
    destruct Hal as (Hi & a & Ea & Hpar). rewrite Ea.
    destruct (decide (writable f (a_path a) = true)) as [Hw|Hw].
    + assert (clean_abs (a_path a)) as Hcl.
      { pose proof (sy_ent _ _ _ H h) as He. rewrite Ea in He. destruct (c_index c !! h); [|done]. apply He. }
      apply (writable_spec f _ Hcl) in Hw.
      destruct (save_ok c f A h a i data H Ea Hw Hi Hpar) as (r & new & f' & Hr & Ho & Hs & _ & Hu).
      rewrite Hr. cbn [finish fst snd ans_of]. eexists _, _, _, _. split; [done|].
      split; [|split; [exact Hs|done]]. left. split; [done|]. split; [done|]. split; [done|]. exists new. done.
    + assert (clean_abs (a_path a)) as Hcl.
      { pose proof (sy_ent _ _ _ H h) as He. rewrite Ea in He. destruct (c_index c !! h); [|done]. apply He. }
      rewrite (writable_spec f _ Hcl) in Hw.
      destruct (get_record_ok c f A h a H Ea) as (r & b & Hrun & Hp & Hrel & Hb & Hs & Hm & Hfile).
      pose proof Hrel as (_ & _ & Hrp & _).
      assert (run f (save_chunk c h i data) = (f, Done (set_index c (<[h := r]> (c_index c)), Err "i/o error"))) as Hr.
      { unfold save_chunk. rewrite run_bind, Hrun. unfold save_chunk_data. rewrite run_bind. cbn [run do_op].
        assert (writable f (r_path r) = false) as ->; [|done].
        rewrite Hrp. apply not_true_is_false. intros E. apply Hw, writable_spec; done. }
      rewrite Hr. cbn [finish fst snd ans_of]. eexists _, _, _, _. split; [done|].
      split; [|split; [exact Hs|done]]. right. split; [done|]. split; [done|]. split; [done|apply same_user_refl].
  - (* list *)
    destruct Hal as [Hnd Hin].
    destruct (list_loop_ok order c f A [] H) as (c' & l & Hr & Hs & Hd & Hdl & Hl); [intros h Hh; apply Hin; done|].
    unfold list_files. rewrite Hr. cbn [finish fst snd ans_of app]. eexists _, _, _, _. split; [done|].
    split; [|split; [exact Hs|done]]. split; [apply same_user_refl|]. split; [done|]. exists l. done.
  - (* contains *)
    destruct (A !! h) as [a|] eqn:Ea.
    + destruct (get_record_ok c f A h a H Ea) as (r & b & Hrun & Hp & Hrel & Hb & Hs & Hm & Hfile).
      unfold contains. rewrite run_bind, Hrun. cbn [on_ok run finish fst snd ans_of]. eexists _, _, _, _. split; [done|].
      split; [|split; [exact Hs|done]]. split; [apply same_user_refl|]. split; [done|]. eexists. split; [done|].
      apply (shows_export _ _ _ _ _ _ Hrel Hb).
    + unfold contains. rewrite run_bind, (get_record_none c f A h H Ea). cbn [on_ok run finish fst snd ans_of].
      eexists _, _, _, _. split; [done|]. split; [|split; [exact H|done]]. split; [apply same_user_refl|done].
  - (* rehash *)
    destruct (A !! h) as [a|] eqn:Ea.
    + destruct (get_record_ok c f A h a H Ea) as (r & b & Hrun & Hp & Hrel & Hb & Hs & Hm & Hfile).
      pose proof Hrel as (_ & _ & Hrp & _).
      unfold rehash. rewrite run_bind, Hrun. cbn [fst]. rewrite run_bind. unfold hash_path. cbn [run do_op]. rewrite Hrp.
      unfold file_at. destruct (f !! a_path a) as [[l|]|]; cbn [run finish fst snd].
      * rewrite hash_of_regular. eexists _, _, _, _. split; [done|]. split; [|split; [exact Hs|done]]. split; [apply same_user_refl|done].
      * eexists _, _, _, _. split; [done|]. split; [|split; [exact Hs|done]]. split; [apply same_user_refl|done].
      * eexists _, _, _, _. split; [done|]. split; [|split; [exact Hs|done]]. split; [apply same_user_refl|done].
    + unfold rehash. rewrite run_bind, (get_record_none c f A h H Ea). cbn [run finish fst snd].
      eexists _, _, _, _. split; [done|]. split; [|split; [exact H|done]]. split; [apply same_user_refl|done].
  - (* reader *)
    destruct Hal as [Hi Hal]. destruct (A !! h) as [a|] eqn:Ea.
    + destruct (Hal a eq_refl) as [Hnd Hfuel].
      destruct (get_record_ok c f A h a H Ea) as (r & b & Hrun & Hp & Hrel & Hb & Hs & Hm & Hfile).
      pose proof Hrel as (_ & _ & Hrp & _ & _ & _ & Hrc & Hch & _).
      unfold get_chunk_reader. rewrite run_bind, Hrun. cbn [on_ok fst snd]. rewrite run_bind.
      unfold get_chunk_reader_of. cbn [p_bits].
      rewrite u64_of_int_nonneg by lia. replace (Z.to_N (Z.of_nat i)) with (N.of_nat i) by lia.
      rewrite bget_bits by (change p63 with 9223372036854775808%N; lia).
      destruct Hb as (Hbi & Hbn & Hbb). cbn [fst snd] in *.
      destruct (decide (N.of_nat i ∈ a_held a)) as [Hh|Hh].
      * apply Hbb in Hh. rewrite Hh. cbn [run do_op]. rewrite Hrp.
        unfold file_at in *. destruct (f !! a_path a) as [[l|]|]; [|done|].
        -- cbn [run]. rewrite Hrc.
           destruct (shows_reader l (Z.to_nat (a_chunk a)) i fuel) as (cr & Hcr & C1 & C2 & C3); [lia|done|apply Hfuel; done|].
           rewrite Z2Nat.id in Hcr by lia. rewrite Hcr. cbn [run finish fst snd ans_of].
           eexists _, _, _, _. split; [done|]. split; [|split; [exact Hs|done]]. split; [apply same_user_refl|]. split; [done|].
           exists cr. done.
        -- cbn [run finish fst snd ans_of]. eexists _, _, _, _. split; [done|]. split; [|split; [exact Hs|done]]. split; [apply same_user_refl|done].
      * rewrite Hbb in Hh. apply not_true_is_false in Hh. rewrite Hh. cbn [run finish fst snd ans_of].
        eexists _, _, _, _. split; [done|]. split; [|split; [exact Hs|done]]. split; [apply same_user_refl|done].
    + unfold get_chunk_reader. rewrite run_bind, (get_record_none c f A h H Ea). cbn [on_ok run finish fst snd ans_of].
      eexists _, _, _, _. split; [done|]. split; [|split; [exact H|done]]. split; [apply same_user_refl|done].
  - (* complete *)
    destruct (A !! h) as [a|] eqn:Ea; [|done].
    destruct (file_complete_ok c f A h a H Ea) as (c' & Hr & Hs & Hd & Hdl). rewrite Hr. cbn [finish fst snd].
    eexists _, _, _, _. split; [done|]. split; [|split; [exact Hs|done]]. split; [apply same_user_refl|done].
  - (* restart *)
    destruct Hal as [Hu Hp]. destruct (restart_ok c f A pid now cwd Hcwd H Hu Hp) as (c' & Hr & Hs & Hd & Hdl). rewrite Hr.
    eexists _, _, _, _. split; [done|]. split; [|split; [exact Hs|done]]. done.
Qed.

Lemma behaves_synced cwd hs : is_rooted cwd = true -> forall A c f, synced c f A ->
  behaves cwd (c_dir c) (c_dl c) A c f hs.
Proof.
  intros Hcwd. induction hs as [|[q|f'] hs IH]; intros A c f H; cbn [behaves]; [done| |].
  - intros Hal. destruct (call_ok cwd c f A q Hcwd H Hal) as (c' & f' & A' & ans & H1 & H2 & H3 & H4 & H5).
    exists c', f', A', ans. split; [done|]. split; [done|]. rewrite <- H4, <- H5. apply IH. done.
  - intros Hd Hp. apply IH. apply (synced_user _ f); done.
Qed.
Lemma C28_lemma cwd dir dl pid now f0 f c hs : fresh_start cwd dir dl pid now f0 f c ->
  behaves cwd (abs cwd dir) (abs cwd dl) ∅ c f hs.
Proof.
  intros H. pose proof (fresh_synced _ _ _ _ _ _ _ _ H) as (Hs & Hd & Hdl). rewrite <- Hd, <- Hdl.
  apply behaves_synced; [apply H|done].
Qed.
