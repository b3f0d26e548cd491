(** Proofs about the catalogue, part 2: the invariant and each call. *)
From Verif Require Export CatalogueProofs.
From Coq Require Import ZifyBool ZifyNat ZifyN.
Ltac Zify.zify_post_hook ::= Z.div_mod_to_equations.

(** the memory record [r] and the disk [f] both represent entry [a] of hash [h] *)
Definition entry_rel (f : fs) (dir : path) (h : hash) (r : irec) (a : aentry) : Prop :=
  r_hash r = h /\ hash_wf h /\ r_path r = a_path a /\ clean_abs (a_path a)
  /\ r_size r = a_size a /\ (0 <= a_size a < 9223372036854775808)%Z
  /\ r_chunk r = a_chunk a /\ (0 < a_chunk a < 4294967296)%Z
  /\ exists b, brel b (a_held a, a_count a)
     /\ f !! prog_path dir h = Some (NFile (bserialize b))
     /\ (r_prog r = None \/ r_prog r = Some (mkProg b (prog_path dir h))).
Definition entries (f : fs) (dir : path) (m : gmap (list byte) irec) (A : astate) : Prop :=
  forall h, match m !! h, A !! h with
            | None, None => True
            | Some r, Some a => entry_rel f dir h r a
            | _, _ => False
            end.
Record synced (c : cat) (f : fs) (A : astate) : Prop := {
  sy_dir : clean_abs (c_dir c);
  sy_dl : clean_abs (c_dl c);
  sy_ne : c_dl c <> c_dir c;
  sy_ind : c_inddir c = c_dir c;
  sy_pid : int64 (c_pid c);
  sy_touched : int64 (c_touched c);
  sy_isdir : f !! c_dir c = Some NDir;
  sy_nodir : forall n, normal n -> f !! join2 (c_dir c) n <> Some NDir;
  sy_index : f !! join2 (c_dir c) index_name = Some (NFile (marshal c));
  sy_ent : entries f (c_dir c) (c_index c) A }.

Lemma writable_child f d n : clean_abs d -> normal n -> f !! d = Some NDir -> f !! join2 d n <> Some NDir ->
  writable f (join2 d n) = true.
Proof.
  intros Hd Hn H1 H2. unfold writable. rewrite (clean_abs_rooted _ (join2_clean d n Hd)).
  unfold is_dir. rewrite parent_join2 by done. rewrite H1. cbn [andb].
  destruct (f !! join2 d n) as [[]|]; done.
Qed.
Lemma writable_spec f p : clean_abs p -> (writable f p = true <-> can_write f p).
Proof.
  intros Hp. unfold writable, can_write, is_dir. rewrite clean_abs_rooted by done. cbn [andb].
  destruct (f !! parent p) as [[]|], (f !! p) as [[]|]; cbn; naive_solver.
Qed.
Lemma sy_writable c f A n : synced c f A -> normal n -> writable f (join2 (c_dir c) n) = true.
Proof. intros H Hn. apply writable_child; [apply H|done|apply H|apply H; done]. Qed.
Lemma dir_not_child d n : clean_abs d -> normal n -> join2 d n <> d.
Proof.
  intros (cs & Hcs & ->) Hn. rewrite join2_normal by done. intros E.
  apply render_inj in E; [|apply Forall_app; split; [done|constructor; done]|done].
  apply (f_equal length) in E. rewrite app_length in E. cbn in E. lia.
Qed.

Lemma marshal_ext c c' : c_pid c = c_pid c' -> c_touched c = c_touched c' -> c_inddir c = c_inddir c' ->
  rec_to_json <$> c_index c = rec_to_json <$> c_index c' -> marshal c = marshal c'.
Proof. unfold marshal. intros -> -> -> ->. done. Qed.
Lemma marshal_fill c h r p : c_index c !! h = Some r ->
  marshal (set_index c (<[h := set_prog r p]> (c_index c))) = marshal c.
Proof.
  intros H. apply marshal_ext; [done..|]. cbn [set_index c_index]. rewrite fmap_insert.
  apply insert_id. rewrite lookup_fmap, H. done.
Qed.

(** entries only look at the progress files *)
Lemma entries_disk f f' d m A : entries f d m A ->
  (forall h a, A !! h = Some a -> hash_wf h -> f' !! prog_path d h = f !! prog_path d h) -> entries f' d m A.
Proof.
  intros H Hf h. specialize (H h). destruct (m !! h) as [r|], (A !! h) as [a|] eqn:Ea; try done.
  destruct H as (H1 & H2 & H3 & H4 & H5 & H6 & H7 & H8 & b & H9 & H10 & H11).
  split_and!; [done|done|done|done|done|lia|lia|done|lia|lia|]. exists b. rewrite (Hf h a) by done. done.
Qed.
Lemma entries_insert f d m A h r a : entries f d m A -> entry_rel f d h r a -> entries f d (<[h := r]> m) (<[h := a]> A).
Proof.
  intros H Hr h'. destruct (decide (h' = h)) as [->|Hn].
  - rewrite !lookup_insert. done.
  - rewrite !lookup_insert_ne by done. apply H.
Qed.
Lemma entries_delete f d m A h : entries f d m A -> entries f d (delete h m) (delete h A).
Proof.
  intros H h'. destruct (decide (h' = h)) as [->|Hn].
  - rewrite !lookup_delete. done.
  - rewrite !lookup_delete_ne by done. apply H.
Qed.
Lemma entries_none f d m A h : entries f d m A -> m !! h = None <-> A !! h = None.
Proof. intros H. specialize (H h). destruct (m !! h), (A !! h); done. Qed.
Lemma entries_wf f d m A h : entries f d m A -> A !! h <> None -> hash_wf h.
Proof.
  intros H Hn. specialize (H h). destruct (m !! h), (A !! h); try done. apply H.
Qed.

Lemma synced_ints c f A : synced c f A -> cat_ints c.
Proof.
  intros H. split_and!; [apply H..|]. intros h r Hr. pose proof (sy_ent _ _ _ H h) as He. rewrite Hr in He.
  destruct (A !! h) as [a|]; [|done]. destruct He as (H1 & H2 & H3 & H4 & H5 & H6 & H7 & H8 & _).
  rewrite H1, H5, H7. unfold int64. split_and!; [done|done|lia..].
Qed.

(** ** Changes of the disk that keep the invariant *)
Lemma synced_user c f f' A : synced c f A -> f' !! c_dir c = f !! c_dir c ->
  (forall p, parent p = c_dir c -> f' !! p = f !! p) -> synced c f' A.
Proof.
  intros H Hd Hp. constructor; try apply H.
  - rewrite Hd. apply H.
  - intros n Hn. rewrite Hp by (apply parent_join2; [apply H|done]). apply H. done.
  - rewrite Hp by (apply parent_index, H). apply H.
  - apply entries_disk with (f := f); [apply H|]. intros h a Ha Hw. apply Hp, parent_prog; [apply H|done].
Qed.

(** ** fill / getIndexRecord *)
Lemma load_prog_ok f d h r b : r_hash r = h -> brel b (∅, 0%Z) \/ binv b ->
  f !! prog_path d h = Some (NFile (bserialize b)) ->
  run f (load_prog r d) = (f, Done (Ok (mkProg b (prog_path d h)))).
Proof.
  intros <- Hb Hf. unfold load_prog. cbn [run do_op]. rewrite Hf.
  assert (binv b) as Hi by (destruct Hb as [[? _]|?]; done).
  rewrite bdeserialize_serialize; [|apply Hi|pose proof (binv_size _ Hi); lia]. done.
Qed.
Lemma get_record_ok c f A h a : synced c f A -> A !! h = Some a ->
  exists r b, run f (get_record c h) = 
     (f, Done (set_index c (<[h := r]> (c_index c)), Ok (r, mkProg b (prog_path (c_dir c) h))))
    /\ r_prog r = Some (mkProg b (prog_path (c_dir c) h))
    /\ entry_rel f (c_dir c) h r a /\ brel b (a_held a, a_count a)
    /\ synced (set_index c (<[h := r]> (c_index c))) f A
    /\ marshal (set_index c (<[h := r]> (c_index c))) = marshal c
    /\ f !! prog_path (c_dir c) h = Some (NFile (bserialize b)).
Proof.
  intros H Ha. pose proof (sy_ent _ _ _ H h) as He. rewrite Ha in He.
  destruct (c_index c !! h) as [r0|] eqn:Er; [|done].
  destruct He as (H1 & H2 & H3 & H4 & H5 & H6 & H7 & H8 & b & H9 & H10 & H11).
  pose (r := set_prog r0 (mkProg b (prog_path (c_dir c) h))).
  assert (entry_rel f (c_dir c) h r a) as Hrel.
  { unfold r, entry_rel. cbn [set_prog r_hash r_path r_size r_chunk r_prog].
    split_and!; [done|done|done|done|done|lia|lia|done|lia|lia|]. exists b. split; [done|]. split; [done|]. right. done. }
  assert (marshal (set_index c (<[h := r]> (c_index c))) = marshal c) as Hm by (apply marshal_fill; done).
  assert (run f (get_record c h) = 
     (f, Done (set_index c (<[h := r]> (c_index c)), Ok (r, mkProg b (prog_path (c_dir c) h))))) as Hrun.
  { unfold get_record. rewrite Er. unfold fill. destruct H11 as [Hp|Hp].
    - rewrite Hp. rewrite run_bind. rewrite (load_prog_ok f (c_dir c) h r0 b); [done|done| |done]. right. apply H9.
    - rewrite Hp. cbn [run]. 
      assert (r = r0) as -> by (unfold r; destruct r0; cbn in *; subst; done).
      rewrite insert_id by done. destruct c; done. }
  exists r, b. split; [done|]. split; [done|]. split; [done|]. split; [done|]. split; [|split; done].
  constructor; cbn [set_index c_dir c_dl c_inddir c_pid c_touched c_index]; try apply H.
  - rewrite Hm. apply H.
  - rewrite <- (insert_id A h a Ha). apply entries_insert; [apply H|done].
Qed.
Lemma get_record_none c f A h : synced c f A -> A !! h = None ->
  run f (get_record c h) = (f, Done (c, Err "file not found")).
Proof.
  intros H Ha. unfold get_record. apply (entries_none _ _ _ _ h (sy_ent _ _ _ H)) in Ha. rewrite Ha. done.
Qed.

(** ** Saving *)
(** after writing the index file for memory [c'] *)
Lemma save_index_run c f : writable f (join2 (c_inddir c) index_name) = true ->
  run f (save_index c) = (<[join2 (c_inddir c) index_name := NFile (marshal c)]> f, Done (Ok tt)).
Proof. intros H. unfold save_index. cbn [run do_op]. rewrite H. done. Qed.
Lemma save_prog_run f d h b : clean_abs d -> writable f (prog_path d h) = true ->
  run f (save_prog (mkProg b (prog_path d h))) = (<[prog_path d h := NFile (bserialize b)]> f, Done (Ok tt)).
Proof.
  intros Hd H. unfold save_prog. cbn [run do_op p_file p_bits]. rewrite join1_clean by (apply prog_path_clean; done).
  rewrite H. done.
Qed.

Lemma same_user_refl d f : same_user d f f.
Proof. intros p _. done. Qed.
Lemma same_user_trans d f g k : same_user d f g -> same_user d g k -> same_user d f k.
Proof. intros H1 H2 p Hp. rewrite H2, H1 by done. done. Qed.
Lemma same_user_insert d f p n : parent p = d -> same_user d f (<[p := n]> f).
Proof. intros H q Hq. apply lookup_insert_ne. intros ->. done. Qed.
Lemma same_user_delete d f p : parent p = d -> same_user d f (delete p f).
Proof. intros H q Hq. apply lookup_delete_ne. intros ->. done. Qed.

(** writing index.json and a progress file re-establishes the invariant *)
Lemma synced_put c f A h r a b m : synced c f A -> hash_wf h ->
  entry_rel (<[prog_path (c_dir c) h := NFile (bserialize b)]> f) (c_dir c) h r a ->
  marshal (set_index c (<[h := r]> (c_index c))) = m ->
  synced (set_index c (<[h := r]> (c_index c)))
    (<[prog_path (c_dir c) h := NFile (bserialize b)]> (<[join2 (c_dir c) index_name := NFile m]> f))
    (<[h := a]> A).
Proof.
  intros H Hh Hr Hm. pose proof (sy_dir _ _ _ H) as Hd.
  assert (prog_path (c_dir c) h <> c_dir c) as N1 by (apply dir_not_child; [done|apply hash_normal; done]).
  assert (join2 (c_dir c) index_name <> c_dir c) as N2 by (apply dir_not_child; [done|apply index_normal]).
  pose proof (prog_path_ne_index (c_dir c) h Hd Hh) as N3.
  constructor; cbn [set_index c_dir c_dl c_inddir c_pid c_touched c_index]; try apply H.
  - rewrite !lookup_insert_ne by done. apply H.
  - intros n Hn. destruct (decide (join2 (c_dir c) n = prog_path (c_dir c) h)) as [->|E1]; [rewrite lookup_insert; done|].
    rewrite lookup_insert_ne by done.
    destruct (decide (join2 (c_dir c) n = join2 (c_dir c) index_name)) as [->|E2]; [rewrite lookup_insert; done|].
    rewrite lookup_insert_ne by done. apply H. done.
  - rewrite lookup_insert_ne by done. rewrite lookup_insert. rewrite Hm. done.
  - intros h'. destruct (decide (h' = h)) as [->|Hn].
    + rewrite !lookup_insert. destruct Hr as (H1 & H2 & H3 & H4 & H5 & H6 & H7 & H8 & b' & H9 & H10 & H11).
      split_and!; [done|done|done|done|done|lia|lia|done|lia|lia|]. exists b'.
      rewrite lookup_insert in *. done.
    + rewrite !lookup_insert_ne by done. pose proof (sy_ent _ _ _ H h') as He.
      destruct (c_index c !! h') as [r'|], (A !! h') as [a'|]; try done.
      destruct He as (H1 & H2 & H3 & H4 & H5 & H6 & H7 & H8 & b' & H9 & H10 & H11).
      split_and!; [done|done|done|done|done|lia|lia|done|lia|lia|]. exists b'.
      rewrite lookup_insert_ne by (intros E; apply prog_path_inj in E; done).
      rewrite lookup_insert_ne by (intros E; symmetry in E; revert E; apply prog_path_ne_index; done). done.
Qed.

(** ** Share *)
Lemma hash_of_correct ks f r : hash_file ks f = Some r -> hash_of f = r.
Proof.
  destruct f as [l|].
  - intros H. apply C25_lemma in H. subst r. cbn [hash_of]. unfold from_slice. rewrite gocopy_full; [done|]. rewrite sha1_length. done.
  - cbn. congruence.
Qed.
Lemma hash_of_regular l : hash_of (FRegular l) = Ok (sha1 l).
Proof. cbn [hash_of]. unfold from_slice. rewrite gocopy_full; [done|]. rewrite sha1_length. done. Qed.
Lemma sha1_wf l : hash_wf (sha1 l).
Proof. apply sha1_length. Qed.

Lemma generate_ok cwd f p l : file_at f (abs cwd p) = Some l ->
  run f (generate_record cwd p) = (f, Done (Ok (mkRec (abs cwd p) (Z.of_nat (length l)) (sha1 l) None default_chunk_size))).
Proof.
  unfold file_at. intros H. destruct (f !! abs cwd p) as [[l'|]|] eqn:E; simplify_eq.
  unfold generate_record. cbn [run do_op]. rewrite E. rewrite run_bind. unfold hash_path. cbn [run do_op]. rewrite E.
  cbn [run]. rewrite hash_of_regular. done.
Qed.
Lemma generate_err cwd f p : file_at f (abs cwd p) = None ->
  exists e, run f (generate_record cwd p) = (f, Done (Err e)).
Proof.
  unfold file_at. intros H. unfold generate_record. cbn [run do_op]. destruct (f !! abs cwd p) as [[l'|]|] eqn:E; simplify_eq.
  - cbn [run]. rewrite run_bind. unfold hash_path. cbn [run do_op]. rewrite E. eexists; done.
  - cbn [run]. eexists; done.
Qed.

Lemma ceil_bounds size chunk : (0 <= size < 9223372036854775808)%Z -> (0 < chunk)%Z ->
  (0 <= ceil_div size chunk < 9223372036854775808)%Z.
Proof.
  intros Hs Hc. unfold ceil_div. split; [apply Z.div_pos; lia|].
  apply Z.div_lt_upper_bound; [lia|]. nia.
Qed.
Lemma new_progress_ok r d : (0 <= r_size r < 9223372036854775808)%Z -> (0 < r_chunk r)%Z ->
  exists b, new_progress r d = Ok (mkProg b (prog_path d (r_hash r)))
    /\ brel b (∅, ceil_div (r_size r) (r_chunk r)).
Proof.
  intros Hs Hc. unfold new_progress. rewrite chunk_count_ceil by lia. cbn [rbind].
  destruct (new_bitset_ok (ceil_div (r_size r) (r_chunk r)) (ceil_bounds _ _ Hs Hc)) as (b & Hb & Hi & Hz & Hbits).
  unfold ceil_div in Hb. rewrite Hb. cbn [rbind]. exists b. split; [done|].
  split; [done|]. split; [done|]. cbn [fst snd]. intros x. rewrite Hbits. set_solver.
Qed.
Lemma bfill_brel b n : brel b (∅, n) -> exists b', bfill b = Ok b' /\ brel b' (all_below n, n).
Proof.
  intros (Hi & Hn & _). cbn [fst snd] in *. destruct (bfill_inv b Hi) as (b' & H1 & H2 & H3 & H4).
  exists b'. split; [done|]. split; [done|]. split; [cbn; congruence|]. intros x. cbn [fst snd].
  rewrite elem_of_all_below, H4, <- Hn. lia.
Qed.

Lemma share_err cwd c f A p : synced c f A -> file_at f (abs cwd p) = None ->
  exists e, run f (share_file cwd c p) = (f, Done (c, Err e)).
Proof.
  intros H Hf. destruct (generate_err cwd f p Hf) as [e He]. exists e.
  unfold share_file. rewrite run_bind, He. done.
Qed.
Lemma share_dup cwd c f A p l : synced c f A -> file_at f (abs cwd p) = Some l -> A !! sha1 l <> None ->
  run f (share_file cwd c p) = (f, Done (c, Err "identical file already shared")).
Proof.
  intros H Hf Ha. unfold share_file. rewrite run_bind, (generate_ok cwd f p l Hf). cbn [on_ok].
  unfold add_record. cbn [r_hash].
  destruct (c_index c !! sha1 l) eqn:E; [done|].
  apply (entries_none _ _ _ _ _ (sy_ent _ _ _ H)) in E. done.
Qed.
Lemma share_ok cwd c f A p l : is_rooted cwd = true -> synced c f A -> file_at f (abs cwd p) = Some l -> small l ->
  A !! sha1 l = None ->
  exists r pr f', run f (share_file cwd c p) = (f', Done (set_index c (<[sha1 l := r]> (c_index c)), Ok (r, pr)))
    /\ synced (set_index c (<[sha1 l := r]> (c_index c))) f'
         (<[sha1 l := full_entry (abs cwd p) (Z.of_nat (length l)) 4194304]> A)
    /\ same_user (c_dir c) f f'.
Proof.
  intros Hcwd H Hf Hsm Ha. unfold share_file. rewrite run_bind, (generate_ok cwd f p l Hf). cbn [on_ok].
  pose proof (sy_dir _ _ _ H) as Hd. pose proof (sha1_wf l) as Hw.
  set (r0 := mkRec (abs cwd p) (Z.of_nat (length l)) (sha1 l) None default_chunk_size).
  unfold add_record. change (r_hash r0) with (sha1 l).
  apply (entries_none _ _ _ _ _ (sy_ent _ _ _ H)) in Ha as Hc. rewrite Hc.
  set (c1 := set_index c (<[sha1 l := r0]> (c_index c))).
  rewrite run_bind. rewrite run_bind.
  change (c_inddir c1) with (c_inddir c).
  rewrite save_index_run by (change (c_inddir c1) with (c_inddir c); rewrite (sy_ind _ _ _ H); apply (sy_writable _ _ _ _ H), index_normal).
  change (c_inddir c1) with (c_inddir c). rewrite (sy_ind _ _ _ H).
  cbn [run on_ok]. change (c_dir c1) with (c_dir c).
  set (f1 := <[join2 (c_dir c) index_name:=NFile (marshal c1)]> f).
  unfold small in Hsm.
  destruct (new_progress_ok r0 (c_dir c)) as (b0 & Hnp & Hb0); [cbn [r_size r0]; lia|cbn; unfold default_chunk_size; lia|].
  rewrite Hnp. cbn [rbind p_bits p_file]. change (r_hash r0) with (sha1 l).
  destruct (bfill_brel _ _ Hb0) as (b & Hfill & Hb). rewrite Hfill. cbn [rbind].
  assert (writable f1 (prog_path (c_dir c) (sha1 l)) = true) as Hwr.
  { apply writable_child; [done|apply hash_normal; done| |].
    - unfold f1. rewrite lookup_insert_ne by (apply dir_not_child; [done|apply index_normal]). apply H.
    - unfold f1. destruct (decide (join2 (c_dir c) index_name = join2 (c_dir c) (hash_string (sha1 l)))) as [->|E].
      + rewrite lookup_insert. done.
      + rewrite lookup_insert_ne by done. apply H. apply hash_normal. done. }
  rewrite run_bind. rewrite save_prog_run by done. cbn [on_ok run].
  set (r := set_prog r0 (mkProg b (prog_path (c_dir c) (sha1 l)))).
  change (c_index c1) with (<[sha1 l := r0]> (c_index c)).
  assert (set_index c1 (<[sha1 l:=r]> (<[sha1 l:=r0]> (c_index c))) = set_index c (<[sha1 l := r]> (c_index c))) as ->
    by (rewrite insert_insert; done).
  eexists r, _, _. split; [done|]. split.
  - apply synced_put; [done|done| |].
    + unfold entry_rel, full_entry, r. cbn [set_prog r_hash r_path r_size r_chunk r_prog r0 a_path a_size a_chunk a_held a_count].
      unfold default_chunk_size.
      split_and!; [done|done|done|apply abs_clean; done|done|lia|lia|done|lia|lia|].
      exists b. split; [done|]. rewrite lookup_insert. split; [done|]. right. done.
    + apply marshal_ext; [done..|]. unfold c1. cbn [set_index c_index]. rewrite !fmap_insert. done.
  - eapply same_user_trans; [apply same_user_insert|apply same_user_insert]; [apply parent_index; done|apply parent_prog; done].
Qed.
