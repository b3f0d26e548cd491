(** Proofs about the catalogue, part 1: the invariant that ties memory, disk and
    the abstract map together, and the effect of every call when no I/O fails. *)
From Verif Require Export CatalogueSpec PathProofs JsonProofs3 HashProofs BitsetProofs3 ChunkProofs.
From Coq Require Import ZifyBool ZifyNat ZifyN.
Ltac Zify.zify_post_hook ::= Z.div_mod_to_equations.

(** ** Names *)
Lemma index_normal : normal index_name.
Proof. split_and!; [done..|]. vm_compute. intros H. repeat (apply elem_of_cons in H as [H|H]; [done|]). set_solver. Qed.
Lemma is_hex_slash : ~ is_hex slash.
Proof. unfold is_hex. vm_compute. intros [[? ?]|[[? ?]|[? ?]]]; congruence. Qed.
Lemma hash_normal h : hash_wf h -> normal (hash_string h).
Proof.
  intros H. apply C14_string_shape_lemma in H as (Hl & HF & _). split_and!.
  - intros E. rewrite E in Hl. done.
  - intros E. rewrite E in Hl. done.
  - intros E. rewrite E in Hl. done.
  - intros Hin. rewrite Forall_forall in HF. apply HF in Hin. apply is_hex_slash in Hin. done.
Qed.
Lemma hash_not_index h : hash_wf h -> hash_string h <> index_name.
Proof. intros H. apply C14_string_shape_lemma in H as (Hl & _). intros E. rewrite E in Hl. done. Qed.
Lemma prog_path_ne_index d h : clean_abs d -> hash_wf h -> prog_path d h <> join2 d index_name.
Proof.
  intros Hd Hh E. unfold prog_path in E. apply join2_inj in E; [|done|apply hash_normal; done|apply index_normal].
  apply hash_not_index in E; done.
Qed.
Lemma prog_path_inj d h h' : clean_abs d -> hash_wf h -> hash_wf h' -> prog_path d h = prog_path d h' -> h = h'.
Proof.
  intros Hd Hh Hh' E. unfold prog_path in E. apply join2_inj in E; [|done|apply hash_normal; done..].
  apply C14_string_inj_lemma. done.
Qed.
Lemma prog_path_clean d h : clean_abs d -> clean_abs (prog_path d h).
Proof. apply join2_clean. Qed.
Lemma parent_prog d h : clean_abs d -> hash_wf h -> parent (prog_path d h) = d.
Proof. intros. apply parent_join2; [done|apply hash_normal; done]. Qed.
Lemma parent_index d : clean_abs d -> parent (join2 d index_name) = d.
Proof. intros. apply parent_join2; [done|apply index_normal]. Qed.
(** a clean path whose parent is [d], other than [d] itself, is [d]/name *)
Lemma child_name d p : clean_abs d -> clean_abs p -> parent p = d -> p <> d -> exists n, normal n /\ p = join2 d n.
Proof.
  intros (cs & Hcs & ->) (ps & Hps & ->) Hp Hne.
  destruct ps as [|c0 ps0] eqn:E.
  - exfalso. apply Hne. rewrite <- Hp. reflexivity.
  - destruct (exists_last (l := c0 :: ps0)) as (l & c & El); [done|]. rewrite El in *.
    apply Forall_app in Hps as [Hl Hc]. inversion Hc; subst.
    rewrite parent_render in Hp by done. apply render_inj in Hp; [|done..]. subst l.
    exists c. split; [done|]. rewrite join2_normal by done. done.
Qed.

Lemma hash_string_inj : Inj (=) (=) hash_string.
Proof. intros a b. apply C14_string_inj_lemma. Qed.
Local Existing Instance hash_string_inj.

(** ** JSON of the index *)
Definition san_irec (r : irec) : irec := mkRec (sanitize (r_path r)) (r_size r) (r_hash r) None (r_chunk r).
(** what the index file needs for a faithful round trip, apart from UTF-8 *)
Definition cat_ints (c : cat) : Prop :=
  int64 (c_pid c) /\ int64 (c_touched c) /\
  forall h r, c_index c !! h = Some r -> hash_wf h /\ hash_wf (r_hash r) /\ int64 (r_size r) /\ int64 (r_chunk r).

Lemma is_hex_ascii b : is_hex b -> (bN b < 128)%N.
Proof. unfold is_hex. lia. Qed.
Lemma hash_string_utf8 h : hash_wf h -> valid_utf8 (hash_string h).
Proof.
  intros H. apply valid_utf8_ascii. apply C14_string_shape_lemma in H as (_ & HF & _).
  eapply Forall_impl; [exact HF|]. apply is_hex_ascii.
Qed.
Lemma sanitize_hash h : hash_wf h -> sanitize (hash_string h) = hash_string h.
Proof. intros H. apply sanitize_id_iff, hash_string_utf8. done. Qed.

Lemma load_entries_ok l : forall m, 
  Forall (fun kr : list byte * irec => hash_wf kr.1 /\ hash_wf (r_hash kr.2)) l ->
  load_entries (map (fun kr => (hash_string kr.1, san_rec (rec_to_json kr.2))) l) m
  = Ok (foldl (fun m kr => <[kr.1 := san_irec kr.2]> m) m l).
Proof.
  induction l as [|[h r] l IH]; intros m HF; [done|].
  inversion HF as [|? ? [H1 H2] HF']; subst. cbn [map load_entries fst snd] in *.
  rewrite C14_roundtrip_lemma; [|done..].
  assert (rec_from_json (san_rec (rec_to_json r)) = Ok (san_irec r)) as ->.
  { unfold rec_from_json, san_rec, rec_to_json. cbn [j_hash j_path j_size j_chunk].
    rewrite sanitize_hash by done. rewrite C14_roundtrip_lemma; [|done..]. done. }
  cbn [rbind]. rewrite IH by done. done.
Qed.
Lemma foldl_insert_lookup (l : list (list byte * irec)) : forall (m : gmap (list byte) irec) (m2 : gmap (list byte) irec),
  NoDup l.*1 -> (forall h r, (h, r) ∈ l <-> m2 !! h = Some r) -> 
  forall h, foldl (fun m kr => <[kr.1 := san_irec kr.2]> m) m l !! h
    = match m2 !! h with Some r => Some (san_irec r) | None => m !! h end.
Proof.
  induction l as [|[k r] l IH] using rev_ind; intros m m2 Hnd Hm h.
  - cbn [foldl]. destruct (m2 !! h) eqn:E; [|done]. apply Hm in E. set_solver.
  - rewrite foldl_app. cbn [foldl fst snd]. rewrite fmap_app in Hnd. cbn in Hnd.
    apply NoDup_app in Hnd as (Hnd & Hk & _).
    destruct (decide (h = k)) as [->|Hne].
    + rewrite lookup_insert. rewrite (proj1 (Hm k r)) by set_solver. done.
    + rewrite lookup_insert_ne by done.
      rewrite (IH m (delete k m2)); [rewrite lookup_delete_ne by done; done|done|].
      intros h' r'. rewrite lookup_delete_Some, <- Hm, elem_of_app. split.
      * intros Hin. split; [|set_solver]. intros ->. apply (Hk h'); [apply elem_of_list_fmap; exists (h', r'); done|set_solver].
      * intros [Hn [Hin|Hin]]; [done|]. apply elem_of_list_singleton in Hin. simplify_eq.
Qed.
Lemma jindex_of_cat_ok c : cat_ints c ->
  jindex_ok (mkJindex (c_pid c) (c_touched c) (kmap hash_string (rec_to_json <$> c_index c)) (c_inddir c)).
Proof.
  intros (H1 & H2 & H3). unfold jindex_ok. cbn [ji_pid ji_touched ji_index]. split_and!; [done..|].
  intros k v Hk. apply lookup_kmap_Some in Hk as (h & -> & Hk); [|exact hash_string_inj].
  rewrite lookup_fmap in Hk. destruct (c_index c !! h) as [r|] eqn:E; [|done]. cbn in Hk. simplify_eq.
  apply H3 in E as (Hw & _ & Hs & Hc). split; [apply hash_string_utf8; done|]. split; done.
Qed.
Lemma unmarshal_marshal_cat c : cat_ints c ->
  unmarshal (marshal c) = Ok (c_pid c, c_touched c, san_irec <$> c_index c, sanitize (c_inddir c)).
Proof.
  intros Hc. unfold unmarshal, marshal. rewrite unmarshal_marshal by (apply jindex_of_cat_ok; done).
  cbn [san_index ji_index ji_pid ji_touched ji_dir].
  set (m1 := kmap hash_string (rec_to_json <$> c_index c)) in *.
  destruct Hc as (_ & _ & H3).
  (* the decoded map has the same keys, with sanitized records *)
  assert (exists l, map_to_list (ji_index (san_index (mkJindex (c_pid c) (c_touched c) m1 (c_inddir c)))) =
     map (fun kr : list byte * irec => (hash_string kr.1, san_rec (rec_to_json kr.2))) l
     /\ NoDup l.*1 /\ (forall h r, (h, r) ∈ l <-> c_index c !! h = Some r)) as (l & El & Hnd & Hl).
  { assert (ji_index (san_index (mkJindex (c_pid c) (c_touched c) m1 (c_inddir c)))
       = kmap hash_string ((fun r => san_rec (rec_to_json r)) <$> c_index c)) as E.
    { cbn [san_index ji_index]. subst m1. rewrite <- (kmap_fmap hash_string). f_equal. rewrite <- map_fmap_compose. done. }
    rewrite E. 
    assert (forall k j, (k, j) ∈ map_to_list (kmap (M2 := gmap (list byte)) hash_string ((fun r => san_rec (rec_to_json r)) <$> c_index c))
      -> exists h r, k = hash_string h /\ c_index c !! h = Some r /\ j = san_rec (rec_to_json r)) as Hex.
    { intros k j Hin. apply elem_of_map_to_list, lookup_kmap_Some in Hin as (h & -> & Hh); [|exact hash_string_inj].
      rewrite lookup_fmap in Hh. destruct (c_index c !! h) as [r|] eqn:Er; [|done]. cbn in Hh. simplify_eq. eauto. }
    pose proof (NoDup_fst_map_to_list (kmap (M2 := gmap (list byte)) hash_string ((fun r => san_rec (rec_to_json r)) <$> c_index c))) as Hnd.
    assert (forall h r, c_index c !! h = Some r -> (hash_string h, san_rec (rec_to_json r)) ∈
       map_to_list (kmap (M2 := gmap (list byte)) hash_string ((fun r => san_rec (rec_to_json r)) <$> c_index c))) as Hall.
    { intros h r Hr. apply elem_of_map_to_list. rewrite lookup_kmap by exact hash_string_inj. rewrite lookup_fmap, Hr. done. }
    clear E. revert Hex Hnd Hall.
    generalize (map_to_list (kmap (M2 := gmap (list byte)) hash_string ((fun r => san_rec (rec_to_json r)) <$> c_index c))) as L.
    intros L Hex Hnd Hall.
    assert (exists l, L = map (fun kr : list byte * irec => (hash_string kr.1, san_rec (rec_to_json kr.2))) l
      /\ forall h r, (h, r) ∈ l -> c_index c !! h = Some r) as (l & -> & Hin).
    { clear Hnd Hall. induction L as [|[k j] L IH]; [exists []; split; [done|set_solver]|].
      destruct IH as (l & -> & Hin); [intros; apply Hex; set_solver|].
      destruct (Hex k j) as (h & r & -> & Hr & ->); [set_solver|].
      exists ((h, r) :: l). split; [done|]. intros h' r' [?|?]%elem_of_cons; [simplify_eq; done|auto]. }
    exists l. split; [done|]. split.
    - rewrite <- list_fmap_compose in Hnd. 
      assert (fst ∘ (fun kr : list byte * irec => (hash_string kr.1, san_rec (rec_to_json kr.2))) <$> l = hash_string <$> l.*1) as E.
      { rewrite <- list_fmap_compose. done. }
      rewrite E in Hnd. apply NoDup_fmap_1 in Hnd. done.
    - intros h r. split; [apply Hin|]. intros Hr. pose proof (Hall h r Hr) as Hi.
      apply elem_of_list_fmap in Hi as ([h' r'] & E & Hi). cbn [fst snd] in E.
      assert (h = h') as -> by (apply hash_string_inj; congruence).
      apply Hin in Hi as Hi'. rewrite Hr in Hi'. simplify_eq. done. }
  cbn [san_index ji_index] in El. rewrite El. rewrite load_entries_ok.
  - cbn [rbind]. do 2 f_equal. f_equal. apply map_eq. intros h.
    rewrite (foldl_insert_lookup l ∅ (c_index c)) by done. rewrite lookup_fmap. destruct (c_index c !! h); done.
  - apply Forall_forall. intros [h r] Hin. apply Hl in Hin. apply H3 in Hin as (?&?&?&?). done.
Qed.
