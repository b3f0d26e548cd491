(** Round trip of the index structure; truncated documents are rejected. *)
From Verif Require Export JsonProofs2.
From Coq Require Import ZifyBool ZifyNat ZifyN.
Ltac Zify.zify_post_hook ::= Z.div_mod_to_equations.

Definition int64 (z : Z) : Prop := (-9223372036854775808 <= z < 9223372036854775808)%Z.
Definition jrec_ok (r : jrec) : Prop := int64 (j_size r) /\ int64 (j_chunk r).
Definition jindex_ok (x : jindex) : Prop :=
  int64 (ji_pid x) /\ int64 (ji_touched x) /\
  map_Forall (fun k r => valid_utf8 k /\ jrec_ok r) (ji_index x).
(** what an index becomes when written and read back *)
Definition san_rec (r : jrec) : jrec := mkJrec (sanitize (j_path r)) (j_size r) (sanitize (j_hash r)) (j_chunk r).
Definition san_index (x : jindex) : jindex :=
  mkJindex (ji_pid x) (ji_touched x) (san_rec <$> ji_index x) (sanitize (ji_dir x)).

(** sorting permutes *)
Lemma insert_sorted_perm {A} kv (l : list (list byte * A)) : insert_sorted kv l ≡ₚ kv :: l.
Proof.
  induction l as [|kv' l IH]; [done|]. cbn [insert_sorted]. case_match; [done|].
  rewrite IH. apply Permutation_swap.
Qed.
Lemma sort_keys_perm {A} (l : list (list byte * A)) : sort_keys l ≡ₚ l.
Proof. unfold sort_keys. induction l as [|kv l IH]; [done|]. cbn [foldr]. rewrite insert_sorted_perm, IH. done. Qed.

Lemma fold_opt_app {A B} (f : A -> B -> option A) a l1 l2 a1 :
  fold_opt f a l1 = Some a1 -> fold_opt f a (l1 ++ l2) = fold_opt f a1 l2.
Proof. revert a; induction l1 as [|b l1 IH]; intros a; cbn; [intros [= ->]; done|]. destruct (f a b); [apply IH|done]. Qed.

Lemma dec_rec_print r : jrec_ok r -> dec_rec (norm (rec_json r)) = Some (san_rec r).
Proof.
  intros [H1 H2]. unfold rec_json. cbn [norm map fst snd].
  assert (sanitize (name_bytes "FilePath") = name_bytes "FilePath") as -> by (vm_compute; reflexivity).
  assert (sanitize (name_bytes "SizeInBytes") = name_bytes "SizeInBytes") as -> by (vm_compute; reflexivity).
  assert (sanitize (name_bytes "Sha1Hash") = name_bytes "Sha1Hash") as -> by (vm_compute; reflexivity).
  assert (sanitize (name_bytes "ChunkSize") = name_bytes "ChunkSize") as -> by (vm_compute; reflexivity).
  unfold dec_rec. cbn [fold_opt].
  unfold dec_rec_field at 1.
  assert (key_is (name_bytes "FilePath") "FilePath" = true) as -> by (vm_compute; reflexivity).
  cbn [dec_str]. unfold dec_rec_field at 1.
  assert (key_is (name_bytes "SizeInBytes") "FilePath" = false) as -> by (vm_compute; reflexivity).
  assert (key_is (name_bytes "SizeInBytes") "SizeInBytes" = true) as -> by (vm_compute; reflexivity).
  cbn [dec_int]. rewrite parse_print_int by exact H1. unfold dec_rec_field at 1.
  assert (key_is (name_bytes "Sha1Hash") "FilePath" = false) as -> by (vm_compute; reflexivity).
  assert (key_is (name_bytes "Sha1Hash") "SizeInBytes" = false) as -> by (vm_compute; reflexivity).
  assert (key_is (name_bytes "Sha1Hash") "Sha1Hash" = true) as -> by (vm_compute; reflexivity).
  cbn [dec_str]. unfold dec_rec_field at 1.
  assert (key_is (name_bytes "ChunkSize") "FilePath" = false) as -> by (vm_compute; reflexivity).
  assert (key_is (name_bytes "ChunkSize") "SizeInBytes" = false) as -> by (vm_compute; reflexivity).
  assert (key_is (name_bytes "ChunkSize") "Sha1Hash" = false) as -> by (vm_compute; reflexivity).
  assert (key_is (name_bytes "ChunkSize") "ChunkSize" = true) as -> by (vm_compute; reflexivity).
  cbn [dec_int]. rewrite parse_print_int by exact H2. done.
Qed.

Lemma dec_map_list (l : list (list byte * jrec)) m :
  Forall (fun kv => valid_utf8 kv.1 /\ jrec_ok kv.2) l -> NoDup l.*1 ->
  dec_map m (norm (JObj (map (fun kv : list byte * jrec => (kv.1, rec_json kv.2)) l)))
  = Some (list_to_map (prod_map id san_rec <$> l) ∪ m).
Proof.
  cbn [norm]. rewrite map_map. cbn [fst snd]. unfold dec_map. revert m.
  induction l as [|[k r] l IH]; intros m Hl Hnd; [cbn; rewrite (left_id_L ∅ (∪)); done|].
  inversion Hl as [|? ? [Hk Hr] Hl']; subst. cbn [fmap list_fmap fst] in Hnd. inversion Hnd as [|? ? Hni Hnd']; subst.
  cbn [map fold_opt fst snd] in *. rewrite dec_rec_print by done. rewrite (sanitize_valid k) by done.
  rewrite IH by done. f_equal. cbn [fmap list_fmap prod_map fst snd id]. rewrite list_to_map_cons.
  rewrite <- insert_union_l. rewrite <- insert_union_r; [done|].
  apply not_elem_of_list_to_map_1. rewrite <- list_fmap_compose.
  intros Hin. apply Hni. apply elem_of_list_fmap in Hin as ([k' r'] & E & Hin). cbn in E. subst k'.
  apply elem_of_list_fmap. exists (k, r'). done.
Qed.
Lemma list_to_map_prod_fmap (l : list (list byte * jrec)) :
  (list_to_map (prod_map id san_rec <$> l) : gmap (list byte) jrec) = san_rec <$> list_to_map l.
Proof. induction l as [|[k r] l IH]; [cbn; rewrite fmap_empty; done|]. cbn. rewrite fmap_insert. f_equal. exact IH. Qed.
Lemma index_json_ok x : json_ok (index_json x).
Proof.
  unfold index_json. cbn [json_ok]. split; [exists (ji_pid x); done|]. split; [exists (ji_touched x); done|].
  split; [|done]. generalize (sort_keys (map_to_list (ji_index x))). intros l.
  induction l as [|[k r] l IH]; [done|]. cbn [map]. split; [|exact IH].
  cbn [rec_json json_ok fst snd]. split; [done|]. split; [exists (j_size r); done|]. split; [done|]. split; [exists (j_chunk r); done|done].
Qed.
Lemma norm_obj ms : norm (JObj ms) = JObj (map (fun kv : list byte * json => (sanitize kv.1, norm kv.2)) ms).
Proof. reflexivity. Qed.
Lemma unmarshal_marshal x : jindex_ok x -> json_unmarshal (json_marshal x) = Some (san_index x).
Proof.
  intros (H1 & H2 & H3). unfold json_unmarshal, json_marshal. rewrite parse_doc_print by apply index_json_ok.
  unfold index_json. rewrite norm_obj. cbn [map fst snd].
  set (v := norm (JObj (map _ _))).
  assert (sanitize (name_bytes "Pid") = name_bytes "Pid") as -> by (vm_compute; reflexivity).
  assert (sanitize (name_bytes "LastTouched") = name_bytes "LastTouched") as -> by (vm_compute; reflexivity).
  assert (sanitize (name_bytes "Index") = name_bytes "Index") as -> by (vm_compute; reflexivity).
  assert (sanitize (name_bytes "DataDir") = name_bytes "DataDir") as -> by (vm_compute; reflexivity).
  unfold dec_index. cbn [fold_opt]. unfold dec_index_field at 1.
  assert (key_is (name_bytes "Pid") "Pid" = true) as -> by (vm_compute; reflexivity).
  cbn [norm dec_int]. rewrite parse_print_int by exact H1. unfold dec_index_field at 1.
  assert (key_is (name_bytes "LastTouched") "Pid" = false) as -> by (vm_compute; reflexivity).
  assert (key_is (name_bytes "LastTouched") "LastTouched" = true) as -> by (vm_compute; reflexivity).
  cbn [dec_int]. rewrite parse_print_int by exact H2. unfold dec_index_field at 1.
  assert (key_is (name_bytes "Index") "Pid" = false) as -> by (vm_compute; reflexivity).
  assert (key_is (name_bytes "Index") "LastTouched" = false) as -> by (vm_compute; reflexivity).
  assert (key_is (name_bytes "Index") "Index" = true) as -> by (vm_compute; reflexivity).
  cbn [ji_index ji_pid ji_touched ji_dir jindex_zero].
  assert (dec_map ∅ v = Some (san_rec <$> ji_index x)) as ->.
  { unfold v. rewrite dec_map_list.
    - rewrite (right_id_L ∅ (∪)). f_equal. rewrite list_to_map_prod_fmap. f_equal.
      transitivity (list_to_map (map_to_list (ji_index x)) : gmap (list byte) jrec); [|apply list_to_map_to_list].
      apply list_to_map_proper; [|apply sort_keys_perm].
      rewrite (fmap_Permutation fst _ _ (sort_keys_perm (map_to_list (ji_index x)))). apply NoDup_fst_map_to_list.
    - rewrite (sort_keys_perm (map_to_list (ji_index x))). apply map_Forall_to_list in H3.
      eapply Forall_impl; [exact H3|]. intros [k r] H. exact H.
    - rewrite (fmap_Permutation fst _ _ (sort_keys_perm (map_to_list (ji_index x)))). apply NoDup_fst_map_to_list. }
  unfold dec_index_field at 1.
  assert (key_is (name_bytes "DataDir") "Pid" = false) as -> by (vm_compute; reflexivity).
  assert (key_is (name_bytes "DataDir") "LastTouched" = false) as -> by (vm_compute; reflexivity).
  assert (key_is (name_bytes "DataDir") "Index" = false) as -> by (vm_compute; reflexivity).
  assert (key_is (name_bytes "DataDir") "DataDir" = true) as -> by (vm_compute; reflexivity).
  cbn [dec_str ji_index ji_pid ji_touched ji_dir]. done.
Qed.

(** a truncated index file is never readable *)
Lemma unmarshal_truncated x p s : json_marshal x = p ++ s -> s <> [] -> json_unmarshal p = None.
Proof.
  intros E Hs. destruct (exists_last Hs) as (s' & c & ->).
  assert (c = x7d) as ->.
  { unfold json_marshal, index_json in E. rewrite print_obj in E. rewrite app_comm_cons, !app_assoc in E.
    apply app_inj_2 in E as [_ E]; [|done]. congruence. }
  unfold json_unmarshal. destruct (parse_doc p) as [v|] eqn:Ep; [|done]. exfalso.
  apply (parse_doc_prefix p s' x7d (norm (index_json x)) v); [|done|done|done].
  rewrite <- E. apply parse_doc_print, index_json_ok.
Qed.
