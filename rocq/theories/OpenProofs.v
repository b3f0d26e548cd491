(** Proofs about opening a catalogue. *)
From Verif Require Export GrammarProofs2 OpenSpec HashProofs CatalogueHist CatalogueReach.

Lemma spells_safe s h : spells s h <-> from_string_safe zero_hash s = (h, None).
Proof.
  assert (Hz : hash_wf zero_hash) by done. pose proof (C14_accepts_lemma zero_hash s Hz) as [H1 H2]. split.
  - intros (Hw & Hl & Hx & Hm). destruct (H1 (conj Hl Hx)) as (h' & E & _ & Hs). rewrite E. f_equal.
    apply C14_string_inj_lemma. congruence.
  - intros E. destruct (decide (length s = 40 /\ Forall is_hex s)) as [D|D].
    + destruct (H1 D) as (h' & E' & Hw & Hs). rewrite E in E'. injection E' as <-. destruct D. done.
    + destruct (H2 D) as [e E']. congruence.
Qed.
Lemma spells_none s : ~ (exists h, spells s h) <-> exists h e, from_string_safe zero_hash s = (h, Some e).
Proof.
  split.
  - intros H. destruct (from_string_safe zero_hash s) as [h [e|]] eqn:E; [by eauto|]. exfalso. apply H. exists h. by apply spells_safe.
  - intros (h & e & E) [h' H]. apply spells_safe in H. congruence.
Qed.
Lemma rec_json_ok j r : rec_from_json j = Ok r <-> tells j r.
Proof.
  unfold rec_from_json, tells. split.
  - destruct (from_string_safe zero_hash (j_hash j)) as [h [e|]] eqn:E; [done|]. intros [= <-]. cbn. apply spells_safe in E. done.
  - intros (H1 & H2 & H3 & H4 & H5). apply spells_safe in H4. rewrite H4. destruct r; cbn in *. congruence.
Qed.
Lemma load_spec l : forall m m', load_entries l m = Ok m' ->
  Forall (fun kj => exists h r, spells kj.1 h /\ tells kj.2 r /\ is_Some (m' !! h)) l
  /\ (forall h, is_Some (m !! h) -> is_Some (m' !! h))
  /\ (forall h r, m' !! h = Some r -> m !! h = Some r \/ exists k j, (k, j) ∈ l /\ spells k h /\ tells j r).
Proof.
  induction l as [|[k j] l IH]; intros m m'; cbn [load_entries].
  { intros [= ->]. split; [constructor|]. split; [done|]. intros; by left. }
  destruct (from_string_safe zero_hash k) as [h [e|]] eqn:E; [intros [=]|]. apply spells_safe in E.
  destruct (rec_from_json j) as [r| |] eqn:Er; cbn; [|intros [=]..]. apply rec_json_ok in Er. intros H.
  destruct (IH _ _ H) as (H1 & H2 & H3). split; [|split].
  - constructor; [|done]. exists h, r. cbn. split; [done|]. split; [done|]. apply H2. rewrite lookup_insert. by eexists.
  - intros h' Hh. apply H2. destruct (decide (h' = h)) as [->|]; [rewrite lookup_insert; by eexists|by rewrite lookup_insert_ne].
  - intros h' r' Hh. destruct (H3 _ _ Hh) as [Hm|(k' & j' & Hin & ? & ?)].
    + destruct (decide (h' = h)) as [->|].
      * rewrite lookup_insert in Hm. injection Hm as <-. right. exists k, j. split; [by left|done].
      * rewrite lookup_insert_ne in Hm by done. by left.
    + right. exists k', j'. split; [by right|done].
Qed.
Lemma load_total l : forall m, Forall (fun kj => (exists h, spells kj.1 h) /\ (exists h, spells kj.2.(j_hash) h)) l ->
  exists m', load_entries l m = Ok m'.
Proof.
  induction l as [|[k j] l IH]; intros m HF; cbn [load_entries]; [by eexists|].
  inversion HF as [|? ? [[h H1] [h' H2]] HF']; subst. cbn [fst snd] in H1, H2. apply spells_safe in H1. rewrite H1.
  destruct (rec_from_json j) as [r|e|e] eqn:E.
  - cbn. by apply IH.
  - exfalso. unfold rec_from_json in E. apply spells_safe in H2. rewrite H2 in E. done.
  - exfalso. unfold rec_from_json in E. apply spells_safe in H2. rewrite H2 in E. done.
Qed.
Lemma load_panic l : forall m, ~ is_panic (load_entries l m).
Proof.
  induction l as [|[k j] l IH]; intros m; cbn [load_entries]; [by intros []|].
  destruct (from_string_safe zero_hash k) as [h [e|]]; [by intros []|].
  unfold rec_from_json. destruct (from_string_safe zero_hash (j_hash j)) as [h' [e|]]; cbn; [by intros []|]. apply IH.
Qed.
Lemma C96_gen pid now cwd dir dl f data : is_rooted cwd = true ->
  f !! abs cwd dir = Some NDir -> f !! join2 (abs cwd dir) index_name = Some (NFile data) ->
  exists r, run f (open_cat pid now cwd dir dl) = (f, Done r)
    /\ ((exists c, r = Ok c) <-> exists x, json_unmarshal data = Some x /\ sound_index x)
    /\ forall c, r = Ok c -> exists x, json_unmarshal data = Some x
         /\ (forall k j, ji_index x !! k = Some j -> exists h, spells k h /\ is_Some (c_index c !! h))
         /\ (forall h r, c_index c !! h = Some r -> exists k j, ji_index x !! k = Some j /\ spells k h /\ tells j r).
Proof.
  intros Hc Hd Hi. rewrite (open_existing _ _ _ _ _ _ data Hc Hd Hi).
  unfold ind_load. cbn [run do_op c_dir new_cat]. rewrite Hi. cbn [run]. unfold unmarshal.
  destruct (json_unmarshal data) as [x|] eqn:Ex.
  2:{ cbn [run]. eexists. split; [done|]. split; [split; [intros [? ?]; done|intros (? & ? & ?); done]|]. intros ? [=]. }
  destruct (load_entries (map_to_list (ji_index x)) ∅) as [m|e|e] eqn:El; cbn [run].
  - eexists. split; [done|]. destruct (load_spec _ _ _ El) as (H1 & _ & H3). rewrite Forall_forall in H1. split.
    + split; [intros _|by eauto]. exists x. split; [done|]. intros k j Hk. apply elem_of_map_to_list in Hk.
      destruct (H1 _ Hk) as (h & r & Hh & (_ & _ & _ & Hr & _) & _). cbn in *. eauto.
    + intros c [= <-]. exists x. split; [done|]. cbn [c_index]. split.
      * intros k j Hk. apply elem_of_map_to_list in Hk. destruct (H1 _ Hk) as (h & r & Hh & _ & Hs). by exists h.
      * intros h r Hr. destruct (H3 _ _ Hr) as [?|(k & j & Hin & ? & ?)]; [by simplify_map_eq|]. apply elem_of_map_to_list in Hin. eauto.
  - eexists. split; [done|]. split; [|intros ? [=]]. split; [intros [? ?]; done|]. intros (y & [= <-] & Hs).
    destruct (load_total (map_to_list (ji_index x)) ∅) as [m Hm]; [|congruence].
    apply Forall_forall. intros [k j] Hk. apply elem_of_map_to_list in Hk. by apply Hs.
  - exfalso. apply (load_panic (map_to_list (ji_index x)) ∅). rewrite El. by eexists.
Qed.
Lemma C96_lemma pid now cwd dir dl f data : is_rooted cwd = true ->
  f !! abs cwd dir = Some NDir -> f !! join2 (abs cwd dir) index_name = Some (NFile data) ->
  exists r, run f (open_cat pid now cwd dir dl) = (f, Done r)
    /\ ((exists c, r = Ok c) <-> exists x, index_text data x /\ sound_index x)
    /\ forall c, r = Ok c -> exists x, index_text data x
         /\ (forall k j, ji_index x !! k = Some j -> exists h, spells k h /\ is_Some (c_index c !! h))
         /\ (forall h r, c_index c !! h = Some r -> exists k j, ji_index x !! k = Some j /\ spells k h /\ tells j r).
Proof.
  intros Hc Hd Hi. destruct (C96_gen pid now cwd dir dl f data Hc Hd Hi) as (r & Hr & H1 & H2). exists r. split; [done|]. split.
  - rewrite H1. split; intros (x & Hx & Hs); exists x; (split; [apply json_unmarshal_spec; done|done]).
  - intros c E. destruct (H2 c E) as (x & Hx & Hs). exists x. split; [apply json_unmarshal_spec; done|done].
Qed.
Lemma index_text_fun data x y : index_text data x -> index_text data y -> y = x.
Proof. intros H1%json_unmarshal_spec H2%json_unmarshal_spec. congruence. Qed.
Local Existing Instance hash_string_inj.
Lemma C115_lemma cwd dir dl A c f : reached cwd dir dl A c f -> valid_utf8 dir -> (forall h a, A !! h = Some a -> valid_utf8 (a_path a)) ->
  exists data x, f !! join2 dir index_name = Some (NFile data) /\ index_text data x /\ (forall y, index_text data y -> y = x)
    /\ ji_dir x = dir
    /\ (forall k j, ji_index x !! k = Some j -> exists h a, A !! h = Some a /\ spells k h /\ spells (j_hash j) h
          /\ j_path j = a_path a /\ j_size j = a_size a /\ j_chunk j = a_chunk a)
    /\ (forall h a, A !! h = Some a -> exists k, spells k h /\ is_Some (ji_index x !! k)).
Proof.
  intros H Hu Hp. pose proof (reached_synced _ _ _ _ _ _ H) as (_ & Hs & <- & _).
  pose proof (synced_ints _ _ _ Hs) as Hi. pose proof (sy_ind _ _ _ Hs) as Hind.
  set (x0 := mkJindex (c_pid c) (c_touched c) (kmap hash_string (rec_to_json <$> c_index c)) (c_inddir c)).
  assert (index_text (marshal c) (san_index x0)) as Hx.
  { apply json_unmarshal_spec. unfold marshal. apply unmarshal_marshal, jindex_of_cat_ok. done. }
  assert (forall h, hash_wf h -> spells (hash_string h) h) as Hsp.
  { intros h Hw. split; [done|]. apply C14_string_shape_lemma. done. }
  assert (forall h, match c_index c !! h, A !! h with None, None => True | Some r, Some a => entry_rel f (c_dir c) h r a | _, _ => False end) as He by apply (sy_ent _ _ _ Hs).
  assert (ji_index (san_index x0) = kmap hash_string ((fun r => san_rec (rec_to_json r)) <$> c_index c)) as Ei.
  { subst x0. cbn [san_index ji_index]. rewrite <- (kmap_fmap hash_string). f_equal. rewrite <- map_fmap_compose. done. }
  exists (marshal c), (san_index x0). split; [apply Hs|]. split; [done|]. split; [intros y Hy; eapply index_text_fun; done|].
  split; [subst x0; cbn [san_index ji_dir]; rewrite Hind; apply sanitize_id_iff; done|]. rewrite Ei. split.
  - intros k j Hk. apply lookup_kmap_Some in Hk as (h & -> & Hk); [|exact hash_string_inj]. rewrite lookup_fmap in Hk.
    specialize (He h). destruct (c_index c !! h) as [r|] eqn:Er; [|done]. destruct (A !! h) as [a|] eqn:Ea; [|done]. cbn in Hk. injection Hk as <-.
    destruct He as (Eh & Hw & Ep & _ & Es & _ & Ec & _). exists h, a. split; [done|]. unfold rec_to_json, san_rec. cbn [j_path j_size j_hash j_chunk].
    rewrite Eh, Ep, (proj2 (sanitize_id_iff _) (Hp h a Ea)), (proj2 (sanitize_id_iff _) (hash_string_utf8 h Hw)). auto 10.
  - intros h a Ea. specialize (He h). rewrite Ea in He. destruct (c_index c !! h) as [r|] eqn:Er; [|done].
    exists (hash_string h). split; [apply Hsp, He|]. rewrite lookup_kmap by exact hash_string_inj. rewrite lookup_fmap, Er. done.
Qed.
Lemma C115_cut_lemma cwd dir dl A c f p s data : reached cwd dir dl A c f -> f !! join2 dir index_name = Some (NFile data) ->
  data = p ++ s -> s <> [] -> forall y, ~ index_text p y.
Proof.
  intros H Hd E Hne y Hy%json_unmarshal_spec. pose proof (reached_synced _ _ _ _ _ _ H) as (_ & Hs & <- & _).
  rewrite (sy_index _ _ _ Hs) in Hd. injection Hd as Hd. rewrite <- Hd in E. rewrite (unmarshal_truncated _ p s E Hne) in Hy. done.
Qed.
Lemma C97_lemma cwd dir dl A c f h r : reached cwd dir dl A c f -> c_index c !! h = Some r -> r_hash r = h.
Proof.
  intros H Hr. pose proof (reached_synced _ _ _ _ _ _ H) as (_ & Hs & _). pose proof (sy_ent _ _ _ Hs h) as He.
  rewrite Hr in He. destruct (A !! h); [|done]. by destruct He.
Qed.
