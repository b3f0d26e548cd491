(** Which disks a kill during UnshareFile leaves, and what each means (C33). *)
From Verif Require Import Wedge CatalogueCrash CatalogueReach.
From Coq Require Import ZifyBool ZifyNat ZifyN.

Lemma restart_reached cwd dir dl A c f : reached cwd dir dl A c f -> valid_utf8 dir ->
  (forall h a, A !! h = Some a -> valid_utf8 (a_path a)) -> exists c', starts cwd dir dl f c' /\ reached cwd dir dl A c' f.
Proof.
  intros H Hu Hua. pose proof (reached_synced _ _ _ _ _ _ H) as (Hcwd & Hs & Hd & Hdl).
  assert (starts cwd dir dl f (mkCat dir dl (c_pid c) (c_touched c) (san_irec <$> c_index c) (sanitize (c_inddir c)))) as Hst.
  { rewrite <- Hd, <- Hdl. apply starts_whole; [done|apply Hs|apply Hs|apply Hs|apply (synced_ints _ _ _ Hs)|apply Hs]. }
  eexists. split; [exact Hst|]. eapply (re_call _ _ _ _ _ _ (CRestart 0 0)); [exact H| | |].
  - split; done.
  - cbn [crun]. rewrite Hd, Hdl, Hst. done.
  - done.
Qed.
(** the Cat a restart leaves *)
Definition restarted (c : cat) : cat := mkCat (c_dir c) (c_dl c) (c_pid c) (c_touched c) (san_irec <$> c_index c) (sanitize (c_inddir c)).
Lemma restarted_reached cwd dir dl A c f : reached cwd dir dl A c f -> valid_utf8 dir ->
  (forall h a, A !! h = Some a -> valid_utf8 (a_path a)) -> reached cwd dir dl A (restarted c) f.
Proof.
  intros H Hu Hua. pose proof (reached_synced _ _ _ _ _ _ H) as (Hcwd & Hs & Hd & Hdl).
  assert (starts cwd (c_dir c) (c_dl c) f (restarted c)) as Hst.
  { apply starts_whole; [done|apply Hs|apply Hs|apply Hs|apply (synced_ints _ _ _ Hs)|apply Hs]. }
  eapply (re_call _ _ _ _ _ _ (CRestart 0 0)); [exact H| | |].
  - split; done.
  - cbn [crun]. rewrite Hst. done.
  - done.
Qed.
Lemma killed_unshare_states c f A h f' : synced c f A -> killed f (unshare_file c h) f' ->
  let g := delete (prog_path (c_dir c) h) f in
  f' = f \/ (exists a, A !! h = Some a) /\
    (f' = g \/ exists k, f' = <[join2 (c_dir c) index_name := NFile (take k (marshal (set_index c (delete h (c_index c)))))]> g).
Proof.
  intros H Hk g. unfold unshare_file in Hk. apply killed_bind in Hk as [Hk|(f1 & [c1 x] & H1 & Hk)].
  - apply killed_pure in Hk; [|apply pure_get_record]. auto.
  - apply (get_record_synced _ _ A) in H1 as [-> Hg]; [|done]. apply killed_on_ok in Hk as [->|(rp & -> & Hk)]; [auto|].
    destruct Hg as [[[w Hg] _]|(r & b & a & Ha & Hg & -> & Hm & Hp & Hc & Hh)]; [done|]. injection Hg as ->. subst h.
    pose proof (sy_dir _ _ _ H) as Hd.
    assert (hash_wf (r_hash r)) as Hw by (apply (entries_wf _ _ _ _ _ (sy_ent _ _ _ H)); rewrite Ha; done).
    cbn [snd fst] in Hk. unfold delete_prog in Hk. cbn [p_file] in Hk. rewrite join1_clean in Hk by (apply prog_path_clean; done).
    apply killed_bind in Hk as [Hk|(f2 & e & H2 & Hk)].
    + inversion Hk as [|? ? ? ? Hpa|? ? ? rr f3 ? Hs Hkk]; subst; [auto|inversion Hpa; subst; auto|].
      apply killed_ret in Hkk as ->. destruct Hs as [rr f3 E|f3 Hpa]; [|inversion Hpa; subst; auto].
      cbn [do_op] in E. repeat case_match; simplify_eq; eauto.
    + apply execs_do in H2 as (rr & f3 & Hs & H2). apply execs_ret in H2 as [-> [= ->]].
      assert (f3 = f \/ f3 = g /\ rr = ROk) as Hf3.
      { destruct Hs as [rr f3 E|f3 Hpa]; [|inversion Hpa; subst; auto]. cbn [do_op] in E. repeat case_match; simplify_eq; auto. }
      apply killed_on_ok in Hk as [->|([] & He & Hk)]; [destruct Hf3 as [->|[-> _]]; eauto|].
      assert (f3 = g) as ->.
      { destruct Hs as [rr f3 E|f3 Hpa]; [|done]. cbn [do_op] in E. repeat case_match; simplify_eq; done. }
      right. split; [eauto|]. unfold remove_record, save_index in Hk. cbn [bind set_index c_inddir c_index] in Hk. rewrite (sy_ind _ _ _ H) in Hk.
      apply torn_do in Hk.
      change (marshal _) with (marshal (set_index (set_index c (<[r_hash r:=r]> (c_index c))) (delete (r_hash r) (<[r_hash r:=r]> (c_index c))))) in Hk at 1.
      rewrite delete_insert_delete in Hk. destruct Hk as [->|[k ->]]; [left; done|right]. exists k. done.
Qed.
Lemma run_unshare c f A h a : synced c f A -> A !! h = Some a ->
  run f (unshare_file c h) = (<[join2 (c_dir c) index_name := NFile (marshal (set_index c (delete h (c_index c))))]> (delete (prog_path (c_dir c) h) f),
    Done (set_index c (delete h (c_index c)), Ok tt)).
Proof.
  intros H Ha. pose proof (sy_dir _ _ _ H) as Hd.
  destruct (get_record_ok c f A h a H Ha) as (r & b & Hrun & Hp & Hrel & Hb & Hs & Hm & Hfile).
  pose proof Hrel as (Hrh & Hw & _).
  unfold unshare_file. rewrite run_bind, Hrun. cbn [on_ok snd fst]. unfold delete_prog. cbn [p_file].
  rewrite run_bind. cbn [run do_op]. rewrite join1_clean by (apply prog_path_clean; done). rewrite Hfile. cbn [run ok_or on_ok].
  unfold remove_record. rewrite Hrh. set (c1 := set_index c (<[h:=r]> (c_index c))) in *.
  change (c_index c1) with (<[h:=r]> (c_index c)). rewrite delete_insert_delete.
  set (c2 := set_index c1 (delete h (c_index c))). change c2 with (set_index c (delete h (c_index c))) in *.
  rewrite run_bind, save_index_run.
  2:{ cbn [set_index c_inddir]. rewrite (sy_ind _ _ _ H). apply writable_child; [done|apply index_normal| |].
      - rewrite lookup_delete_ne by (apply dir_not_child; [done|apply hash_normal; done]). apply H.
      - rewrite lookup_delete_ne by (apply prog_path_ne_index; done). apply H, index_normal. }
  cbn [run]. cbn [set_index c_inddir]. rewrite (sy_ind _ _ _ H). done.
Qed.
Lemma unshare_kills cwd dir dl A c f h a f' : reached cwd dir dl A c f -> A !! h = Some a -> valid_utf8 dir ->
  (forall h a, A !! h = Some a -> valid_utf8 (a_path a)) -> ckilled cwd c f (CUnshare h) f' ->
  (exists c', starts cwd dir dl f' c' /\ (reached cwd dir dl A c' f' \/ reached cwd dir dl (delete h A) c' f'))
  \/ wont_start cwd dir dl f' \/ stuck cwd dir dl h f'.
Proof.
  intros H Ha Hu Hua Hk. pose proof (reached_synced _ _ _ _ _ _ H) as (Hcwd & Hs & Ed & Edl).
  apply (killed_unshare_states _ _ _ _ _ Hs) in Hk as [->|[_ Hk]].
  { left. destruct (restart_reached _ _ _ _ _ _ H Hu Hua) as (c' & H1 & H2). eauto. }
  pose proof (sy_dir _ _ _ Hs) as Hd. pose proof (sy_dl _ _ _ Hs) as Hdl.
  assert (hash_wf h) as Hw by (apply (entries_wf _ _ _ _ _ (sy_ent _ _ _ Hs)); rewrite Ha; done).
  destruct Hk as [->|[k ->]].
  { right. right. rewrite <- Ed, <- Edl in *. apply wedged_stuck; try done. split; [|split].
    + rewrite lookup_delete_ne; [apply Hs|]. apply dir_not_child; [done|apply hash_normal; done].
    + rewrite lookup_delete. done.
    + exists c. rewrite lookup_delete_ne by (apply prog_path_ne_index; done). split; [apply Hs|]. apply (synced_good _ f A _ a); done. }
  set (c1 := set_index c (delete h (c_index c))).
  destruct (decide (k < length (marshal c1))) as [Hlt|Hge].
  { right. left. rewrite <- Ed in *. apply (starts_torn _ _ _ _ (marshal c1) k c1); try done; [|apply lookup_insert].
    rewrite lookup_insert_ne by (apply dir_not_child; [done|apply index_normal]).
    rewrite lookup_delete_ne by (apply dir_not_child; [done|apply hash_normal; done]). apply Hs. }
  left. rewrite take_ge by lia.
  destruct (unshare_ok c f A h a Hs Ha) as (f2 & Hrun & Hs2 & Hu2 & Hn).
  set (f3 := <[join2 (c_dir c) index_name := NFile (marshal c1)]> (delete (prog_path (c_dir c) h) f)).
  assert (f2 = f3) as ->.
  { pose proof (run_unshare c f A h a Hs Ha) as E. rewrite Hrun in E. apply (f_equal fst) in E. exact E. }
  assert (reached cwd dir dl (delete h A) c1 f3) as H1.
  { eapply (re_call _ _ _ _ _ _ (CUnshare h)); [exact H|done| |].
    - cbn [crun]. rewrite Hrun. done.
    - cbn [aspec]. rewrite <- Ed. split; [done|]. split; [done|]. rewrite decide_False by (rewrite Ha; done). done. }
  destruct (restart_reached _ _ _ _ _ _ H1 Hu) as (c' & G1 & G2); [|eauto].
  intros h2 a2 H2. apply lookup_delete_Some in H2 as [_ H2]. eauto.
Qed.

(** ** Share and RegisterDownload: the index, then the progress file *)
Section added.
  Context (cwd : path) (c : cat) (f : fs) (A : astate) (r : irec) (d : list byte).
  Let i := join2 (c_dir c) index_name.
  Let q := prog_path (c_dir c) (r_hash r).
  Let m := marshal (set_index c (<[r_hash r := r]> (c_index c))).
  Definition added_disk (f' : fs) : Prop :=
    f' = f \/ (exists k, f' = <[i := NFile (take k m)]> f) \/ exists k, f' = <[q := NFile (take k d)]> (<[i := NFile m]> f).
  Hypothesis Hcwd : is_rooted cwd = true.
  Hypothesis Hs : synced c f A.
  Hypothesis Hw : hash_wf (r_hash r).
  Hypothesis Ha : A !! r_hash r = None.
  Lemma add_states f' : killed f (add_record c r) f' -> f' = f \/ exists k, f' = <[i := NFile (take k m)]> f.
  Proof. intros H. apply killed_add in H; [|apply Hs]. exact H. Qed.
  Lemma add_done f' c1 : execs f (add_record c r) f' (Done (c1, Ok tt)) ->
    f' = <[i := NFile m]> f /\ c_dir c1 = c_dir c.
  Proof.
    intros H. unfold add_record in H. destruct (c_index c !! r_hash r); [apply execs_ret in H as [_ [=]]|].
    unfold save_index in H. cbn [bind set_index c_inddir] in H. rewrite (sy_ind _ _ _ Hs) in H.
    apply execs_do in H as (rr & f1 & H1 & H). apply execs_ret in H as [-> [= -> E]]. split; [|done].
    destruct H1 as [rr f1 E1|f1 _]; [|done]. cbn [do_op] in E1. destruct (writable f _); simplify_eq; done.
  Qed.
  Hypothesis Hsz : int64 (r_size r).
  Hypothesis Hch : int64 (r_chunk r).
  Hypothesis Hu : valid_utf8 (c_dir c).
  Hypothesis Hno : f !! q = None.
  Lemma added_cases f' : added_disk f' ->
    f' = f \/ f' = <[q := NFile d]> (<[i := NFile m]> f) \/ wont_start cwd (c_dir c) (c_dl c) f' \/ stuck cwd (c_dir c) (c_dl c) (r_hash r) f'
    \/ exists l rest, rest <> [] /\ d = l ++ rest /\ f' = <[q := NFile l]> (<[i := NFile m]> f) /\ 8 <= length l /\ length l mod 8 = 0.
  Proof.
    pose proof (sy_dir _ _ _ Hs) as Hd. pose proof (sy_dl _ _ _ Hs) as Hdl.
    assert (q <> i) as Nqi by (apply prog_path_ne_index; done).
    assert (i <> c_dir c) as Nid by (apply dir_not_child; [done|apply index_normal]).
    assert (q <> c_dir c) as Nqd by (apply dir_not_child; [done|apply hash_normal; done]).
    intros [->|[[k ->]|[k ->]]]; [auto| |].
    - right. right. destruct (decide (k < length m)) as [Hk|Hk].
      + left. apply (starts_torn _ _ _ _ m k (set_index c (<[r_hash r := r]> (c_index c)))); try done; [|apply lookup_insert].
        rewrite lookup_insert_ne by done. apply Hs.
      + right. left. rewrite take_ge by lia. apply (added_stuck cwd A); done.
    - destruct (decide (k < length d)) as [Hk|Hk]; [|rewrite take_ge by lia; auto]. right. right. right.
      assert (length (take k d) = k) as El by (rewrite take_length; lia).
      destruct (decide (8 <= k /\ k mod 8 = 0)) as [[H1 H2]|Hn].
      + right. exists (take k d), (drop k d). split; [|split; [|split]].
        * intros E. apply (f_equal length) in E. rewrite drop_length in E. cbn in E. lia.
        * rewrite take_drop. done.
        * done.
        * rewrite El. done.
      + left. apply wedged_stuck; try done. split; [|split].
        * rewrite !lookup_insert_ne by done. apply Hs.
        * fold q. rewrite lookup_insert. intros l b [= <-]. unfold bdeserialize. rewrite El. destruct (Nat.ltb_spec k 8) as [|H8]; [done|].
          rewrite drop_length, El. destruct (Nat.eqb_spec ((k - 8) mod 8) 0) as [E|E]; [|done].
          exfalso. apply Hn. split; [done|]. replace k with ((k - 8) + 1 * 8) by lia. rewrite Nat.mod_add by lia. done.
        * exists (set_index c (<[r_hash r := r]> (c_index c))). rewrite lookup_insert_ne by done. fold i. rewrite lookup_insert. split; [done|].
          apply (good_add _ f A); done.
  Qed.
  (** a progress file that ends with a whole word is read, and removing the file then
      leads back to the beginning *)
  Lemma cut_undone dir dl l : reached cwd dir dl A c f -> (forall h a, A !! h = Some a -> valid_utf8 (a_path a)) ->
    8 <= length l -> length l mod 8 = 0 ->
    exists c', starts cwd dir dl (<[q := NFile l]> (<[i := NFile m]> f)) c'
      /\ crun cwd c' (<[q := NFile l]> (<[i := NFile m]> f)) (CUnshare (r_hash r)) = Some (restarted c, f, AOk)
      /\ reached cwd dir dl A (restarted c) f.
  Proof.
    intros H Hua H8 Hm8. pose proof (reached_synced _ _ _ _ _ _ H) as (_ & _ & Ed & Edl).
    pose proof (sy_dir _ _ _ Hs) as Hd. pose proof (sy_dl _ _ _ Hs) as Hdl.
    assert (q <> i) as Nqi by (apply prog_path_ne_index; done).
    assert (i <> c_dir c) as Nid by (apply dir_not_child; [done|apply index_normal]).
    assert (q <> c_dir c) as Nqd by (apply dir_not_child; [done|apply hash_normal; done]).
    assert (c_index c !! r_hash r = None) as Hc by (apply (entries_none _ _ _ _ _ (sy_ent _ _ _ Hs)); done).
    assert (reached cwd dir dl A (restarted c) f) as H0 by (apply restarted_reached; [done|rewrite <- Ed; done|done]).
    pose proof (reached_synced _ _ _ _ _ _ H0) as (_ & Hs0 & _ & _).
    pose proof (good_add c f A (r_hash r) r Hs Hw eq_refl Hsz Hch) as (_ & Hints & _ & _).
    set (f' := <[q := NFile l]> (<[i := NFile m]> f)).
    set (c1 := set_index c (<[r_hash r := r]> (c_index c))) in *.
    exists (restarted c1). split; [|split; [|done]].
    - rewrite <- Ed, <- Edl. apply (starts_whole cwd (c_dir c) (c_dl c) f' c1); try done.
      + unfold f'. rewrite !lookup_insert_ne by done. apply Hs.
      + unfold f'. fold i. rewrite lookup_insert_ne by done. apply lookup_insert.
    - assert (bdeserialize l = Ok (mkBitset (map (fun i => unbe (take 8 (drop (8 + i * 8) l))) (seq 0 (Nat.div (length (drop 8 l)) 8))) (int_of_u64 (unbe (take 8 l))))) as Hdes.
      { unfold bdeserialize. destruct (Nat.ltb_spec (length l) 8) as [|_]; [lia|].
        assert (length (drop 8 l) mod 8 = 0) as ->; [|done]. rewrite drop_length.
        replace (length l) with ((length l - 8) + 1 * 8) in Hm8 by lia. rewrite Nat.mod_add in Hm8 by lia. done. }
      set (b := mkBitset _ _) in Hdes. cbn [crun]. unfold unshare_file, get_record.
      change (c_index (restarted c1)) with (san_irec <$> <[r_hash r := r]> (c_index c)).
      rewrite lookup_fmap, lookup_insert. cbn [fmap option_fmap option_map]. unfold fill. cbn [san_irec r_prog].
      unfold load_prog. cbn [run do_op bind san_irec r_hash]. change (c_dir (restarted c1)) with (c_dir c). fold q.
      assert (f' !! q = Some (NFile l)) as Hq by apply lookup_insert.
      rewrite Hq. cbn [run]. rewrite Hdes. cbn [rbind lift bind run on_ok snd fst].
      unfold delete_prog. cbn [p_file run do_op bind]. rewrite join1_clean by (apply prog_path_clean; done). fold q. rewrite Hq.
      cbn [run ok_or on_ok bind]. unfold remove_record. cbn [set_prog r_hash san_irec].
      match goal with |- context [save_index ?x] => assert (x = restarted c) as -> end.
      { cbn [set_index c_index]. rewrite delete_insert_delete. change (c_index (restarted c1)) with (san_irec <$> <[r_hash r := r]> (c_index c)).
        rewrite fmap_insert, delete_insert_delete, delete_notin by (rewrite lookup_fmap, Hc; done). done. }
      assert (delete q f' = <[i := NFile m]> f) as ->.
      { unfold f'. apply delete_insert. rewrite lookup_insert_ne by done. done. }
      assert (c_inddir (restarted c) = c_dir c) as Hi by exact (sy_ind _ _ _ Hs0).
      rewrite run_bind, save_index_run.
      2:{ rewrite Hi. apply writable_child; [done|apply index_normal| |].
          - rewrite lookup_insert_ne by done. apply Hs.
          - fold i. rewrite lookup_insert. done. }
      rewrite Hi. fold i. cbn [run finish fst snd ans_of]. rewrite insert_insert.
      rewrite insert_id by exact (sy_index _ _ _ Hs0). done.
  Qed.
End added.

Lemma save_prog_states p h b f f' : clean_abs p -> killed f (save_prog (mkProg b (prog_path p h))) f' ->
  f' = f \/ exists k, f' = <[prog_path p h := NFile (take k (bserialize b))]> f.
Proof. intros Hp H. apply (killed_save_prog _ p h b) in H; [|done|done]. exact H. Qed.

Lemma register_states c f A size count chunk h name f' : synced c f A -> A !! h = None ->
  (size < 9223372036854775808)%N -> (0 < chunk < 4294967296)%N -> hash_wf h ->
  killed f (register_download c size count chunk h name) f' ->
  let r := mkRec (join2 (c_dl c) name) (Z.of_N size) h None (Z.of_N chunk) in
  exists d, added_disk c f r d f' /\ forall f2 x, run f (register_download c size count chunk h name) = (f2, Done x) ->
    f2 = <[prog_path (c_dir c) h := NFile d]> (<[join2 (c_dir c) index_name := NFile (marshal (set_index c (<[h := r]> (c_index c))))]> f).
Proof.
  intros H Ha Hsz Hch Hw Hk r0. pose proof (sy_dir _ _ _ H) as Hd. unfold register_download in *.
  assert (int_of_u64 size = Z.of_N size) as Esz by (apply int_of_u64_small; change p63 with 9223372036854775808%N; lia).
  rewrite Esz in *. fold r0 in Hk. fold r0.
  destruct (new_progress_ok r0 (c_dir c)) as (b & Hnp & Hb); [cbn [r_size r0]; lia|cbn [r_chunk r0]; lia|]. change (r_hash r0) with h in Hnp.
  exists (bserialize b). split.
  - apply killed_bind in Hk as [Hk|(f1 & [c1 e] & H1 & Hk)]; [apply (add_states _ _ A) in Hk as [->|[k ->]]; [left; done|right; left; eauto|done]|].
    apply killed_on_ok in Hk as [->|([] & -> & Hk)].
    { apply execs_killed, (add_states _ _ A) in H1 as [->|[k ->]]; [left; done|right; left; eauto|done]. }
    apply (add_done _ _ A) in H1 as [-> Hdc]; [|done]. rewrite Hdc, Hnp in Hk.
    apply killed_bind in Hk as [Hk|(f2 & e2 & H2 & Hk)].
    + apply save_prog_states in Hk as [->|[k ->]]; [|right; right; eauto|done].
      right. left. exists (length (marshal (set_index c (<[r_hash r0 := r0]> (c_index c))))). rewrite take_ge by lia. done.
    + apply killed_ret in Hk as ->. apply execs_killed, save_prog_states in H2 as [->|[k ->]]; [|right; right; eauto|done].
      right. left. exists (length (marshal (set_index c (<[r_hash r0 := r0]> (c_index c))))). rewrite take_ge by lia. done.
  - intros f2 x E. rewrite run_bind, (run_add c f A r0 H Ha) in E. cbn [on_ok] in E.
    change (c_dir (set_index c _)) with (c_dir c) in E. rewrite Hnp in E.
    rewrite run_bind, save_prog_run in E; [cbn [run] in E; injection E as <- _; done|done|].
    apply writable_child; [done|apply hash_normal; done| |].
    + rewrite lookup_insert_ne by (apply dir_not_child; [done|apply index_normal]). apply H.
    + rewrite lookup_insert_ne by (apply not_eq_sym, prog_path_ne_index; done). apply H. apply hash_normal. done.
Qed.
Lemma register_kills cwd dir dl A c f size count chunk h name f' : reached cwd dir dl A c f -> A !! h = None ->
  allowed cwd dir dl A f (CRegister size count chunk h name) -> f !! prog_path dir h = None -> valid_utf8 dir ->
  (forall h a, A !! h = Some a -> valid_utf8 (a_path a)) -> valid_utf8 (join2 dl name) -> ckilled cwd c f (CRegister size count chunk h name) f' ->
  (exists c', starts cwd dir dl f' c' /\ (reached cwd dir dl A c' f'
     \/ reached cwd dir dl (<[h := new_entry (join2 dl name) (Z.of_N size) (Z.of_N chunk)]> A) c' f'))
  \/ wont_start cwd dir dl f' \/ stuck cwd dir dl h f'
  \/ exists c' c2, starts cwd dir dl f' c' /\ crun cwd c' f' (CUnshare h) = Some (c2, f, AOk) /\ reached cwd dir dl A c2 f.
Proof.
  intros H Ha Hal Hno Hu Hua Hun Hk. pose proof (reached_synced _ _ _ _ _ _ H) as (Hcwd & Hs & Ed & Edl).
  pose proof Hal as (Hsz & Hch & Hw & Hnn). cbn [ckilled] in Hk.
  destruct (register_states _ _ _ _ _ _ _ _ _ Hs Ha Hsz Hch Hw Hk) as (d & Hst & Hfull).
  destruct (register_ok c f A size count chunk h name Hs Ha Hsz Hch Hw) as (r & x & f2 & Hrun & Hs2 & Hu2 & Hsh).
  specialize (Hfull _ _ Hrun). rewrite <- Ed in Hno.
  assert (crun cwd c f (CRegister size count chunk h name) = Some (set_index c (<[h:=r]> (c_index c)), f2, AExport x)) as Hcr.
  { cbn [crun]. rewrite Hrun. done. }
  apply (added_cases cwd c f A) in Hst as [->|[->|[Hx|[Hx|(l & rest & G1 & G2 & G3 & G4 & G5)]]]]; try done.
  - left. destruct (restart_reached _ _ _ _ _ _ H Hu Hua) as (c' & H1 & H2). eauto.
  - left. cbn [r_hash] in *. rewrite <- Hfull.
    assert (reached cwd dir dl (<[h := new_entry (join2 dl name) (Z.of_N size) (Z.of_N chunk)]> A) (set_index c (<[h:=r]> (c_index c))) f2) as H1.
    { eapply (re_call _ _ _ _ _ _ (CRegister size count chunk h name)); [exact H|exact Hal|exact Hcr|].
      cbn [aspec]. rewrite Ha, <- Ed, <- Edl. split; [done|]. split; [done|]. eauto. }
    destruct (restart_reached _ _ _ _ _ _ H1 Hu) as (c' & J1 & J2); [|eauto].
    intros h2 a2 H2. apply lookup_insert_Some in H2 as [[_ <-]|[_ H2]]; [exact Hun|eauto].
  - right. left. rewrite Ed, Edl in Hx. exact Hx.
  - right. right. left. cbn [r_hash] in Hx. rewrite Ed, Edl in Hx. exact Hx.
  - right. right. right. subst f'. cbn [r_hash] in *.
    destruct (cut_undone cwd c f A (mkRec (join2 (c_dl c) name) (Z.of_N size) h None (Z.of_N chunk))) with (dir := dir) (dl := dl) (l := l) as (c' & J1 & J2 & J3);
      cbn [r_hash r_size r_chunk]; unfold int64; try done; try lia; [rewrite Ed; done|]. exists c', (restarted c). done.
  - cbn [r_size]. unfold int64. lia.
  - cbn [r_chunk]. unfold int64. lia.
  - rewrite Ed. done.
Qed.
Lemma share_states cwd c f A p l f' : synced c f A -> file_at f (abs cwd p) = Some l -> small l -> A !! sha1 l = None ->
  killed f (share_file cwd c p) f' ->
  let r := mkRec (abs cwd p) (Z.of_nat (length l)) (sha1 l) None default_chunk_size in
  exists d, added_disk c f r d f' /\ forall f2 x, run f (share_file cwd c p) = (f2, Done x) ->
    f2 = <[prog_path (c_dir c) (sha1 l) := NFile d]> (<[join2 (c_dir c) index_name := NFile (marshal (set_index c (<[sha1 l := r]> (c_index c))))]> f).
Proof.
  intros H Hl Hsm Ha Hk r0. pose proof (sy_dir _ _ _ H) as Hd. pose proof (sha1_wf l) as Hw. unfold share_file in *. unfold small in Hsm.
  pose proof (generate_ok cwd f p l Hl) as Hgen. fold r0 in Hgen.
  destruct (new_progress_ok r0 (c_dir c)) as (b & Hnp & Hb); [cbn [r_size r0]; lia|cbn [r_chunk r0]; unfold default_chunk_size; lia|].
  destruct (bfill_brel b _ Hb) as (b2 & Hfill & _).
  exists (bserialize b2). split.
  - apply killed_bind in Hk as [Hk|(f1 & g & H1 & Hk)].
    { apply killed_pure in Hk; [|apply pure_generate]. left. done. }
    apply generate_runs in H1 as [-> Hg]. apply killed_on_ok in Hk as [->|(r & Er & Hk)]; [left; done|].
    destruct Hg as [(l2 & Hl2 & E)|(w & E)]; rewrite Er in E; [|done]. injection E as ->.
    assert (l2 = l) as -> by (rewrite Hl in Hl2; injection Hl2 as ->; done). fold r0 in Hk.
    apply killed_bind in Hk as [Hk|(f1 & [c1 e] & H1 & Hk)]; [apply (add_states _ _ A) in Hk as [->|[k ->]]; [left; done|right; left; eauto|done]|].
    apply killed_on_ok in Hk as [->|([] & -> & Hk)].
    { apply execs_killed, (add_states _ _ A) in H1 as [->|[k ->]]; [left; done|right; left; eauto|done]. }
    apply (add_done _ _ A) in H1 as [-> Hdc]; [|done]. rewrite Hdc, Hnp in Hk. cbn [rbind p_bits p_file] in Hk. rewrite Hfill in Hk. cbn [rbind] in Hk.
    assert (forall f3, killed (<[join2 (c_dir c) index_name := NFile (marshal (set_index c (<[r_hash r0 := r0]> (c_index c))))]> f)
      (save_prog (mkProg b2 (prog_path (c_dir c) (r_hash r0)))) f3 -> added_disk c f r0 (bserialize b2) f3) as Hsv.
    { intros f3 Hx. apply save_prog_states in Hx as [->|[k ->]]; [|right; right; eauto|done].
      right. left. exists (length (marshal (set_index c (<[r_hash r0 := r0]> (c_index c))))). rewrite take_ge by lia. done. }
    apply killed_bind in Hk as [Hk|(f2 & e2 & H2 & Hk)]; [apply Hsv; done|].
    apply execs_killed, Hsv in H2. apply killed_on_ok in Hk as [->|(? & _ & Hk)]; [done|]. apply killed_ret in Hk as ->. done.
  - intros f2 x E. rewrite run_bind, Hgen in E. cbn [on_ok] in E. rewrite run_bind, (run_add c f A r0 H Ha) in E. cbn [on_ok] in E.
    change (c_dir (set_index c _)) with (c_dir c) in E. rewrite Hnp in E. cbn [rbind p_bits p_file] in E. rewrite Hfill in E. cbn [rbind] in E.
    rewrite run_bind, save_prog_run in E; [cbn [run on_ok] in E; injection E as <- _; done|done|].
    apply writable_child; [done|apply hash_normal; done| |].
    + rewrite lookup_insert_ne by (apply dir_not_child; [done|apply index_normal]). apply H.
    + rewrite lookup_insert_ne by (apply not_eq_sym, prog_path_ne_index; done). apply H. apply hash_normal. done.
Qed.
Lemma share_kills cwd dir dl A c f p l f' : reached cwd dir dl A c f -> file_at f (abs cwd p) = Some l -> small l -> A !! sha1 l = None ->
  f !! prog_path dir (sha1 l) = None -> valid_utf8 dir -> (forall h a, A !! h = Some a -> valid_utf8 (a_path a)) -> valid_utf8 (abs cwd p) ->
  ckilled cwd c f (CShare p) f' ->
  (exists c', starts cwd dir dl f' c' /\ (reached cwd dir dl A c' f'
     \/ reached cwd dir dl (<[sha1 l := full_entry (abs cwd p) (Z.of_nat (length l)) 4194304]> A) c' f'))
  \/ wont_start cwd dir dl f' \/ stuck cwd dir dl (sha1 l) f'
  \/ exists c' c2, starts cwd dir dl f' c' /\ crun cwd c' f' (CUnshare (sha1 l)) = Some (c2, f, AOk) /\ reached cwd dir dl A c2 f.
Proof.
  intros H Hl Hsm Ha Hno Hu Hua Hun Hk. pose proof (reached_synced _ _ _ _ _ _ H) as (Hcwd & Hs & Ed & Edl).
  pose proof (sha1_wf l) as Hw. cbn [ckilled] in Hk.
  destruct (share_states _ _ _ _ _ _ _ Hs Hl Hsm Ha Hk) as (d & Hst & Hfull).
  destruct (share_ok cwd c f A p l Hcwd Hs Hl Hsm Ha) as (r & x & f2 & Hrun & Hs2 & Hu2).
  specialize (Hfull _ _ Hrun). rewrite <- Ed in Hno.
  assert (crun cwd c f (CShare p) = Some (set_index c (<[sha1 l:=r]> (c_index c)), f2, AOk)) as Hcr.
  { cbn [crun]. rewrite Hrun. done. }
  apply (added_cases cwd c f A) in Hst as [->|[->|[Hx|[Hx|(w & rest & G1 & G2 & G3 & G4 & G5)]]]]; try done.
  - left. destruct (restart_reached _ _ _ _ _ _ H Hu Hua) as (c' & H1 & H2). eauto.
  - left. cbn [r_hash] in *. rewrite <- Hfull.
    assert (reached cwd dir dl (<[sha1 l := full_entry (abs cwd p) (Z.of_nat (length l)) 4194304]> A) (set_index c (<[sha1 l:=r]> (c_index c))) f2) as H1.
    { eapply (re_call _ _ _ _ _ _ (CShare p)); [exact H| |exact Hcr|].
      - cbn [allowed]. intros l2 Hl2. rewrite Hl in Hl2. injection Hl2 as <-. exact Hsm.
      - cbn [aspec]. rewrite Hl, Ha, <- Ed. done. }
    destruct (restart_reached _ _ _ _ _ _ H1 Hu) as (c' & J1 & J2); [|eauto].
    intros h2 a2 H2. apply lookup_insert_Some in H2 as [[_ <-]|[_ H2]]; [exact Hun|eauto].
  - right. left. rewrite Ed, Edl in Hx. exact Hx.
  - right. right. left. cbn [r_hash] in Hx. rewrite Ed, Edl in Hx. exact Hx.
  - right. right. right. subst f'. cbn [r_hash] in *.
    destruct (cut_undone cwd c f A (mkRec (abs cwd p) (Z.of_nat (length l)) (sha1 l) None default_chunk_size)) with (dir := dir) (dl := dl) (l := w) as (c' & J1 & J2 & J3);
      cbn [r_hash r_size r_chunk]; unfold int64, default_chunk_size; try done; try (unfold small in Hsm; lia); [rewrite Ed; done|]. exists c', (restarted c). done.
  - cbn [r_size]. unfold int64. unfold small in Hsm. lia.
  - rewrite Ed. done.
Qed.
