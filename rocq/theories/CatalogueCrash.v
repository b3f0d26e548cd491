(** Proofs about crashes of the daemon (C32). *)
From Verif Require Export CrashSpec CatalogueDownload.
From Coq Require Import ZifyBool ZifyNat ZifyN.
Ltac Zify.zify_post_hook ::= Z.div_mod_to_equations.

(** ** What a kill leaves on the disk *)
Fixpoint pure_io {A : Type} (m : io A) : Prop :=
  match m with
  | Do o k => match o with OStat _ | ORead _ | OOpen _ => True | _ => False end /\ forall r, pure_io (k r)
  | _ => True
  end.
Lemma partial_pure f o f' : match o with OStat _ | ORead _ | OOpen _ => True | _ => False end -> partial f o f' -> f' = f.
Proof. intros Ho H. destruct H; done. Qed.
Lemma killed_pure {A : Type} (m : io A) f f' : pure_io m -> killed f m f' -> f' = f.
Proof.
  intros Hp H. induction H as [|f o k f' H|f o k r f1 f' H _ IH]; [done| |].
  - apply (partial_pure _ o); [apply Hp|done].
  - destruct Hp as [Ho Hp]. apply ostep_read_only in H as [-> _]; [|done]. apply IH, Hp.
Qed.
Lemma pure_bind {A B : Type} (m : io A) (g : A -> io B) : pure_io m -> (forall a, pure_io (g a)) -> pure_io (bind m g).
Proof.
  intros Hm Hg. induction m as [a|w| |o k IH]; cbn [bind pure_io] in *; [apply Hg|done|done|].
  destruct Hm as [Ho Hk]. split; [done|]. intros r. apply IH, Hk.
Qed.
Lemma pure_generate cwd p : pure_io (generate_record cwd p).
Proof.
  unfold generate_record, hash_path. split; [done|]. intros r. destruct r; try exact I. cbn [bind pure_io].
  split; [done|]. intros r. destruct r; exact I.
Qed.
Lemma pure_get_record c h : pure_io (get_record c h).
Proof.
  unfold get_record, fill, load_prog. destruct (c_index c !! h) as [r|]; [|exact I]. destruct (r_prog r); [exact I|].
  cbn [bind pure_io]. split; [done|]. intros rep. destruct rep; try exact I. 
  apply pure_bind; [destruct (bdeserialize d); exact I|]. intros [p|w|w]; exact I.
Qed.

(** the states of a file being overwritten with [d] *)
Definition torn (f : fs) (p : path) (d : list byte) (f' : fs) : Prop :=
  f' = f \/ exists k, f' = <[p := NFile (take k d)]> f.
Lemma torn_do {A : Type} f p d (g : reply -> A) f' : killed f (Do (OWrite p d) (fun r => Ret (g r))) f' -> torn f p d f'.
Proof.
  intros H. inversion H as [|? ? ? ? Hp|? ? ? r f1 ? Hs Hk]; subst.
  - left. done.
  - inversion Hp; subst; [left; done|]. right. eauto.
  - apply killed_ret in Hk as ->. destruct Hs as [r f1 E|f1 Hp].
    + cbn [do_op] in E. destruct (writable f p); simplify_eq; [|left; done]. right. exists (length d). rewrite take_ge by lia. done.
    + inversion Hp; subst; [left; done|]. right. eauto.
Qed.
Lemma torn_other f p d f' q : torn f p d f' -> q <> p -> f' !! q = f !! q.
Proof. intros [->|[k ->]] Hq; [done|]. apply lookup_insert_ne. done. Qed.
Lemma torn_at f p d f' : torn f p d f' -> f' !! p = f !! p \/ exists k, f' !! p = Some (NFile (take k d)).
Proof. intros [->|[k ->]]; [left; done|]. right. exists k. apply lookup_insert. Qed.

(** all disk states of a crash of a call about [h] that writes index [c1] *)
Definition crash_disk (c : cat) (f : fs) (c1 : cat) (h : hash) (f' : fs) : Prop :=
  (forall q, q <> join2 (c_dir c) index_name -> q <> prog_path (c_dir c) h -> f' !! q = f !! q)
  /\ (f' !! join2 (c_dir c) index_name = f !! join2 (c_dir c) index_name
      \/ exists k, f' !! join2 (c_dir c) index_name = Some (NFile (take k (marshal c1)))).
Lemma crash_refl c f c1 h : crash_disk c f c1 h f.
Proof. split; [done|left; done]. Qed.
Lemma crash_index c f c1 h f' : torn f (join2 (c_dir c) index_name) (marshal c1) f' -> crash_disk c f c1 h f'.
Proof. intros H. split; [intros q Hq _; apply (torn_other _ _ _ _ _ H); done|]. apply torn_at. done. Qed.
Lemma crash_prog c f c1 h f1 d f' : clean_abs (c_dir c) -> hash_wf h -> crash_disk c f c1 h f1 ->
  torn f1 (prog_path (c_dir c) h) d f' -> crash_disk c f c1 h f'.
Proof.
  intros Hd Hw [H1 H2] H. split.
  - intros q Hq1 Hq2. rewrite (torn_other _ _ _ _ _ H) by done. apply H1; done.
  - rewrite (torn_other _ _ _ _ _ H); [done|]. apply not_eq_sym, prog_path_ne_index; done.
Qed.

Lemma killed_add c r f f' : c_inddir c = c_dir c -> killed f (add_record c r) f' ->
  torn f (join2 (c_dir c) index_name) (marshal (set_index c (<[r_hash r := r]> (c_index c)))) f'.
Proof.
  intros Hd H. unfold add_record in H. destruct (c_index c !! r_hash r).
  - apply killed_ret in H as ->. left. done.
  - unfold save_index in H. cbn [bind set_index c_inddir] in H. rewrite Hd in H. apply torn_do in H. done.
Qed.
Lemma killed_on_ok {A B : Type} c (r : res A) (k : A -> io (cat * res B)) f f' : killed f (on_ok c r k) f' ->
  f' = f \/ exists a, r = Ok a /\ killed f (k a) f'.
Proof.
  destruct r as [a|w|w]; cbn [on_ok]; intros H; [eauto|apply killed_ret in H as ->; auto|apply killed_die in H as ->; auto].
Qed.
Lemma killed_save_prog p d h b f f' : p = mkProg b (prog_path d h) -> clean_abs d -> killed f (save_prog p) f' ->
  torn f (prog_path d h) (bserialize b) f'.
Proof.
  intros -> Hd H. unfold save_prog in H. cbn [p_file p_bits] in H. rewrite join1_clean in H by (apply prog_path_clean; done).
  apply torn_do in H. done.
Qed.
Lemma new_progress_file r d pr : new_progress r d = Ok pr -> exists b, pr = mkProg b (prog_path d (r_hash r)).
Proof.
  unfold new_progress. destruct (chunk_count _ _); [|done|done]. cbn [rbind].
  destruct (new_bitset _); [|done|done]. cbn [rbind]. intros [= <-]. eauto.
Qed.

Lemma killed_share cwd c p f f' : clean_abs (c_dir c) -> c_inddir c = c_dir c -> killed f (share_file cwd c p) f' ->
  f' = f \/ exists l, file_at f (abs cwd p) = Some l /\
    crash_disk c f (set_index c (<[sha1 l := mkRec (abs cwd p) (Z.of_nat (length l)) (sha1 l) None default_chunk_size]> (c_index c))) (sha1 l) f'.
Proof.
  intros Hd Hi H. unfold share_file in H. apply killed_bind in H as [H|(f1 & g & H1 & H)].
  - apply killed_pure in H; [|apply pure_generate]. auto.
  - apply generate_runs in H1 as [-> Hg]. apply killed_on_ok in H as [->|(r & Er & H)]; [auto|].
    destruct Hg as [(l & Hl & E)|(w & E)]; rewrite Er in E; simplify_eq. right. exists l. split; [done|].
    set (r0 := mkRec (abs cwd p) (Z.of_nat (length l)) (sha1 l) None default_chunk_size) in *.
    change (<[sha1 l:=r0]> (c_index c)) with (<[r_hash r0:=r0]> (c_index c)). change (sha1 l) with (r_hash r0).
    apply killed_bind in H as [H|(f1 & [c1 e] & H1 & H)].
    + apply killed_add in H; [|done]. apply crash_index. done.
    + pose proof H1 as Hk. apply execs_killed, killed_add in Hk; [|done]. apply (crash_index _ _ _ (r_hash r0)) in Hk.
      apply killed_on_ok in H as [->|([] & -> & H)]; [done|].
      assert (c_dir c1 = c_dir c) as Hdc.
      { apply add_record_outcome in H1 as (? & ? & ? & ? & _). simplify_eq. done. }
      rewrite Hdc in H. destruct (new_progress r0 (c_dir c)) as [pr|w|w] eqn:Hpr; cbn [rbind] in H;
        [|apply killed_ret in H as ->; done|apply killed_die in H as ->; done].
      apply new_progress_file in Hpr as [b ->]. cbn [p_bits p_file] in H.
      destruct (bfill b) as [b2|w|w]; cbn [rbind] in H; [|apply killed_ret in H as ->; done|apply killed_die in H as ->; done].
      apply killed_bind in H as [H|(f2 & e2 & H2 & H)].
      * apply (killed_save_prog _ (c_dir c) (r_hash r0) b2) in H; [|done|done].
        apply (crash_prog _ _ _ _ f1 (bserialize b2)); [done|apply sha1_wf|done|done].
      * apply execs_killed in H2. apply (killed_save_prog _ (c_dir c) (r_hash r0) b2) in H2; [|done|done].
        assert (f' = f2) as -> by (apply killed_on_ok in H as [->|(? & _ & H)]; [done|]; apply killed_ret in H; done).
        apply (crash_prog _ _ _ _ f1 (bserialize b2)); [done|apply sha1_wf|done|done].
Qed.
Lemma killed_register c size count chunk h name f f' : clean_abs (c_dir c) -> c_inddir c = c_dir c -> hash_wf h ->
  killed f (register_download c size count chunk h name) f' ->
  crash_disk c f (set_index c (<[h := mkRec (join2 (c_dl c) name) (int_of_u64 size) h None (Z.of_N chunk)]> (c_index c))) h f'.
Proof.
  intros Hd Hi Hw H. unfold register_download in H. set (r0 := mkRec _ _ _ _ _) in *.
  change (<[h:=r0]> (c_index c)) with (<[r_hash r0:=r0]> (c_index c)). change h with (r_hash r0).
  apply killed_bind in H as [H|(f1 & [c1 e] & H1 & H)].
  - apply killed_add in H; [|done]. apply crash_index. done.
  - pose proof H1 as Hk. apply execs_killed, killed_add in Hk; [|done]. apply (crash_index _ _ _ (r_hash r0)) in Hk.
    apply killed_on_ok in H as [->|([] & -> & H)]; [done|].
    assert (c_dir c1 = c_dir c) as Hdc.
    { apply add_record_outcome in H1 as (? & ? & ? & ? & _). simplify_eq. done. }
    rewrite Hdc in H. destruct (new_progress r0 (c_dir c)) as [pr|w|w] eqn:Hpr;
      [|apply killed_ret in H as ->; done|apply killed_die in H as ->; done].
    apply new_progress_file in Hpr as [b ->].
    apply killed_bind in H as [H|(f2 & e2 & H2 & H)].
    + apply (killed_save_prog _ (c_dir c) (r_hash r0) b) in H; [|done|done].
      apply (crash_prog _ _ _ _ f1 (bserialize b)); done.
    + apply execs_killed in H2. apply (killed_save_prog _ (c_dir c) (r_hash r0) b) in H2; [|done|done].
      apply killed_ret in H as ->. apply (crash_prog _ _ _ _ f1 (bserialize b)); done.
Qed.

(** the record a call works with *)
Lemma get_record_synced c f A h f' c' e : synced c f A -> execs f (get_record c h) f' (Done (c', e)) ->
  f' = f /\ ((exists w, e = Err w) /\ c' = c \/ exists r b a, A !! h = Some a /\ e = Ok (r, mkProg b (prog_path (c_dir c) h))
     /\ c' = set_index c (<[h := r]> (c_index c)) /\ marshal c' = marshal c /\ r_path r = a_path a /\ r_chunk r = a_chunk a /\ r_hash r = h).
Proof.
  intros H Hr. apply get_record_runs in Hr as [-> [(r & p & -> & -> & Hp & r0 & Hr0 & -> & Hc)|[Hw ->]]]; [|auto].
  split; [done|]. right. pose proof (sy_ent _ _ _ H h) as He. rewrite Hr0 in He. destruct (A !! h) as [a|]; [|done].
  destruct He as (R1 & R2 & R3 & R4 & R5 & R6 & R7 & R8 & b & R9 & R10 & R11).
  cbn [set_prog r_hash r_path r_chunk].
  assert (exists b', p = mkProg b' (prog_path (c_dir c) h)) as [b' ->].
  { destruct Hc as [Hc|(Hc1 & Hc2 & Hc3)].
    - destruct R11 as [R11|R11]; rewrite Hc in R11; simplify_eq. eauto.
    - cbn [set_prog r_hash] in Hc2. rewrite R1 in Hc2. destruct p as [pb pf]. cbn [p_file] in Hc2. subst. eauto. }
  eexists _, _, a. split; [done|]. split; [done|]. split; [done|]. split; [apply marshal_fill; done|]. done.
Qed.
Lemma killed_unshare c f A h f' : synced c f A -> killed f (unshare_file c h) f' ->
  f' = f \/ (exists a, A !! h = Some a) /\ crash_disk c f (set_index c (delete h (c_index c))) h f'.
Proof.
  intros H Hk. unfold unshare_file in Hk. apply killed_bind in Hk as [Hk|(f1 & [c1 g] & H1 & Hk)].
  - apply killed_pure in Hk; [|apply pure_get_record]. auto.
  - apply (get_record_synced _ _ A) in H1 as [-> Hg]; [|done]. apply killed_on_ok in Hk as [->|(rp & -> & Hk)]; [auto|].
    destruct Hg as [[[w Hg] _]|(r & b & a & Ha & Hg & -> & Hm & Hp & Hc & Hh)]; [done|]. simplify_eq.
    right. split; [eauto|]. pose proof (sy_dir _ _ _ H) as Hd.
    assert (hash_wf (r_hash r)) as Hw by (apply (entries_wf _ _ _ _ _ (sy_ent _ _ _ H)); rewrite Ha; done).
    cbn [snd fst] in Hk.
    assert (forall f2, killed f (delete_prog (mkProg b (prog_path (c_dir c) (r_hash r)))) f2 ->
       crash_disk c f (set_index c (delete (r_hash r) (c_index c))) (r_hash r) f2) as Hdel.
    { intros f2 Hx. unfold delete_prog in Hx. cbn [p_file] in Hx. rewrite join1_clean in Hx by (apply prog_path_clean; done).
      assert (f2 = f \/ f2 = delete (prog_path (c_dir c) (r_hash r)) f) as [-> | ->]; [|apply crash_refl|].
      - inversion Hx as [|? ? ? ? Hpa|? ? ? rr f3 ? Hs Hkk]; subst; [auto|inversion Hpa; subst; auto|].
        apply killed_ret in Hkk as ->. destruct Hs as [rr f3 E|f3 Hpa]; [|inversion Hpa; subst; auto].
        cbn [do_op] in E. repeat case_match; simplify_eq; auto.
      - split; [intros q _ Hq; apply lookup_delete_ne; done|]. left. apply lookup_delete_ne. apply prog_path_ne_index; done. }
    apply killed_bind in Hk as [Hk|(f2 & e & H2 & Hk)]; [apply Hdel; done|].
    apply execs_killed, Hdel in H2. apply killed_on_ok in Hk as [->|([] & -> & Hk)]; [done|].
    unfold remove_record, save_index in Hk. cbn [bind set_index c_inddir c_index] in Hk. rewrite (sy_ind _ _ _ H) in Hk.
    apply torn_do in Hk.
    assert (marshal (set_index (set_index c (<[r_hash r:=r]> (c_index c))) (delete (r_hash r) (<[r_hash r:=r]> (c_index c))))
      = marshal (set_index c (delete (r_hash r) (c_index c)))) as Hmm.
    { rewrite delete_insert_delete. done. }
    change (marshal _) with (marshal (set_index (set_index c (<[r_hash r:=r]> (c_index c))) (delete (r_hash r) (<[r_hash r:=r]> (c_index c))))) in Hk at 1.
    rewrite Hmm in Hk. destruct H2 as [G1 G2]. split.
    + intros q Hq1 Hq2. rewrite (torn_other _ _ _ _ _ Hk) by done. apply G1; done.
    + apply torn_at in Hk as [->|Hk]; [done|]. right. done.
Qed.
Lemma writable_dir f p : writable f p = true -> f !! p <> Some NDir.
Proof. unfold writable, is_dir. intros H E. rewrite E in H. rewrite andb_false_r in H. done. Qed.
Lemma killed_save c f A h i data f' : synced c f A -> killed f (save_chunk c h i data) f' ->
  f' = f \/ exists a, A !! h = Some a /\ forall q, q <> a_path a \/ f !! q = Some NDir -> q <> prog_path (c_dir c) h -> f' !! q = f !! q.
Proof.
  intros H Hk. unfold save_chunk in Hk. apply killed_bind in Hk as [Hk|(f1 & [c1 g] & H1 & Hk)].
  - apply killed_pure in Hk; [|apply pure_get_record]. auto.
  - apply (get_record_synced _ _ A) in H1 as [-> Hg]; [|done].
    destruct Hg as [[[w ->] _]|(r & b & a & Ha & -> & -> & Hm & Hp & Hc & Hh)]; [apply killed_die in Hk as ->; auto|].
    right. exists a. split; [done|]. pose proof (sy_dir _ _ _ H) as Hd. intros q Hq1 Hq2.
    assert (forall f2, killed f (save_chunk_data r (Z.of_N i) data) f2 -> f2 !! q = f !! q) as Hsd.
    { intros f2 Hx. unfold save_chunk_data in Hx. rewrite Hp in Hx.
      inversion Hx as [|? ? ? ? Hpa|? ? ? rr f3 ? Hs Hkk]; subst; [done| |].
      - destruct Hq1 as [Hq1|Hq1]; [apply (partial_frame _ _ _ _ Hpa); done|].
        inversion Hpa as [|?|? ? ? k Hw|]; subst; [done|]. apply lookup_insert_ne. intros E0. rewrite E0 in Hw. apply writable_dir in Hw. done.
      - apply killed_ret in Hkk as ->. destruct Hq1 as [Hq1|Hq1]; [apply (ostep_frame _ _ _ _ _ Hs); done|].
        destruct Hs as [rr f3 E|f3 Hpa].
        + cbn [do_op] in E. destruct (writable f (a_path a)) eqn:Hw; [|simplify_eq; done].
          destruct (decide (q = a_path a)) as [->|Hne]; [apply writable_dir in Hw; done|].
          repeat case_match; simplify_eq; apply lookup_insert_ne; done.
        + inversion Hpa as [|?|? ? ? k Hw|]; subst; [done|]. apply lookup_insert_ne. intros E0. rewrite E0 in Hw. apply writable_dir in Hw. done. }
    apply killed_bind in Hk as [Hk|(f2 & e & H2 & Hk)]; [apply Hsd; done|].
    apply execs_killed, Hsd in H2. apply killed_on_ok in Hk as [->|([] & -> & Hk)]; [done|].
    cbn [p_bits p_file] in Hk. destruct (bset b i) as [b2|w|w]; [|apply killed_die in Hk as ->; done..].
    apply killed_bind in Hk as [Hk|(f3 & e & H3 & Hk)].
    + apply (killed_save_prog _ (c_dir c) h b2) in Hk; [|done|done]. rewrite (torn_other _ _ _ _ _ Hk) by done. done.
    + apply execs_killed, (killed_save_prog _ (c_dir c) h b2) in H3; [|done|done]. apply killed_ret in Hk as ->.
      rewrite (torn_other _ _ _ _ _ H3) by done. done.
Qed.

(** ** Starting again *)
Lemma get_entry c f h r a : c_index c !! h = Some r -> r_prog r = None -> entry_rel f (c_dir c) h r a ->
  says c f h (Some a).
Proof.
  intros Hr Hp Hrel. pose proof Hrel as (R1 & R2 & R3 & R4 & R5 & R6 & R7 & R8 & b & R9 & R10 & R11).
  unfold says, contains, get_record, fill. rewrite Hr, Hp.
  eexists _, _. rewrite !run_bind. rewrite (load_prog_ok f (c_dir c) h r b); [|done|right; apply R9|done].
  cbn [run on_ok fst snd]. split; [done|].
  apply (shows_export f (c_dir c) h (set_prog r (mkProg b (prog_path (c_dir c) h))) a b); [|done].
  split_and!; cbn [set_prog r_hash r_path r_size r_chunk r_prog]; try done; try lia. exists b. eauto.
Qed.
Lemma starts_torn cwd dir dl f m k c1 : is_rooted cwd = true -> clean_abs dir -> f !! dir = Some NDir ->
  m = marshal c1 -> f !! join2 dir index_name = Some (NFile (take k m)) -> k < length m -> wont_start cwd dir dl f.
Proof.
  intros Hc Hd Hdir -> Hi Hk pid now. exists "json".
  rewrite (open_existing pid now cwd dir dl f (take k (marshal c1))); [|done|rewrite abs_id by done; done..].
  unfold ind_load. cbn [run do_op new_cat c_dir]. rewrite abs_id by done. rewrite Hi.
  rewrite (C30_truncated_lemma c1 (take k (marshal c1)) (drop k (marshal c1))); [done|rewrite take_drop; done|].
  intros E. apply (f_equal length) in E. rewrite drop_length in E. cbn [length] in E. lia.
Qed.
(** starting on a disk whose index file is that of [c1] *)
Lemma starts_whole cwd dir dl f c1 : is_rooted cwd = true -> clean_abs dir -> clean_abs dl -> f !! dir = Some NDir ->
  cat_ints c1 -> f !! join2 dir index_name = Some (NFile (marshal c1)) ->
  starts cwd dir dl f (mkCat dir dl (c_pid c1) (c_touched c1) (san_irec <$> c_index c1) (sanitize (c_inddir c1))).
Proof.
  intros Hc Hd Hdl Hdir Hci Hi pid now.
  rewrite (open_existing pid now cwd dir dl f (marshal c1)); [|done|rewrite abs_id by done; done..].
  rewrite (ind_load_ok _ f (san_irec <$> c_index c1) (c_pid c1) (c_touched c1) (sanitize (c_inddir c1)) (marshal c1)).
  - unfold new_cat. cbn [c_dir c_dl]. rewrite !abs_id by done. done.
  - unfold new_cat. cbn [c_dir]. rewrite abs_id by done. done.
  - apply unmarshal_marshal_cat. done.
Qed.
Lemma says_recovered (dl : path) (pid t : Z) (d dir : path) (f f' : fs) (m m1 : gmap (list byte) irec) (A : astate) (h h' : hash) : entries f dir m A -> h' <> h ->
  clean_abs dir -> hash_wf h ->
  (forall q, q <> join2 dir index_name -> q <> prog_path dir h -> f' !! q = f !! q) ->
  m1 !! h' = m !! h' -> (forall a, A !! h' = Some a -> valid_utf8 (a_path a)) ->
  says (mkCat dir dl pid t (san_irec <$> m1) d) f' h' (A !! h').
Proof.
  intros He Hne Hd Hw Hf Hm Hu. specialize (He h'). rewrite <- Hm in He.
  destruct (m1 !! h') as [r|] eqn:Er, (A !! h') as [a|] eqn:Ea; try done.
  - apply (get_entry _ _ _ (san_irec r)); cbn [c_index c_dir]; [rewrite lookup_fmap, Er; done|done|].
    destruct He as (R1 & R2 & R3 & R4 & R5 & R6 & R7 & R8 & b & R9 & R10 & R11).
    unfold san_irec. split_and!; cbn [r_hash r_path r_size r_chunk r_prog]; try done; try lia.
    + rewrite R3. apply sanitize_id_iff. auto.
    + exists b. split; [done|]. split; [|left; done]. rewrite Hf; [done|apply prog_path_ne_index; done|].
      intros E. apply prog_path_inj in E; done.
  - unfold says, contains, get_record. cbn [c_index]. rewrite lookup_fmap, Er. done.
Qed.

Lemma C32_gen cwd c f A c1 h f' : is_rooted cwd = true -> synced c f A -> hash_wf h ->
  (forall h a, A !! h = Some a -> valid_utf8 (a_path a)) ->
  c_inddir c1 = c_inddir c -> cat_ints c1 -> (forall h', h' <> h -> c_index c1 !! h' = c_index c !! h') ->
  crash_disk c f c1 h f' ->
  wont_start cwd (c_dir c) (c_dl c) f' \/
  exists c', starts cwd (c_dir c) (c_dl c) f' c' /\ forall h', h' <> h -> says c' f' h' (A !! h').
Proof.
  intros Hcwd H Hw Hu Hid Hci Hm [Hf Hi]. pose proof (sy_dir _ _ _ H) as Hd. pose proof (sy_dl _ _ _ H) as Hdl.
  assert (f' !! c_dir c = Some NDir) as Hdir.
  { rewrite Hf; [apply H| |]; apply not_eq_sym, dir_not_child; try done; [apply index_normal|apply hash_normal; done]. }
  destruct Hi as [Hi|[k Hi]].
  - right. rewrite (sy_index _ _ _ H) in Hi. eexists. split; [apply (starts_whole cwd (c_dir c) (c_dl c) f' c); try done; apply (synced_ints _ _ _ H)|].
    intros h' Hne. apply (says_recovered _ _ _ _ _ f _ (c_index c) _ _ h); try done; [apply H|]. intros a Ha. apply (Hu h'). done.
  - destruct (decide (k < length (marshal c1))) as [Hk|Hk].
    + left. apply (starts_torn _ _ _ _ (marshal c1) k c1); done.
    + right. rewrite take_ge in Hi by lia. eexists. split; [apply (starts_whole cwd (c_dir c) (c_dl c) f' c1); done|].
      intros h' Hne. apply (says_recovered _ _ _ _ _ f _ (c_index c) _ _ h); try done; [apply H|auto|]. intros a Ha. apply (Hu h'). done.
Qed.
Lemma cat_ints_insert c h r : cat_ints c -> hash_wf h -> hash_wf (r_hash r) -> int64 (r_size r) -> int64 (r_chunk r) ->
  cat_ints (set_index c (<[h := r]> (c_index c))).
Proof.
  intros (H1 & H2 & H3) Hw Hr Hs Hc. split_and!; [done|done|]. cbn [set_index c_index]. intros h' r' Hl.
  apply lookup_insert_Some in Hl as [[<- <-]|[_ Hl]]; [done|apply H3; done].
Qed.
Lemma cat_ints_delete c h : cat_ints c -> cat_ints (set_index c (delete h (c_index c))).
Proof.
  intros (H1 & H2 & H3). split_and!; [done|done|]. cbn [set_index c_index]. intros h' r' Hl.
  apply lookup_delete_Some in Hl as [_ Hl]. apply H3. done.
Qed.
Lemma int64_u64 n : (n < 18446744073709551616)%N -> int64 (int_of_u64 n).
Proof.
  intros H. unfold int64, int_of_u64. destruct (N.ltb_spec n p63) as [Hx|Hx]; change p63 with 9223372036854775808%N in Hx; [lia|].
  change (Z.of_N p64) with 18446744073709551616%Z. lia.
Qed.

(** the whole: either the index file is torn, which can happen in every call but
    SaveChunk, and the daemon does not start; or it starts and every other entry
    is as before *)
Lemma C32_lemma cwd dir dl A c f q f' : reached cwd dir dl A c f -> allowed cwd dir dl A f q ->
  valid_utf8 dir -> (forall h a, A !! h = Some a -> valid_utf8 (a_path a)) ->
  ckilled cwd c f q f' ->
  (~ is_save q /\ wont_start cwd dir dl f') \/
  (exists c', starts cwd dir dl f' c' /\ forall h', ~ about cwd f q h' -> says c' f' h' (A !! h')).
Proof.
  intros H Hal Hdu Hu Hk. pose proof (reached_synced _ _ _ _ _ _ H) as (Hcwd & Hs & <- & <-).
  pose proof (sy_dir _ _ _ Hs) as Hd. pose proof (sy_ind _ _ _ Hs) as Hi. pose proof (synced_ints _ _ _ Hs) as Hci.
  pose proof (sy_dl _ _ _ Hs) as Hdl.
  assert (exists c', starts cwd (c_dir c) (c_dl c) f c' /\ forall h', says c' f h' (A !! h')) as Hsame.
  { eexists. split; [apply (starts_whole cwd (c_dir c) (c_dl c) f c); try done; apply Hs|].
    intros h'. pose proof (sy_ent _ _ _ Hs h') as He. destruct (c_index c !! h') as [r|] eqn:Er, (A !! h') as [a|] eqn:Ea; try done.
    - apply (get_entry _ _ _ (san_irec r)); cbn [c_index c_dir]; [rewrite lookup_fmap, Er; done|done|].
      destruct He as (R1 & R2 & R3 & R4 & R5 & R6 & R7 & R8 & b & R9 & R10 & R11).
      unfold san_irec. split_and!; cbn [r_hash r_path r_size r_chunk r_prog]; try done; try lia.
      + rewrite R3. apply sanitize_id_iff. apply (Hu h'). done.
      + exists b. split; [done|]. split; [done|]. left. done.
    - unfold says, contains, get_record. cbn [c_index]. rewrite lookup_fmap, Er. done. }
  destruct q as [p|size count chunk h name|h|h i data|order|h|h|fuel h i|h|pid now]; cbn [ckilled about allowed is_save] in *; try done.
  - apply killed_share in Hk as [->|(l & Hl & Hk)]; [| |done|done].
    { right. destruct Hsame as (c' & H1 & H2). exists c'. auto. }
    pose proof (Hal l Hl) as Hsm. unfold small in Hsm. pose proof (sha1_wf l) as Hw.
    apply (C32_gen cwd c f A _ (sha1 l)) in Hk as [Hk|(c' & H1 & H2)]; try done.
    + left. split; [tauto|done].
    + right. exists c'. split; [done|]. intros h' Hn. apply H2. intros ->. apply Hn. exists l. done.
    + apply cat_ints_insert; try done; unfold int64, default_chunk_size; cbn [r_size r_chunk]; lia.
    + intros h' Hne. cbn [set_index c_index]. apply lookup_insert_ne. done.
  - destruct Hal as (H1 & H2 & H3 & H4).
    apply killed_register in Hk; try done.
    apply (C32_gen cwd c f A _ h) in Hk as [Hk|(c' & G1 & G2)]; try done.
    + left. split; [tauto|done].
    + right. exists c'. split; [done|]. intros h' Hn. apply G2. done.
    + apply cat_ints_insert; try done; cbn [r_size r_chunk]; [apply int64_u64; lia|unfold int64; lia].
    + intros h' Hne. cbn [set_index c_index]. apply lookup_insert_ne. done.
  - apply (killed_unshare _ _ A) in Hk as [->|[[a Ea] Hk]]; [| |done].
    { right. destruct Hsame as (c' & H1 & H2). exists c'. auto. }
    assert (hash_wf h) as Hw by (apply (entries_wf _ _ _ _ _ (sy_ent _ _ _ Hs)); rewrite Ea; done).
    apply (C32_gen cwd c f A _ h) in Hk as [Hk|(c' & G1 & G2)]; try done.
    + left. split; [tauto|done].
    + right. exists c'. split; [done|]. intros h' Hn. apply G2. done.
    + apply cat_ints_delete. done.
    + intros h' Hne. cbn [set_index c_index]. apply lookup_delete_ne. done.
  - destruct Hal as (Hi16 & a & Ha & Hpar). right.
    assert (hash_wf h) as Hw by (apply (entries_wf _ _ _ _ _ (sy_ent _ _ _ Hs)); rewrite Ha; done).
    apply (killed_save _ _ A) in Hk as [->|(a' & Ha' & Hk)]; [| |done].
    { destruct Hsame as (c' & H1 & H2). exists c'. auto. }
    assert (a' = a) as -> by congruence.
    assert (forall q, parent q = c_dir c -> q <> prog_path (c_dir c) h -> f' !! q = f !! q) as Hin.
    { intros q Hq Hne. apply Hk; [|done]. left. intros ->. done. }
    eexists. split.
    + apply (starts_whole cwd (c_dir c) (c_dl c) f' c); try done.
      * rewrite Hk; [apply Hs|right; apply Hs|]. apply not_eq_sym, dir_not_child; [done|apply hash_normal; done].
      * rewrite Hin; [apply Hs|apply parent_index; done|]. apply not_eq_sym, prog_path_ne_index; done.
    + intros h' Hne.
      pose proof (sy_ent _ _ _ Hs h') as He. destruct (c_index c !! h') as [r|] eqn:Er, (A !! h') as [a'|] eqn:Ea; try done.
      * apply (get_entry _ _ _ (san_irec r)); cbn [c_index c_dir]; [rewrite lookup_fmap, Er; done|done|].
        destruct He as (R1 & R2 & R3 & R4 & R5 & R6 & R7 & R8 & b & R9 & R10 & R11).
        unfold san_irec. split_and!; cbn [r_hash r_path r_size r_chunk r_prog]; try done; try lia.
        -- rewrite R3. apply sanitize_id_iff. apply (Hu h'). done.
        -- exists b. split; [done|]. split; [|left; done]. rewrite Hin; [done|apply parent_prog; done|].
           intros E. apply prog_path_inj in E; done.
      * unfold says, contains, get_record. cbn [c_index]. rewrite lookup_fmap, Er. done.
Qed.
