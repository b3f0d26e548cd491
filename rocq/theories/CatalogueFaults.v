(** Proofs about the catalogue, part 6: calls whose I/O may fail at any point, in
    any state of memory and disk. *)
From Verif Require Export CatalogueReach.
From Coq Require Import ZifyBool ZifyNat ZifyN.
Ltac Zify.zify_post_hook ::= Z.div_mod_to_equations.

(** one write that reports success *)
Lemma ostep_write_ok f p d f' : ostep f (OWrite p d) ROk f' -> writable f p = true /\ f' = <[p := NFile d]> f.
Proof. inversion 1 as [? ? E|]; subst. cbn [do_op] in E. destruct (writable f p); simplify_eq. done. Qed.
Lemma ostep_remove_ok f p f' : ostep f (ORemove p) ROk f' -> (exists l, f !! p = Some (NFile l)) /\ f' = delete p f.
Proof. inversion 1 as [? ? E|]; subst. cbn [do_op] in E. destruct (f !! p) as [[l|]|]; simplify_eq. eauto. Qed.
Lemma ostep_write_at_ok f p off d f' : ostep f (OWriteAt p off d) ROk f' ->
  writable f p = true /\ (0 <= off)%Z /\ f' = <[p := NFile (write_at (contents_or_empty f p) (Z.to_nat off) d)]> f.
Proof.
  inversion 1 as [? ? E|]; subst. cbn [do_op] in E. destruct (writable f p); [|simplify_eq].
  destruct (Z.ltb_spec off 0); simplify_eq. done.
Qed.
Lemma ostep_read_only f o r f' : (match o with OStat _ | ORead _ | OOpen _ => True | _ => False end) ->
  ostep f o r f' -> f' = f /\ (do_op f o = (r, f) \/ r = RFail false).
Proof.
  intros Ho H. destruct H as [r f' E|f' E].
  - assert (f' = f) as ->; [|auto]. destruct o; try done; cbn [do_op] in E; repeat case_match; simplify_eq; done.
  - assert (f' = f) as ->; [|auto]. destruct E; done.
Qed.
Lemma save_index_runs c f f' e : execs f (save_index c) f' (Done e) ->
  (e = Ok tt /\ writable f (join2 (c_inddir c) index_name) = true /\ f' = <[join2 (c_inddir c) index_name := NFile (marshal c)]> f)
  \/ (exists w, e = Err w) /\ (forall q, q <> join2 (c_inddir c) index_name -> f' !! q = f !! q).
Proof.
  intros H. apply execs_do in H as (r & f1 & Hs & H). apply execs_ret in H as [-> [= ->]].
  destruct r; cbn [ok_or];
    try (right; split; [eauto|]; intros q Hq; apply (ostep_frame _ _ _ _ q Hs); cbn [touches]; done).
  left. apply ostep_write_ok in Hs as [? ?]. done.
Qed.
Lemma save_prog_runs p f f' e : execs f (save_prog p) f' (Done e) ->
  (e = Ok tt /\ writable f (join1 (p_file p)) = true /\ f' = <[join1 (p_file p) := NFile (bserialize (p_bits p))]> f)
  \/ (exists w, e = Err w) /\ (forall q, q <> join1 (p_file p) -> f' !! q = f !! q).
Proof.
  intros H. apply execs_do in H as (r & f1 & Hs & H). apply execs_ret in H as [-> [= ->]].
  destruct r; cbn [ok_or];
    try (right; split; [eauto|]; intros q Hq; apply (ostep_frame _ _ _ _ q Hs); cbn [touches]; done).
  left. apply ostep_write_ok in Hs as [? ?]. done.
Qed.
(** the calls never get past a program that died or hangs *)
Lemma execs_bind_done {A B : Type} (m : io A) (g : A -> io B) f f' b :
  execs f (bind m g) f' (Done b) -> exists f1 a, execs f m f1 (Done a) /\ execs f1 (g a) f' (Done b).
Proof. intros H. apply execs_bind in H as [H|[(w & _ & H)|(_ & H)]]; [done|done|done]. Qed.

Lemma generate_runs cwd p f f' e : execs f (generate_record cwd p) f' (Done e) ->
  f' = f /\ ((exists l, file_at f (abs cwd p) = Some l /\
     e = Ok (mkRec (abs cwd p) (Z.of_nat (length l)) (sha1 l) None default_chunk_size)) \/ exists w, e = Err w).
Proof.
  intros H. unfold generate_record in H. apply execs_do in H as (r & f1 & Hs & H).
  apply ostep_read_only in Hs as [-> Hs]; [|done].
  destruct Hs as [Hs| ->].
  2:{ apply execs_ret in H as [-> [= ->]]. eauto. }
  cbn [do_op] in Hs. destruct (f !! abs cwd p) as [[l|]|] eqn:E; simplify_eq.
  - apply execs_bind_done in H as (f1 & h & H1 & H2). apply execs_ret in H2 as [-> [= ->]].
    unfold hash_path in H1. apply execs_do in H1 as (r & f2 & Hs & H1). apply ostep_read_only in Hs as [-> Hs]; [|done].
    destruct Hs as [Hs| ->].
    + cbn [do_op] in Hs. rewrite E in Hs. simplify_eq. apply execs_ret in H1 as [-> E1].
      assert (h = Ok (sha1 l)) as -> by (rewrite <- hash_of_regular; congruence).
      split; [done|]. left. exists l. unfold file_at. rewrite E. done.
    + apply execs_ret in H1 as [-> [= ->]]. split; [done|]. right. cbn. eauto.
  - apply execs_bind_done in H as (f1 & h & H1 & H2). apply execs_ret in H2 as [-> [= ->]].
    unfold hash_path in H1. apply execs_do in H1 as (r & f2 & Hs & H1). apply ostep_read_only in Hs as [-> Hs]; [|done].
    destruct Hs as [Hs| ->].
    + cbn [do_op] in Hs. rewrite E in Hs. simplify_eq. apply execs_ret in H1 as [-> [= ->]]. split; [done|]. right. cbn. eauto.
    + apply execs_ret in H1 as [-> [= ->]]. split; [done|]. right. cbn. eauto.
  - apply execs_ret in H as [-> [= ->]]. eauto.
Qed.

Lemma add_record_runs c r f f' c' e : execs f (add_record c r) f' (Done (c', e)) ->
  (c_index c !! r_hash r <> None /\ c' = c /\ f' = f /\ exists w, e = Err w) \/
  (c_index c !! r_hash r = None /\ c' = set_index c (<[r_hash r := r]> (c_index c)) /\
    ((e = Ok tt /\ writable f (join2 (c_inddir c) index_name) = true /\
       f' = <[join2 (c_inddir c) index_name := NFile (marshal c')]> f)
     \/ (exists w, e = Err w) /\ (forall q, q <> join2 (c_inddir c) index_name -> f' !! q = f !! q))).
Proof.
  unfold add_record. destruct (c_index c !! r_hash r) eqn:E.
  - intros H. apply execs_ret in H as [-> [= -> ->]]. left. eauto.
  - intros H. apply execs_bind_done in H as (f1 & x & H1 & H2). apply execs_ret in H2 as [-> [= -> ->]].
    right. split; [done|]. split; [done|]. apply save_index_runs in H1. cbn [set_index c_inddir] in H1. done.
Qed.

(** *** C26 *)
Lemma C26_lemma cwd c p f f' c' r pr : is_rooted cwd = true ->
  (forall l, file_at f (abs cwd p) = Some l -> small l) ->
  execs f (share_file cwd c p) f' (Done (c', Ok (r, pr))) ->
  exists l, file_at f (abs cwd p) = Some l /\ c_index c !! sha1 l = None
    /\ c' = set_index c (<[sha1 l := r]> (c_index c)) /\ r_prog r = Some pr
    /\ shows (export_of r pr) (sha1 l) (full_entry (abs cwd p) (Z.of_nat (length l)) 4194304)
    /\ f' = <[join1 (prog_path (c_dir c) (sha1 l)) := NFile (bserialize (p_bits pr))]>
             (<[join2 (c_inddir c) index_name := NFile (marshal c')]> f).
Proof.
  intros Hcwd Hsm H. unfold share_file in H. apply execs_bind_done in H as (f1 & g & Hg & H).
  apply generate_runs in Hg as [-> [(l & Hl & ->)|(w & ->)]]; [|apply execs_ret in H as [_ ?]; simplify_eq].
  cbn [on_ok] in H. specialize (Hsm l Hl). unfold small in Hsm.
  set (r0 := mkRec (abs cwd p) (Z.of_nat (length l)) (sha1 l) None default_chunk_size) in *.
  apply execs_bind_done in H as (f1 & [c1 e] & H1 & H). apply add_record_runs in H1.
  change (r_hash r0) with (sha1 l) in H1.
  destruct H1 as [(_ & -> & -> & w & ->)|(Hnone & -> & [(-> & Hw & ->)|[[w ->] _]])];
    [apply execs_ret in H as [_ ?]; simplify_eq| |apply execs_ret in H as [_ ?]; simplify_eq].
  cbn [on_ok set_index c_dir] in H.
  destruct (new_progress_ok r0 (c_dir c)) as (b0 & Hnp & Hb0); [cbn [r_size r0]; lia|cbn; unfold default_chunk_size; lia|].
  rewrite Hnp in H. cbn [rbind p_bits p_file] in H. change (r_hash r0) with (sha1 l) in H.
  destruct (bfill_brel _ _ Hb0) as (b & Hfill & Hb). rewrite Hfill in H. cbn [rbind] in H.
  apply execs_bind_done in H as (f2 & e & H2 & H). apply save_prog_runs in H2.
  destruct H2 as [(-> & Hw2 & ->)|[[w ->] _]]; [|apply execs_ret in H as [_ ?]; simplify_eq].
  cbn [on_ok] in H. apply execs_ret in H as [-> [= -> -> ->]].
  exists l. split; [done|]. split; [done|]. cbn [set_index c_index c_dir c_dl c_pid c_touched c_inddir p_file p_bits].
  split; [rewrite insert_insert; done|]. split; [done|]. split.
  - unfold shows, export_of, full_entry. cbn [set_prog x_path x_size x_hash x_chunk x_bits r_path r_size r_hash r_chunk p_bits r0 a_path a_size a_chunk a_count a_held].
    split_and!; try done.
    + destruct Hb as (_ & Hn & _). exact Hn.
    + intros i. destruct Hb as (Hi & Hn & Hbb). cbn [fst r_size r_chunk r0] in Hbb. rewrite (Hbb i).
      assert (bcopy b = b) as -> by (destruct b; done). apply mem_bits. done.
  - do 3 f_equal. apply marshal_ext; [done..|]. cbn [set_index c_index]. rewrite insert_insert, !fmap_insert. done.
Qed.

(** *** C27 *)
Lemma C27_lemma cwd c p l f f' out : file_at f (abs cwd p) = Some l -> c_index c !! sha1 l <> None ->
  execs f (share_file cwd c p) f' out -> f' = f /\ exists e, out = Done (c, Err e).
Proof.
  intros Hl Hc H. unfold share_file in H. apply execs_bind in H as [(f1 & g & Hg & H)|[(w & H & ->)|[H ->]]].
  - apply generate_runs in Hg as [-> [(l' & Hl' & ->)|(w & ->)]].
    + cbn [on_ok] in H. unfold add_record in H. cbn [r_hash] in H. assert (l' = l) as -> by congruence.
      destruct (c_index c !! sha1 l) eqn:E; [|done]. cbn [bind on_ok] in H. apply execs_ret in H as [-> ->]. eauto.
    + apply execs_ret in H as [-> ->]. eauto.
  - exfalso. unfold generate_record in H. apply execs_do in H as (r & f1 & Hs & H).
    apply ostep_read_only in Hs as [-> Hs]; [|done].
    destruct r; try (apply execs_ret in H as [_ ?]; done).
    apply execs_bind in H as [(f1 & g & Hg & H)|[(w' & H & _)|[H ?]]]; [apply execs_ret in H as [_ ?]; done| |done].
    unfold hash_path in H. apply execs_do in H as (r & f1 & Hs2 & H). destruct r; apply execs_ret in H as [_ ?]; done.
  - exfalso. unfold generate_record in H. apply execs_do in H as (r & f1 & Hs & H).
    apply ostep_read_only in Hs as [-> Hs]; [|done].
    destruct r; try (apply execs_ret in H as [_ ?]; done).
    apply execs_bind in H as [(f1 & g & Hg & H)|[(w' & H & ?)|[H _]]]; [apply execs_ret in H as [_ ?]; done|done|].
    unfold hash_path in H. apply execs_do in H as (r & f1 & Hs2 & H). destruct r; apply execs_ret in H as [_ ?]; done.
Qed.

(** *** getIndexRecord when reads may fail *)
Lemma load_prog_runs r d f f' e : execs f (load_prog r d) f' (Done e) -> f' = f /\
  ((exists b, e = Ok (mkProg b (prog_path d (r_hash r))) /\ f !! prog_path d (r_hash r) = Some (NFile (bserialize b)))
   \/ exists w, e = Err w).
Proof.
  intros H. unfold load_prog in H. apply execs_do in H as (rep & f1 & Hs & H).
  apply ostep_read_only in Hs as [-> Hs]; [|done]. destruct Hs as [Hs| ->].
  2:{ apply execs_ret in H as [-> [= ->]]. eauto. }
  cbn [do_op] in Hs. destruct (f !! prog_path d (r_hash r)) as [[l|]|] eqn:E; simplify_eq; cycle 1.
  - apply execs_ret in H as [-> [= ->]]. eauto.
  - apply execs_ret in H as [-> [= ->]]. eauto.
  - destruct (bdeserialize l) as [b|w|w] eqn:Eb; cbn [rbind lift] in H.
    + apply execs_ret in H as [-> [= ->]]. split; [done|]. left. exists b. split; [done|].
      apply bserialize_deserialize in Eb. rewrite Eb. done.
    + apply execs_ret in H as [-> [= ->]]. eauto.
    + apply execs_die in H as [_ ?]. done.
Qed.
Lemma get_record_runs c h f f' c' e : execs f (get_record c h) f' (Done (c', e)) -> f' = f /\
  ((exists r p, e = Ok (r, p) /\ c' = set_index c (<[h := r]> (c_index c)) /\ r_prog r = Some p
      /\ exists r0, c_index c !! h = Some r0 /\ r = set_prog r0 p
         /\ (r_prog r0 = Some p \/ r_prog r0 = None /\ p_file p = prog_path (c_dir c) (r_hash r)
             /\ f !! p_file p = Some (NFile (bserialize (p_bits p)))))
   \/ (exists w, e = Err w) /\ c' = c).
Proof.
  unfold get_record, fill. destruct (c_index c !! h) as [r0|] eqn:E.
  - destruct (r_prog r0) as [p|] eqn:Ep.
    + intros H. apply execs_ret in H as [-> [= -> ->]]. split; [done|]. left. exists r0, p. split; [done|].
      split; [rewrite insert_id by done; destruct c; done|]. split; [done|]. exists r0. split; [done|].
      split; [destruct r0; cbn in *; subst; done|]. left. done.
    + intros H. apply execs_bind_done in H as (f1 & lp & H1 & H). apply load_prog_runs in H1 as [-> [(b & -> & Hf)|[w ->]]].
      * apply execs_ret in H as [-> [= -> ->]]. split; [done|]. left. eexists _, _. split; [done|]. split; [done|]. split; [done|].
        exists r0. split; [done|]. split; [done|]. right. done.
      * apply execs_ret in H as [-> [= -> ->]]. eauto.
  - intros H. apply execs_ret in H as [-> [= -> ->]]. eauto.
Qed.
(** reading a record never changes the disk, whatever happens *)
Lemma get_record_frame c h f f' out : execs f (get_record c h) f' out -> f' = f.
Proof.
  unfold get_record, fill, load_prog. destruct (c_index c !! h) as [r0|]; [|intros H; apply execs_ret in H as [-> _]; done].
  destruct (r_prog r0); [intros H; apply execs_ret in H as [-> _]; done|]. cbn [bind]. intros H.
  apply execs_do in H as (rep & f1 & Hs & H). apply ostep_read_only in Hs as [-> _]; [|done].
  destruct rep; cbn [bind lift] in H; try (apply execs_ret in H as [-> _]; done).
  destruct (bdeserialize d); cbn [rbind lift bind] in H; first [apply execs_ret in H as [-> _]|apply execs_die in H as [-> _]]; done.
Qed.

(** *** C34 *)
Lemma C34_lemma c h f f' c' : (forall r, c_index c !! h = Some r -> r_hash r = h) ->
  execs f (unshare_file c h) f' (Done (c', Ok tt)) ->
  exists r p, c_index c !! h = Some r /\ c' = set_index c (delete h (c_index c))
    /\ (r_prog r = Some p \/ p_file p = prog_path (c_dir c) h)
    /\ f' = <[join2 (c_inddir c) index_name := NFile (marshal c')]> (delete (join1 (p_file p)) f).
Proof.
  intros Hk H. unfold unshare_file in H. apply execs_bind_done in H as (f1 & [c1 g] & H1 & H).
  apply get_record_runs in H1 as [-> [(r & p & -> & -> & Hp & r0 & Hr0 & Hr & Hcase)|[[w ->] ->]]]; [|apply execs_ret in H as [_ ?]; simplify_eq].
  cbn [on_ok fst snd] in H. unfold delete_prog in H. cbn [bind] in H. apply execs_do in H as (rep & f2 & Hs & H).
  destruct rep; cbn [ok_or on_ok] in H; try (apply execs_ret in H as [_ ?]; simplify_eq; fail).
  apply ostep_remove_ok in Hs as [_ ->].
  unfold remove_record in H. apply execs_bind_done in H as (f3 & e & H3 & H). apply execs_ret in H as [-> [= -> <-]].
  apply save_index_runs in H3 as [(_ & _ & ->)|[[w ?] _]]; [|done].
  assert (r_hash r = h) as Hh by (rewrite Hr; cbn; apply Hk; done). rewrite Hh.
  cbn [set_index c_inddir c_index c_dir c_dl c_pid c_touched]. rewrite delete_insert_delete.
  exists r0, p. split; [done|]. split; [done|]. split; [|done].
  destruct Hcase as [?|(_ & Hpf & _)]; [left; done|right]. rewrite Hpf, Hh. done.
Qed.
Lemma C34_unknown_lemma c h f f' out : c_index c !! h = None ->
  execs f (unshare_file c h) f' out -> f' = f /\ exists e, out = Done (c, Err e).
Proof. intros Hc H. unfold unshare_file, get_record in H. rewrite Hc in H. cbn [bind on_ok] in H. apply execs_ret in H as [-> ->]. eauto. Qed.

(** *** C35 *)
Lemma C35_lemma c h i data f f' c' : (forall r, c_index c !! h = Some r -> (0 < r_chunk r < 4294967296)%Z) ->
  (i < 65536)%N ->
  execs f (save_chunk c h i data) f' (Done (c', Ok tt)) ->
  exists r0 r p new, c_index c !! h = Some r0 /\ c_index c' = <[h := r]> (c_index c)
    /\ r_path r = r_path r0 /\ r_size r = r_size r0 /\ r_hash r = r_hash r0 /\ r_chunk r = r_chunk r0
    /\ r_prog r = Some p /\ bget (p_bits p) i = Ok true
    /\ (forall p0, r_prog r0 = Some p0 -> bset (p_bits p0) i = Ok (p_bits p) /\ p_file p = p_file p0)
    /\ overlay (default [] (file_at f (r_path r0))) (N.to_nat i * Z.to_nat (r_chunk r0)) data new
    /\ f' = <[join1 (p_file p) := NFile (bserialize (p_bits p))]> (<[r_path r0 := NFile new]> f).
Proof.
  intros Hch Hi H. unfold save_chunk in H. apply execs_bind_done in H as (f1 & [c1 g] & H1 & H).
  apply get_record_runs in H1 as [-> [(r & p & -> & -> & Hp & r0 & Hr0 & Hr & Hcase)|[[w ->] ->]]]; [|apply execs_die in H as [_ ?]; simplify_eq].
  specialize (Hch r0 Hr0). assert (r_path r = r_path r0 /\ r_chunk r = r_chunk r0) as [E1 E2] by (rewrite Hr; done).
  unfold save_chunk_data in H. cbn [bind] in H. apply execs_do in H as (rep & f2 & Hs & H).
  destruct rep; cbn [ok_or on_ok] in H; try (apply execs_ret in H as [_ ?]; simplify_eq; fail).
  apply ostep_write_at_ok in Hs as (_ & Hoff & ->).
  destruct (bset (p_bits p) i) as [b|w|w] eqn:Eb; [|apply execs_die in H as [_ ?]; done..].
  apply execs_bind_done in H as (f3 & e & H3 & H). apply execs_ret in H as [-> [= -> <-]].
  apply save_prog_runs in H3 as [(_ & _ & ->)|[[w ?] _]]; [|done]. cbn [p_file p_bits].
  rewrite E1, E2. rewrite wrap64_small by nia. rewrite contents_file_at.
  replace (Z.to_nat (Z.of_N i * r_chunk r0)) with (N.to_nat i * Z.to_nat (r_chunk r0)) by nia.
  exists r0, (set_prog r (mkProg b (p_file p))), (mkProg b (p_file p)). eexists.
  split; [done|]. split; [cbn [set_index c_index]; rewrite insert_insert; done|].
  rewrite Hr. cbn [set_prog r_path r_size r_hash r_chunk r_prog p_bits p_file].
  split_and!; try done.
  - (* Set then Get *)
    destruct (bset_ok (p_bits p) i) as (b' & E' & _ & _ & Hb' & _).
    { change p63 with 9223372036854775808%N. lia. }
    rewrite E' in Eb. simplify_eq. rewrite bget_bits by (change p63 with 9223372036854775808%N; lia).
    rewrite Hb'. rewrite N.eqb_refl. done.
  - intros p0 Hp0. destruct Hcase as [Hc|(Hc & _)]; [|congruence]. rewrite Hc in Hp0. simplify_eq. done.
  - apply write_at_overlay.
Qed.

(** *** C39 *)
Lemma C39_lemma fuel c h i f f' c' x : execs f (get_chunk_reader fuel c h i) f' (Done (c', Ok x)) ->
  exists r p, c_index c' !! h = Some r /\ r_prog r = Some p /\ bget (p_bits p) (u64_of_int i) = Ok true.
Proof.
  intros H. unfold get_chunk_reader in H. apply execs_bind_done in H as (f1 & [c1 g] & H1 & H).
  apply get_record_runs in H1 as [-> [(r & p & -> & -> & Hp & _)|[[w ->] ->]]]; [|apply execs_ret in H as [_ ?]; simplify_eq].
  cbn [on_ok fst snd] in H. apply execs_bind_done in H as (f2 & y & H2 & H). apply execs_ret in H as [-> [= -> <-]].
  unfold get_chunk_reader_of in H2.
  destruct (bget (p_bits p) (u64_of_int i)) as [[]|w|w] eqn:E; [|apply execs_ret in H2 as [_ ?]; done|apply execs_die in H2 as [_ ?]; done..].
  exists r, p. cbn [set_index c_index]. rewrite lookup_insert. done.
Qed.
Lemma C39_refused_lemma fuel r p i : bget (p_bits p) (u64_of_int i) = Ok false ->
  get_chunk_reader_of fuel r p i = Ret (Err "missing requested chunk").
Proof. intros H. unfold get_chunk_reader_of. rewrite H. done. Qed.
