(** Proofs about crashes of the daemon: C33, the catalogue stays broken. *)
From Verif Require Export CatalogueCrash.
From Coq Require Import ZifyBool ZifyNat ZifyN.
Ltac Zify.zify_post_hook ::= Z.div_mod_to_equations.

(** ** Reaching the crash states *)
Lemma killed_left {A B : Type} (m : io A) (g : A -> io B) f f' : killed f m f' -> killed f (bind m g) f'.
Proof.
  induction 1 as [f m|f o k f' H|f o k r f1 f' H _ IH]; cbn [bind].
  - constructor.
  - apply ki_during. done.
  - eapply ki_later; done.
Qed.
Lemma killed_right {A B : Type} (m : io A) (g : A -> io B) f f1 a f' : execs f m f1 (Done a) -> killed f1 (g a) f' -> killed f (bind m g) f'.
Proof.
  revert f; induction m as [x|w| |o k IH]; intros f; cbn [bind]; intros H Hk.
  - apply execs_ret in H as [-> [= ->]]. done.
  - apply execs_die in H as [_ ?]. done.
  - apply execs_spin in H as [_ ?]. done.
  - apply execs_do in H as (r & f2 & Hs & H). eapply ki_later; [done|]. eapply IH; done.
Qed.
Lemma killed_run {A B : Type} (m : io A) (g : A -> io B) f f1 a f' : run f m = (f1, Done a) -> killed f1 (g a) f' -> killed f (bind m g) f'.
Proof. intros H. apply killed_right, run_execs. done. Qed.

Section wedge.
Context (cwd dir dl : path) (h : hash).
Context (Hcwd : is_rooted cwd = true) (Hdir : clean_abs dir) (Hdl : clean_abs dl) (Hutf : valid_utf8 dir) (Hh : hash_wf h).
Notation index := (join2 dir index_name).

(** an index that lists [h] *)
Definition good_index (c : cat) : Prop :=
  c_inddir c = dir /\ cat_ints c /\ (exists r, c_index c !! h = Some r)
  /\ forall h' r, c_index c !! h' = Some r -> r_hash r = h'.
(** a progress file that is missing or cannot be read *)
Definition unloadable (n : option node) : Prop :=
  forall l b, n = Some (NFile l) -> bdeserialize l <> Ok b.
Definition disk_wedged (f : fs) : Prop :=
  f !! dir = Some NDir /\ unloadable (f !! prog_path dir h)
  /\ exists c, f !! index = Some (NFile (marshal c)) /\ good_index c.
Definition mem_wedged (c : cat) : Prop :=
  c_dir c = dir /\ c_dl c = dl /\ good_index c
  /\ (forall r, c_index c !! h = Some r -> r_prog r = None)
  /\ forall h' r p, c_index c !! h' = Some r -> r_prog r = Some p -> p_file p = prog_path dir h'.

Definition ok_op (o : op) : Prop :=
  match o with
  | OStat _ | ORead _ | OOpen _ => True
  | OWrite p d => p <> prog_path dir h /\ (p = index -> exists c, d = marshal c /\ good_index c)
  | ORemove p => p <> index
  | OWriteAt p _ _ => p <> index /\ p <> prog_path dir h
  | OMkdirAll p => p = dir
  end.
Lemma index_ne : prog_path dir h <> index.
Proof. apply prog_path_ne_index; done. Qed.
Lemma dir_ne_index : dir <> index.
Proof. apply not_eq_sym, dir_not_child; [done|apply index_normal]. Qed.
Lemma dir_ne_prog : dir <> prog_path dir h.
Proof. apply not_eq_sym, dir_not_child; [done|apply hash_normal; done]. Qed.
Lemma ok_op_keeps f o : disk_wedged f -> ok_op o -> disk_wedged (do_op f o).2.
Proof.
  intros H Ho. destruct o as [p|p|p|p d|p|p off d|p]; cbn [do_op ok_op] in *; try (repeat case_match; done).
  - subst p. unfold is_dir. destruct H as (H1 & H2 & H3). rewrite H1. cbn [snd]. done.
  - destruct (writable f p) eqn:Hw; [|done]. cbn [snd]. destruct Ho as [Ho1 Ho2]. destruct H as (H1 & H2 & c & H3 & H4).
    assert (p <> dir) as Hpd by (intros ->; apply writable_dir in Hw; done).
    split_and!; [rewrite lookup_insert_ne; done|rewrite lookup_insert_ne; done|].
    destruct (decide (p = index)) as [->|Hne].
    + destruct (Ho2 eq_refl) as (c' & -> & Hg). exists c'. rewrite lookup_insert. done.
    + exists c. rewrite lookup_insert_ne by done. done.
  - destruct H as (H1 & H2 & c & H3 & H4). destruct (f !! p) as [[l|]|] eqn:E; cbn [snd]; [|split_and!; eauto..].
    assert (p <> dir) as Hpd by (intros ->; congruence).
    split_and!; [rewrite lookup_delete_ne; done| |exists c; rewrite lookup_delete_ne by done; done].
    destruct (decide (p = prog_path dir h)) as [->|?]; [rewrite lookup_delete; done|rewrite lookup_delete_ne by done; done].
  - destruct (writable f p) eqn:Hw; [|done]. destruct Ho as [Ho1 Ho2]. destruct H as (H1 & H2 & c & H3 & H4).
    assert (p <> dir) as Hpd by (intros ->; apply writable_dir in Hw; done).
    destruct (off <? 0)%Z; cbn [snd]; (split_and!; [rewrite lookup_insert_ne; done|rewrite lookup_insert_ne; done|]);
      exists c; rewrite lookup_insert_ne by done; done.
Qed.

(** programs that keep the disk wedged, whatever the replies *)
Fixpoint safe {A : Type} (m : io A) (Q : A -> Prop) : Prop :=
  match m with
  | Ret a => Q a
  | Die _ | Spin => True
  | Do o k => ok_op o /\ forall f, disk_wedged f -> safe (k (do_op f o).1) Q
  end.
Lemma safe_run {A : Type} (m : io A) (Q : A -> Prop) : forall f, disk_wedged f -> safe m Q -> 
  disk_wedged (run f m).1 /\ forall a, (run f m).2 = Done a -> Q a.
Proof.
  induction m as [a|w| |o k IH]; intros f Hf Hs; cbn [run safe fst snd] in *.
  - split; [done|]. intros a' [= <-]. done.
  - split; [done|]. done.
  - split; [done|]. done.
  - destruct Hs as [Ho Hs]. pose proof (ok_op_keeps f o Hf Ho) as Hk. specialize (Hs f Hf).
    destruct (do_op f o) as [r f1]. cbn [fst snd] in *. apply IH; done.
Qed.
Lemma safe_bind {A B : Type} (m : io A) (g : A -> io B) (P : A -> Prop) (Q : B -> Prop) :
  safe m P -> (forall a, P a -> safe (g a) Q) -> safe (bind m g) Q.
Proof.
  intros Hm Hg. induction m as [a|w| |o k IH]; cbn [bind safe] in *; [auto|done|done|].
  destruct Hm as [Ho Hk]. split; [done|]. intros f Hf. apply IH, Hk. done.
Qed.
Lemma safe_mono {A : Type} (m : io A) (P Q : A -> Prop) : (forall a, P a -> Q a) -> safe m P -> safe m Q.
Proof.
  intros HPQ. induction m as [a|w| |o k IH]; cbn [safe]; [auto|done|done|]. intros [Ho Hk]. split; [done|]. auto.
Qed.
Lemma safe_on_ok {A B : Type} c (r : res A) (k : A -> io (cat * res B)) (Q : cat * res B -> Prop) :
  (forall e, r = Err e -> Q (c, Err e)) -> (forall a, r = Ok a -> safe (k a) Q) -> safe (on_ok c r k) Q.
Proof. intros H1 H2. destruct r; cbn [on_ok safe]; auto. Qed.

(** ** The calls *)
Lemma mem_wf c h' r : mem_wedged c -> c_index c !! h' = Some r -> hash_wf h' /\ r_hash r = h'.
Proof. intros (_ & _ & (_ & (_ & _ & Hi) & _ & Hk) & _) Hr. split; [apply (Hi h' r Hr)|apply Hk; done]. Qed.
Lemma good_insert c h' r : good_index c -> hash_wf h' -> r_hash r = h' -> int64 (r_size r) -> int64 (r_chunk r) ->
  good_index (set_index c (<[h' := r]> (c_index c))).
Proof.
  intros (H1 & H2 & [r0 H3] & H4) Hw Hr Hs Hc. split_and!; [done|apply cat_ints_insert; congruence| |].
  - cbn [set_index c_index]. destruct (decide (h' = h)) as [->|Hne]; [rewrite lookup_insert; eauto|rewrite lookup_insert_ne by done; eauto].
  - cbn [set_index c_index]. intros h2 r2 Hl. apply lookup_insert_Some in Hl as [[<- <-]|[_ Hl]]; [done|apply H4; done].
Qed.
Lemma mem_insert c h' r : mem_wedged c -> hash_wf h' -> h' <> h -> r_hash r = h' -> int64 (r_size r) -> int64 (r_chunk r) ->
  (forall p, r_prog r = Some p -> p_file p = prog_path dir h') -> mem_wedged (set_index c (<[h' := r]> (c_index c))).
Proof.
  intros (H1 & H2 & H3 & H4 & H5) Hw Hne Hr Hs Hc Hp. split_and!; [done|done|apply good_insert; done| |].
  - intros r0 Hl. cbn [set_index c_index] in Hl. rewrite lookup_insert_ne in Hl by done. auto.
  - intros h2 r2 p2 Hl. cbn [set_index c_index] in Hl. apply lookup_insert_Some in Hl as [[<- <-]|[_ Hl]]; [auto|]. apply H5. done.
Qed.
Lemma mem_ints c h' r : mem_wedged c -> c_index c !! h' = Some r -> int64 (r_size r) /\ int64 (r_chunk r).
Proof. intros (_ & _ & (_ & (_ & _ & Hi) & _) & _) Hr. apply (Hi h' r Hr). Qed.

(** reading a record: nothing for [h], the right progress file for others *)
Lemma safe_get c h' : mem_wedged c -> safe (get_record c h') (fun x => mem_wedged x.1 /\ c_dir x.1 = dir /\
  forall r p, x.2 = Ok (r, p) -> h' <> h /\ hash_wf h' /\ r_hash r = h' /\ p_file p = prog_path dir h' /\ c_index x.1 !! h' = Some r
    /\ exists r0, c_index c !! h' = Some r0 /\ r_path r = r_path r0).
Proof.
  intros H. unfold get_record. destruct (c_index c !! h') as [r|] eqn:E; [|cbn [safe fst snd]; split; [done|]; split; [apply H|]; done].
  destruct (mem_wf c h' r H E) as [Hw Hr]. unfold fill. destruct (r_prog r) as [p|] eqn:Ep.
  - cbn [safe fst snd]. split; [done|]. split; [apply H|]. intros r1 p1 [= <- <-].
    assert (h' <> h) as Hne by (intros ->; destruct H as (_ & _ & _ & H & _); rewrite (H r E) in Ep; done).
    split_and!; [done|done|done|apply H with r; done|done|eauto].
  - unfold load_prog. cbn [bind]. split; [exact I|]. intros f Hf. cbn [do_op].
    pose proof H as (Hd & _). rewrite Hd, Hr.
    destruct (decide (h' = h)) as [->|Hne].
    { destruct Hf as (_ & Hun & _). destruct (f !! prog_path dir h) as [[l|]|]; cbn [fst bind safe snd].
      2,3: split; [done|]; split; done.
      destruct (bdeserialize l) as [b|w|w] eqn:Eb; cbn [rbind lift bind safe fst snd]; [|split; [done|]; split; done|done].
      exfalso. by apply (Hun l b). }
    destruct (f !! prog_path dir h') as [[l|]|]; cbn [fst].
    2,3: cbn [bind safe fst snd]; split; [done|]; split; done.
    destruct (bdeserialize l) as [b|w|w]; cbn [rbind lift bind safe fst snd]; [|split; [done|]; split; done|done].
    destruct (mem_ints c h' r H E) as [Hi1 Hi2].
    split; [apply mem_insert; try done; intros p [= <-]; done|]. split; [done|]. intros r1 p1 [= <- <-].
    split_and!; try done; [cbn [set_index c_index]; apply lookup_insert|]. exists r. done.
Qed.
Definition keeps {A : Type} (x : cat * A) : Prop := mem_wedged x.1.
Lemma safe_save_index c : good_index c -> safe (save_index c) (fun _ => True).
Proof.
  intros Hg. unfold save_index. pose proof Hg as (Hd & _). rewrite Hd. split; [|done]. split; [apply not_eq_sym, index_ne|]. eauto.
Qed.
Lemma safe_save_prog p h' : p_file p = prog_path dir h' -> hash_wf h' -> h' <> h -> safe (save_prog p) (fun _ => True).
Proof.
  intros Hp Hw Hne. unfold save_prog. rewrite Hp, join1_clean by (apply prog_path_clean; done). split; [|done]. split.
  - intros E. apply prog_path_inj in E; done.
  - intros E. exfalso. revert E. apply prog_path_ne_index; done.
Qed.
Lemma safe_delete_prog p h' : p_file p = prog_path dir h' -> hash_wf h' -> safe (delete_prog p) (fun _ => True).
Proof.
  intros Hp Hw. unfold delete_prog. rewrite Hp, join1_clean by (apply prog_path_clean; done). split; [|done].
  apply prog_path_ne_index; done.
Qed.
Lemma safe_add c r : mem_wedged c -> hash_wf (r_hash r) -> int64 (r_size r) -> int64 (r_chunk r) -> r_prog r = None ->
  safe (add_record c r) (fun x => mem_wedged x.1 /\ (x.2 = Ok tt -> r_hash r <> h /\ c_index x.1 !! r_hash r = Some r)).
Proof.
  intros H Hw Hs Hc Hp. unfold add_record. destruct (c_index c !! r_hash r) eqn:E; [cbn [safe fst snd]; done|].
  assert (r_hash r <> h) as Hne by (intros E2; destruct H as (_ & _ & (_ & _ & [r0 H] & _) & _); congruence).
  assert (mem_wedged (set_index c (<[r_hash r:=r]> (c_index c)))) as Hm.
  { apply mem_insert; try done. intros p. rewrite Hp. done. }
  apply safe_bind with (P := fun _ => True).
  - apply safe_save_index, Hm.
  - intros e _. cbn [safe fst snd]. split; [done|]. intros _. split; [done|]. cbn [set_index c_index]. apply lookup_insert.
Qed.
(** the second half of ShareFile *)
Lemma safe_share_rest c r : mem_wedged c -> hash_wf (r_hash r) -> int64 (r_size r) -> int64 (r_chunk r) -> r_prog r = None ->
  safe (do! (c1, e) := add_record c r in
    on_ok c1 e (fun _ =>
      match (let! pr := new_progress r (c_dir c1) in let! b := bfill (p_bits pr) in Ok (mkProg b (p_file pr))) with
      | Ok pr =>
          let r' := set_prog r pr in
          let c2 := set_index c1 (<[r_hash r := r']> (c_index c1)) in
          do! e := save_prog pr in
          on_ok c2 e (fun _ => Ret (c2, Ok (r', pr)))
      | Err e => Ret (c1, Err e)
      | Panic w => Die w
      end)) (fun x => mem_wedged x.1 /\ forall y, x.2 = Ok y -> r_hash r <> h).
Proof.
  intros H Hw Hs Hc Hp. eapply safe_bind; [apply safe_add; done|]. intros [c1 e] [Hm He]. cbn [fst snd] in *.
  apply safe_on_ok; [intros w ->; done|]. intros [] ->. destruct (He eq_refl) as [Hne Hl].
  assert (c_dir c1 = dir) as -> by apply Hm.
  destruct (new_progress r dir) as [pr|w|w] eqn:Hpr; cbn [rbind safe]; [|done|done].
  apply new_progress_file in Hpr as [b ->]. cbn [p_bits p_file].
  destruct (bfill b) as [b2|w|w]; cbn [rbind safe]; [|done|done].
  eapply safe_bind; [apply (safe_save_prog _ (r_hash r)); done|]. intros e2 _.
  assert (mem_wedged (set_index c1 (<[r_hash r:=set_prog r (mkProg b2 (prog_path dir (r_hash r)))]> (c_index c1)))) as Hm2.
  { apply mem_insert; try done. intros p [= <-]. done. }
  apply safe_on_ok; [intros w ->; done|]. intros [] ->. cbn [safe fst snd]. done.
Qed.
Lemma run_share c p f : mem_wedged c -> disk_wedged f -> (forall l, file_at f (abs cwd p) = Some l -> small l) ->
  disk_wedged (run f (share_file cwd c p)).1 /\ forall a, (run f (share_file cwd c p)).2 = Done a ->
    mem_wedged a.1 /\ forall y l, a.2 = Ok y -> file_at f (abs cwd p) = Some l -> sha1 l <> h.
Proof.
  intros H Hf Hsm. unfold share_file. rewrite run_bind. unfold file_at in *.
  unfold generate_record. cbn [run do_op]. destruct (f !! abs cwd p) as [[l|]|] eqn:E.
  - rewrite run_bind. unfold hash_path. cbn [run do_op]. rewrite E. cbn [run]. rewrite hash_of_regular. cbn [rbind on_ok].
    specialize (Hsm l eq_refl). unfold small in Hsm.
    destruct (safe_run _ _ f Hf (safe_share_rest c (mkRec (abs cwd p) (Z.of_nat (length l)) (sha1 l) None default_chunk_size) H
       (sha1_wf l) ltac:(unfold int64; cbn [r_size]; lia) ltac:(unfold int64, default_chunk_size; cbn [r_chunk]; lia) eq_refl)) as [R1 R2].
    split; [exact R1|]. intros a Ha. specialize (R2 a Ha). destruct R2 as [R2 R3]. split; [done|].
    intros y l' Hy [= <-]. apply (R3 y Hy).
  - rewrite run_bind. unfold hash_path. cbn [run do_op]. rewrite E. cbn [run rbind hash_of on_ok].
    split; [done|]. intros a [= <-]. done.
  - cbn [run on_ok]. split; [done|]. intros a [= <-]. done.
Qed.
Lemma safe_register c size count chunk h' name : mem_wedged c -> (size < 18446744073709551616)%N -> (chunk < 4294967296)%N ->
  hash_wf h' -> safe (register_download c size count chunk h' name) (fun x => mem_wedged x.1 /\ forall y, x.2 = Ok y -> h' <> h).
Proof.
  intros H Hs Hc Hw. unfold register_download. set (r := mkRec _ _ _ _ _).
  assert (int64 (r_size r)) as Hi1 by (apply int64_u64; done).
  assert (int64 (r_chunk r)) as Hi2 by (unfold int64; cbn [r r_chunk]; lia).
  eapply safe_bind; [apply safe_add; done|]. intros [c1 e] [Hm He]. cbn [fst snd] in *.
  apply safe_on_ok; [intros w ->; done|]. intros [] ->. destruct (He eq_refl) as [Hne Hl].
  assert (c_dir c1 = dir) as -> by apply Hm.
  destruct (new_progress r dir) as [pr|w|w] eqn:Hpr; cbn [safe]; [|done|done].
  apply new_progress_file in Hpr as [b ->].
  eapply safe_bind; [apply (safe_save_prog _ h'); done|]. intros e2 _. cbn [safe fst snd]. split; [|done].
  apply mem_insert; try done. intros p [= <-]. done.
Qed.
Lemma safe_unshare c h' : mem_wedged c -> safe (unshare_file c h') (fun x => mem_wedged x.1 /\ (x.2 = Ok tt -> h' <> h)).
Proof.
  intros H. unfold unshare_file. eapply safe_bind; [apply safe_get; done|]. intros [c1 g] (Hm & Hd & Hg). cbn [fst snd] in *.
  apply safe_on_ok; [intros w ->; done|]. intros [r p] ->. destruct (Hg r p eq_refl) as (Hne & Hw & Hr & Hp & Hl & _). cbn [fst snd].
  eapply safe_bind; [apply (safe_delete_prog p h'); done|]. intros e _.
  apply safe_on_ok; [intros w ->; done|]. intros [] ->. unfold remove_record. rewrite Hr.
  assert (mem_wedged (set_index c1 (delete h' (c_index c1)))) as Hm2.
  { destruct Hm as (M1 & M2 & (G1 & G2 & [r0 G3] & G4) & M4 & M5). split_and!; try done.
    - split_and!; [done|apply cat_ints_delete; done| |].
      + cbn [set_index c_index]. rewrite lookup_delete_ne by done. eauto.
      + cbn [set_index c_index]. intros h2 r2 Hx. apply lookup_delete_Some in Hx as [_ Hx]. auto.
    - cbn [set_index c_index]. intros r2. rewrite lookup_delete_ne by done. auto.
    - cbn [set_index c_index]. intros h2 r2 p2 Hx. apply lookup_delete_Some in Hx as [_ Hx]. eauto. }
  eapply safe_bind; [apply safe_save_index, Hm2|]. intros e _. cbn [safe fst snd]. done.
Qed.
Lemma safe_save c h' i data : mem_wedged c -> (forall r, c_index c !! h' = Some r -> parent (r_path r) <> dir) ->
  safe (save_chunk c h' i data) keeps.
Proof.
  intros H Hpar. unfold save_chunk. eapply safe_bind; [apply safe_get; done|]. intros [c1 g] (Hm & Hd & Hg). cbn [fst snd] in *.
  destruct g as [[r p]|w|w]; [|exact I..]. destruct (Hg r p eq_refl) as (Hne & Hw & Hr & Hp & Hl & r0 & Hr0 & Hpath).
  specialize (Hpar r0 Hr0). rewrite <- Hpath in Hpar.
  apply safe_bind with (P := fun _ => True).
  { unfold save_chunk_data. split; [|done]. split; intros E; apply Hpar; rewrite E; [apply parent_index; done|apply parent_prog; done]. }
  intros e _. apply safe_on_ok; [intros w ->; done|]. intros [] ->.
  destruct (bset (p_bits p) i) as [b|w|w]; [|exact I..].
  eapply safe_bind; [apply (safe_save_prog _ h'); done|]. intros e _. cbn [safe]. unfold keeps. cbn [fst].
  destruct (mem_ints c1 h' r Hm Hl). apply mem_insert; try done. intros p' [= <-]. done.
Qed.
Lemma safe_list order : forall c acc, mem_wedged c ->
  safe (list_loop c order acc) (fun x => mem_wedged x.1 /\ forall l, x.2 = Ok l -> h ∉ order).
Proof.
  induction order as [|h' order IH]; intros c acc H; cbn [list_loop].
  - cbn [safe fst snd]. split; [done|]. intros _ _. set_solver.
  - pose proof (safe_get c h' H) as Hg. unfold get_record in Hg. destruct (c_index c !! h') as [r|] eqn:E.
    + eapply safe_bind; [exact Hg|]. intros [c1 g] (Hm & Hd & Hg1). cbn [fst snd] in *.
      apply safe_on_ok; [intros w ->; done|]. intros [r1 p1] ->. destruct (Hg1 r1 p1 eq_refl) as (Hne & _).
      clear Hg. specialize (IH c1 (acc ++ [export_of r1 p1]) Hm). revert IH. apply safe_mono.
      intros [c2 l2] [Hm2 Hl2]. cbn [fst snd] in *. split; [done|]. intros l Hx. specialize (Hl2 l Hx). set_solver.
    + clear Hg. specialize (IH c acc H). revert IH. apply safe_mono. intros [c2 l2] [Hm2 Hl2]. cbn [fst snd] in *.
      split; [done|]. intros l Hx. specialize (Hl2 l Hx).
      assert (h' <> h). { intros ->. destruct H as (_ & _ & (_ & _ & [r0 Hr0] & _) & _). congruence. }
      set_solver.
Qed.
Lemma safe_pure {A : Type} (m : io A) (P : A -> Prop) : pure_io m -> (forall a, P a) -> safe m P.
Proof.
  intros Hp HP. induction m as [a|w| |o k IH]; cbn [safe pure_io] in *; [auto|done|done|].
  destruct Hp as [Ho Hp]. split; [destruct o; done|]. auto.
Qed.
Lemma safe_contains c h' : mem_wedged c -> safe (contains c h') (fun x => mem_wedged x.1 /\ forall y, x.2 = Ok y -> h' <> h).
Proof.
  intros H. unfold contains. eapply safe_bind; [apply safe_get; done|]. intros [c1 g] (Hm & Hd & Hg). cbn [fst snd] in *.
  apply safe_on_ok; [intros w ->; done|]. intros [r p] ->. cbn [safe fst snd]. split; [done|]. intros _ _. apply (Hg r p eq_refl).
Qed.
Lemma safe_rehash c h' : mem_wedged c -> safe (rehash c h') keeps.
Proof.
  intros H. unfold rehash. eapply safe_bind; [apply safe_get; done|]. intros [c1 g] (Hm & Hd & Hg). cbn [fst snd] in *.
  destruct g as [rp|w|w]; [|done|exact I]. apply safe_bind with (P := fun _ => True).
  - apply safe_pure; [|done]. unfold hash_path. split; [done|]. intros r. destruct r; exact I.
  - intros r _. exact Hm.
Qed.
Lemma safe_reader fuel c h' i : mem_wedged c -> safe (get_chunk_reader fuel c h' i) keeps.
Proof.
  intros H. unfold get_chunk_reader. eapply safe_bind; [apply safe_get; done|]. intros [c1 g] (Hm & Hd & Hg). cbn [fst snd] in *.
  apply safe_on_ok; [done|]. intros rp ->. apply safe_bind with (P := fun _ => True).
  - apply safe_pure; [|done]. unfold get_chunk_reader_of. destruct (bget _ _) as [[]|w|w]; try exact I.
    split; [done|]. intros r. destruct r; try exact I. destruct (new_chunk_reader _ _ _); exact I.
  - intros r _. exact Hm.
Qed.
Lemma safe_complete c h' : mem_wedged c -> safe (file_complete c h') keeps.
Proof.
  intros H. unfold file_complete. eapply safe_bind; [apply safe_get; done|]. intros [c1 g] (Hm & Hd & Hg). cbn [fst snd] in *.
  destruct g as [rp|w|w]; [|exact I..]. destruct (bfull _); [exact Hm|exact I..].
Qed.
Lemma safe_open pid now : safe (open_cat pid now cwd dir dl) (fun x => forall c, x = Ok c -> mem_wedged c).
Proof.
  unfold open_cat, ind_init, new_cat. cbn [c_dir c_dl]. rewrite !abs_id by done. split; [done|]. intros f Hf.
  cbn [do_op]. unfold is_dir. destruct Hf as (-> & _). cbn [fst]. split; [done|]. intros f2 Hf2. cbn [do_op].
  destruct Hf2 as (-> & _). cbn [fst]. split; [done|]. intros f3 Hf3. cbn [do_op].
  destruct Hf3 as (_ & _ & c3 & -> & _). cbn [fst]. unfold ind_load. cbn [c_dir c_dl]. split; [done|]. intros f4 Hf4. cbn [do_op].
  destruct Hf4 as (_ & _ & c4 & -> & Hg). cbn [fst]. rewrite unmarshal_marshal_cat by apply Hg. cbn [safe].
  intros c [= <-]. destruct Hg as (G1 & (I1 & I2 & I3) & [r G3] & G4).
  assert (sanitize (c_inddir c4) = dir) as Es by (rewrite G1; apply sanitize_id_iff; done).
  split_and!; cbn [c_dir c_dl c_index]; [done|done| | |].
  - split_and!; cbn [c_inddir c_index]; [done| | |].
    + split_and!; [done|done|]. cbn [c_index]. intros h' r' Hl. rewrite lookup_fmap in Hl.
      destruct (c_index c4 !! h') as [r0|] eqn:E; [|done]. cbn in Hl. simplify_eq. cbn [san_irec r_hash r_size r_chunk]. apply (I3 _ _ E).
    + rewrite lookup_fmap, G3. eexists. done.
    + intros h' r' Hl. rewrite lookup_fmap in Hl.
      destruct (c_index c4 !! h') as [r0|] eqn:E; [|done]. cbn in Hl. simplify_eq. cbn [san_irec r_hash]. apply G4. done.
  - intros r' Hl. rewrite lookup_fmap, G3 in Hl. cbn in Hl. simplify_eq. done.
  - intros h' r' p Hl. rewrite lookup_fmap in Hl. destruct (c_index c4 !! h') as [r0|]; [|done]. cbn in Hl. simplify_eq. done.
Qed.
Lemma run_call c f q : mem_wedged c -> disk_wedged f -> typed cwd dir c f q ->
  disk_wedged (run f (cprog cwd c q)).1 /\ forall a, (run f (cprog cwd c q)).2 = Done a -> mem_wedged a.1.
Proof.
  intros H Hf Ht.
  assert (forall (A : Type) (m : io (cat * A)) (g : cat * A -> io (cat * bool)), safe m keeps -> (forall x, g x = Ret (x.1, (match g x with Ret y => y.2 | _ => true end))) ->
    safe (bind m g) keeps) as Hgen.
  { intros A m g Hm Hg. eapply safe_bind; [exact Hm|]. intros x Hx. rewrite (Hg x). exact Hx. }
  assert (forall (A : Type) (m : io (cat * A)) (P : cat * A -> Prop), (forall x, P x -> mem_wedged x.1) -> safe m P -> safe m keeps) as Hk.
  { intros A m P HP. apply safe_mono. exact HP. }
  destruct q as [p|size count chunk h' name|h'|h' i data|order|h'|h'|fuel h' i|h'|pid now]; cbn [cprog typed] in *.
  - rewrite run_bind. destruct (run_share c p f H Hf Ht) as [R1 R2]. destruct (run f (share_file cwd c p)) as [f1 out].
    cbn [fst snd] in *. destruct out as [a|w|]; cbn [run fst snd]; [|done|done]. split; [done|]. intros a' [= <-]. apply (R2 a eq_refl).
  - apply safe_run; [done|]. apply Hgen; [|done]. destruct Ht as (T1 & T2 & T3). eapply Hk; [|apply safe_register; done]. intros x Hx; apply Hx.
  - apply safe_run; [done|]. apply Hgen; [|done]. eapply Hk; [|apply safe_unshare; done]. intros x Hx; apply Hx.
  - apply safe_run; [done|]. apply Hgen; [|done]. apply safe_save; [done|apply Ht].
  - apply safe_run; [done|]. apply Hgen; [|done]. eapply Hk; [|apply safe_list; done]. intros x Hx; apply Hx.
  - apply safe_run; [done|]. apply Hgen; [|done]. eapply Hk; [|apply safe_contains; done]. intros x Hx; apply Hx.
  - apply safe_run; [done|]. apply Hgen; [|done]. apply safe_rehash. done.
  - apply safe_run; [done|]. apply Hgen; [|done]. apply safe_reader. done.
  - apply safe_run; [done|]. apply Hgen; [|done]. apply safe_complete. done.
  - apply safe_run; [done|]. pose proof H as (-> & -> & _). eapply safe_bind; [apply safe_open|].
    intros [c'|w|w] Hc; cbn [safe]; [|done|done]. unfold keeps. cbn [fst]. apply Hc. done.
Qed.
Lemma later_wedged c f c' f' : mem_wedged c -> disk_wedged f -> later cwd dir dl c f c' f' -> mem_wedged c' /\ disk_wedged f'.
Proof.
  intros H Hf Hl. induction Hl as [c f|c f c1 f1 q c' f' b _ IH Ht Hr|c f c1 f1 q w f' pid now c' f2 _ IH Ht Hr Ho|c f c1 f1 f' _ IH Hd Hp].
  - done.
  - destruct (IH H Hf) as [H1 H2]. destruct (run_call c1 f1 q H1 H2 Ht) as [R1 R2]. rewrite Hr in R1, R2. cbn [fst snd] in *.
    split; [apply (R2 (c', b) eq_refl)|done].
  - destruct (IH H Hf) as [H1 H2]. destruct (run_call c1 f1 q H1 H2 Ht) as [R1 R2]. rewrite Hr in R1, R2. cbn [fst snd] in *.
    destruct (safe_run _ _ f' R1 (safe_open pid now)) as [S1 S2]. rewrite Ho in S1, S2. cbn [fst snd] in *. split; [|done].
    apply (S2 _ eq_refl). done.
  - destruct (IH H Hf) as [H1 (D1 & D2 & c0 & D3 & D4)]. split; [done|].
    split_and!; [rewrite Hd; done|rewrite Hp; [done|apply parent_prog; done]|].
    exists c0. split; [|done]. rewrite Hp; [done|apply parent_index; done].
Qed.
(** nothing involving [h] works in a wedged state *)
Lemma wedged_useless c f : mem_wedged c -> disk_wedged f -> broken cwd h c f.
Proof.
  intros H Hf.
  assert (forall (A : Type) (m : io (cat * res A)) (f' : fs) c', safe m (fun x => forall y, x.2 = Ok y -> False) ->
    run f (do! r := m in Ret (r.1, match r.2 with Ok _ => true | _ => false end)) <> (f', Done (c', true))) as Hgen.
  { intros A m f' c' Hs E. rewrite run_bind in E. destruct (safe_run m _ f Hf Hs) as [_ R2].
    destruct (run f m) as [f1 out]. cbn [snd] in R2. destruct out as [[c2 r]|w|]; cbn [run fst snd] in E; [|done|done].
    destruct r as [y|w|w]; simplify_eq. apply (R2 _ eq_refl y eq_refl). }
  split_and!.
  - intros order f' c' Ho. cbn [cprog]. apply Hgen. eapply safe_mono; [|apply safe_list; done].
    intros x [_ Hx] y Hy. apply (Hx y Hy). apply Ho. destruct H as (_ & _ & (_ & _ & [r0 Hr0] & _) & _). congruence.
  - intros f' c'. cbn [cprog]. apply Hgen. eapply safe_mono; [|apply safe_unshare; done].
    intros x [_ Hx] [] Hy. apply (Hx Hy). done.
  - intros f' c'. cbn [cprog]. apply Hgen. eapply safe_mono; [|apply safe_contains; done].
    intros x [_ Hx] y Hy. apply (Hx y Hy). done.
  - intros p l f' c' Hl Hsm Hsh E. cbn [cprog] in E. rewrite run_bind in E.
    destruct (run_share c p f H Hf) as [_ R2]; [intros l' Hl'; congruence|].
    destruct (run f (share_file cwd c p)) as [f1 out]. cbn [snd] in R2. destruct out as [[c2 r]|w|]; cbn [run fst snd] in E; [|done|done].
    destruct r as [y|w|w]; simplify_eq. destruct (R2 _ eq_refl) as [_ R3]. apply (R3 y l eq_refl Hl). done.
Qed.
End wedge.

(** ** The crash states in question are wedged *)
Lemma synced_good c f A h a : synced c f A -> A !! h = Some a -> good_index (c_dir c) h c.
Proof.
  intros H Ha. split_and!; [apply H|apply (synced_ints _ _ _ H)| |].
  - pose proof (sy_ent _ _ _ H h) as He. rewrite Ha in He. destruct (c_index c !! h) as [r|]; [eauto|done].
  - intros h' r Hr. pose proof (sy_ent _ _ _ H h') as He. rewrite Hr in He. destruct (A !! h'); [|done]. apply He.
Qed.
Lemma wedged_start cwd c f h : is_rooted cwd = true -> clean_abs (c_dir c) -> clean_abs (c_dl c) -> valid_utf8 (c_dir c) ->
  hash_wf h -> disk_wedged (c_dir c) h f -> 
  exists c1, starts cwd (c_dir c) (c_dl c) f c1 /\ mem_wedged (c_dir c) (c_dl c) h c1.
Proof.
  intros Hcwd Hd Hdl Hu Hw Hf. pose proof Hf as (Hdir & _ & c4 & Hi & Hg).
  pose proof (starts_whole cwd (c_dir c) (c_dl c) f c4 Hcwd Hd Hdl Hdir ltac:(apply Hg) Hi) as Hst.
  eexists. split; [exact Hst|].
  match type of Hst with starts _ _ _ _ ?c1 => set (c' := c1) in * end.
  assert (disk_wedged (c_dir c) h (run f (open_cat 0 0 cwd (c_dir c) (c_dl c))).1 /\
    forall a, (run f (open_cat 0 0 cwd (c_dir c) (c_dl c))).2 = Done a -> forall c1, a = Ok c1 -> mem_wedged (c_dir c) (c_dl c) h c1) as [_ S2].
  { eapply safe_run; try done. eapply safe_open; done. }
  rewrite (Hst 0%Z 0%Z) in S2. apply (S2 _ eq_refl). done.
Qed.


Lemma wedged_stuck cwd c f h : is_rooted cwd = true -> clean_abs (c_dir c) -> clean_abs (c_dl c) -> valid_utf8 (c_dir c) ->
  hash_wf h -> disk_wedged (c_dir c) h f -> stuck cwd (c_dir c) (c_dl c) h f.
Proof.
  intros Hcwd Hd Hdl Hu Hw Hf. destruct (wedged_start cwd c f h Hcwd Hd Hdl Hu Hw Hf) as (c1 & Hst & Hm).
  exists c1. split; [done|]. intros c' f' Hl.
  destruct (later_wedged cwd (c_dir c) (c_dl c) h) with (c := c1) (f := f) (c' := c') (f' := f') as [H1 H2]; try done.
  apply (wedged_useless cwd (c_dir c) (c_dl c) h); done.
Qed.
(** killed between the two updates of Unshare *)
Lemma C33_unshare_lemma cwd dir dl A c f h a : reached cwd dir dl A c f -> A !! h = Some a -> valid_utf8 dir ->
  exists f', ckilled cwd c f (CUnshare h) f' /\ stuck cwd dir dl h f'.
Proof.
  intros H Ha Hu. pose proof (reached_synced _ _ _ _ _ _ H) as (Hcwd & Hs & <- & <-).
  pose proof (sy_dir _ _ _ Hs) as Hd. pose proof (sy_dl _ _ _ Hs) as Hdl.
  assert (hash_wf h) as Hw by (apply (entries_wf _ _ _ _ _ (sy_ent _ _ _ Hs)); rewrite Ha; done).
  destruct (get_record_ok c f A h a Hs Ha) as (r & b & Hrun & Hp & Hrel & Hb & Hs1 & Hm & Hfile).
  exists (delete (prog_path (c_dir c) h) f). split.
  - cbn [ckilled]. unfold unshare_file. eapply killed_run; [exact Hrun|]. cbn [on_ok snd].
    eapply killed_run; [|apply ki_here]. unfold delete_prog. cbn [p_file run do_op].
    rewrite join1_clean by (apply prog_path_clean; done). rewrite Hfile. done.
  - apply wedged_stuck; try done. split_and!.
    + rewrite lookup_delete_ne; [apply Hs|]. apply dir_not_child; [done|apply hash_normal; done].
    + rewrite lookup_delete. done.
    + exists c. rewrite lookup_delete_ne by (apply prog_path_ne_index; done). split; [apply Hs|]. apply (synced_good _ f A _ a); done.
Qed.
Lemma good_add c f A h r : synced c f A -> hash_wf h -> r_hash r = h -> int64 (r_size r) -> int64 (r_chunk r) ->
  good_index (c_dir c) h (set_index c (<[h := r]> (c_index c))).
Proof.
  intros H Hw Hr Hs Hc. split_and!; [apply H|apply cat_ints_insert; [apply (synced_ints _ _ _ H)|congruence..]| |].
  - cbn [set_index c_index]. rewrite lookup_insert. eauto.
  - cbn [set_index c_index]. intros h' r' Hl. apply lookup_insert_Some in Hl as [[<- <-]|[_ Hl]]; [done|].
    pose proof (sy_ent _ _ _ H h') as He. rewrite Hl in He. destruct (A !! h'); [|done]. apply He.
Qed.
Lemma run_add c f A r : synced c f A -> A !! r_hash r = None ->
  run f (add_record c r) = (<[join2 (c_dir c) index_name := NFile (marshal (set_index c (<[r_hash r := r]> (c_index c))))]> f,
    Done (set_index c (<[r_hash r := r]> (c_index c)), Ok tt)).
Proof.
  intros H Ha. unfold add_record. apply (entries_none _ _ _ _ _ (sy_ent _ _ _ H)) in Ha. rewrite Ha.
  set (c1 := set_index c _). rewrite run_bind.
  rewrite save_index_run by (change (c_inddir c1) with (c_inddir c); rewrite (sy_ind _ _ _ H); apply (sy_writable _ _ _ _ H), index_normal).
  change (c_inddir c1) with (c_inddir c). rewrite (sy_ind _ _ _ H). done.
Qed.
Lemma added_stuck cwd A c f r : is_rooted cwd = true -> synced c f A -> hash_wf (r_hash r) -> int64 (r_size r) -> int64 (r_chunk r) ->
  valid_utf8 (c_dir c) -> f !! prog_path (c_dir c) (r_hash r) = None ->
  stuck cwd (c_dir c) (c_dl c) (r_hash r) (<[join2 (c_dir c) index_name := NFile (marshal (set_index c (<[r_hash r := r]> (c_index c))))]> f).
Proof.
  intros Hcwd H Hw Hs Hc Hu Hno. pose proof (sy_dir _ _ _ H) as Hd. pose proof (sy_dl _ _ _ H) as Hdl.
  apply wedged_stuck; try done. split_and!.
  - rewrite lookup_insert_ne; [apply H|]. apply dir_not_child; [done|apply index_normal].
  - rewrite lookup_insert_ne; [rewrite Hno; done|]. apply not_eq_sym, prog_path_ne_index; done.
  - eexists. rewrite lookup_insert. split; [done|]. apply (good_add _ f A); done.
Qed.
(** killed between the two updates of Share and RegisterDownload *)
Lemma C33_share_lemma cwd dir dl A c f p l : reached cwd dir dl A c f -> valid_utf8 dir ->
  file_at f (abs cwd p) = Some l -> small l -> A !! sha1 l = None -> f !! prog_path dir (sha1 l) = None ->
  exists f', ckilled cwd c f (CShare p) f' /\ stuck cwd dir dl (sha1 l) f'.
Proof.
  intros H Hu Hl Hsm Hn Hno. pose proof (reached_synced _ _ _ _ _ _ H) as (Hcwd & Hs & <- & <-).
  set (r := mkRec (abs cwd p) (Z.of_nat (length l)) (sha1 l) None default_chunk_size).
  exists (<[join2 (c_dir c) index_name := NFile (marshal (set_index c (<[r_hash r := r]> (c_index c))))]> f). split.
  - cbn [ckilled]. unfold share_file. eapply killed_run.
    + unfold generate_record. cbn [run do_op]. unfold file_at in Hl. destruct (f !! abs cwd p) as [[l0|]|] eqn:E; simplify_eq.
      rewrite run_bind. unfold hash_path. cbn [run do_op]. rewrite E. cbn [run]. rewrite hash_of_regular. cbn [rbind]. reflexivity.
    + cbn [on_ok]. eapply killed_run; [apply (run_add c f A r Hs Hn)|]. apply ki_here.
  - unfold small in Hsm. apply (added_stuck cwd A c f r); try done; cbn [r r_size r_chunk r_hash]; try apply sha1_wf; unfold int64, default_chunk_size; lia.
Qed.
Lemma C33_register_lemma cwd dir dl A c f size count chunk h name : reached cwd dir dl A c f -> valid_utf8 dir ->
  (size < 18446744073709551616)%N -> (chunk < 4294967296)%N -> hash_wf h -> A !! h = None -> f !! prog_path dir h = None ->
  exists f', ckilled cwd c f (CRegister size count chunk h name) f' /\ stuck cwd dir dl h f'.
Proof.
  intros H Hu Hsz Hch Hw Hn Hno. pose proof (reached_synced _ _ _ _ _ _ H) as (Hcwd & Hs & <- & <-).
  set (r := mkRec (join2 (c_dl c) name) (int_of_u64 size) h None (Z.of_N chunk)).
  exists (<[join2 (c_dir c) index_name := NFile (marshal (set_index c (<[r_hash r := r]> (c_index c))))]> f). split.
  - cbn [ckilled]. unfold register_download. fold r. eapply killed_run; [apply (run_add c f A r Hs Hn)|]. apply ki_here.
  - apply (added_stuck cwd A c f r); try done; cbn [r r_size r_chunk r_hash]; [apply int64_u64; done|unfold int64; lia].
Qed.

(** *** C32 fails: killed inside the write of index.json *)
Lemma marshal_nonempty c : 0 < length (marshal c).
Proof. unfold marshal, json_marshal, index_json. cbn [print_json]. apply Nat.lt_0_succ. Qed.

Lemma torn_wont cwd A c f c1 : is_rooted cwd = true -> synced c f A ->
  wont_start cwd (c_dir c) (c_dl c) (<[join2 (c_dir c) index_name := NFile (take 0 (marshal c1))]> f).
Proof.
  intros Hcwd H. pose proof (sy_dir _ _ _ H) as Hd. apply (starts_torn _ _ _ _ (marshal c1) 0 c1); try done.
  - rewrite lookup_insert_ne; [apply H|]. apply dir_not_child; [done|apply index_normal].
  - apply lookup_insert.
  - apply marshal_nonempty.
Qed.
Lemma killed_index c f A c1 : synced c f A -> c_inddir c1 = c_dir c ->
  killed f (save_index c1) (<[join2 (c_dir c) index_name := NFile (take 0 (marshal c1))]> f).
Proof.
  intros H Hi. unfold save_index. rewrite Hi. apply ki_during, pa_write. apply (sy_writable _ _ _ _ H), index_normal.
Qed.
Lemma killed_add_torn c f A r : synced c f A -> A !! r_hash r = None ->
  killed f (add_record c r) (<[join2 (c_dir c) index_name := NFile (take 0 (marshal (set_index c (<[r_hash r := r]> (c_index c)))))]> f).
Proof.
  intros H Hn. unfold add_record. apply (entries_none _ _ _ _ _ (sy_ent _ _ _ H)) in Hn. rewrite Hn.
  apply killed_left, (killed_index c f A); [done|apply H].
Qed.
Lemma C32_refuted_lemma cwd dir dl A c f q h : reached cwd dir dl A c f -> allowed cwd dir dl A f q -> about cwd f q h ->
  match q with
  | CShare _ | CRegister _ _ _ _ _ => A !! h = None
  | CUnshare _ => A !! h <> None
  | _ => False
  end ->
  exists f', ckilled cwd c f q f' /\ wont_start cwd dir dl f'.
Proof.
  intros H Hal Hab Hq. pose proof (reached_synced _ _ _ _ _ _ H) as (Hcwd & Hs & <- & <-).
  destruct q as [p|size count chunk h' name|h'|h' i data|order|h'|h'|fuel h' i|h'|pid now]; try done; cbn [about ckilled] in *.
  - destruct Hab as (l & Hl & ->). eexists. split; [|apply (torn_wont cwd A c f); done].
    unfold share_file. eapply killed_run.
    + unfold generate_record. cbn [run do_op]. unfold file_at in Hl. destruct (f !! abs cwd p) as [[l0|]|] eqn:E; simplify_eq.
      rewrite run_bind. unfold hash_path. cbn [run do_op]. rewrite E. cbn [run]. rewrite hash_of_regular. cbn [rbind]. reflexivity.
    + cbn [on_ok]. apply killed_left. apply (killed_add_torn c f A); done.
  - subst h'. eexists. split; [|apply (torn_wont cwd A c f); done].
    unfold register_download. apply killed_left. apply (killed_add_torn c f A); done.
  - subst h'. destruct (A !! h) as [a|] eqn:Ha; [|done].
    assert (hash_wf h) as Hw by (apply (entries_wf _ _ _ _ _ (sy_ent _ _ _ Hs)); rewrite Ha; done).
    destruct (get_record_ok c f A h a Hs Ha) as (r & b & Hrun & Hp & Hrel & Hb & Hs1 & Hm & Hfile).
    pose proof (sy_dir _ _ _ Hs) as Hd.
    set (c1 := set_index c (<[h := r]> (c_index c))) in *.
    set (c2 := set_index c1 (delete (r_hash r) (c_index c1))).
    set (f1 := delete (prog_path (c_dir c) h) f).
    exists (<[join2 (c_dir c) index_name := NFile (take 0 (marshal c2))]> f1). split.
    + unfold unshare_file. eapply killed_run; [exact Hrun|]. cbn [on_ok snd fst].
      eapply (killed_run _ _ f f1 (Ok tt)).
      * unfold delete_prog. cbn [p_file run do_op]. rewrite join1_clean by (apply prog_path_clean; done). rewrite Hfile. done.
      * cbn [on_ok]. unfold remove_record. fold c2. apply killed_left. unfold save_index.
        change (c_inddir c2) with (c_inddir c). rewrite (sy_ind _ _ _ Hs). apply ki_during, pa_write.
        apply writable_child; [done|apply index_normal| |].
        -- unfold f1. rewrite lookup_delete_ne; [apply Hs|]. apply dir_not_child; [done|apply hash_normal; done].
        -- unfold f1. rewrite lookup_delete_ne by (apply prog_path_ne_index; done). apply Hs. apply index_normal.
    + apply (starts_torn _ _ _ _ (marshal c2) 0 c2); try done.
      * rewrite lookup_insert_ne; [|apply dir_not_child; [done|apply index_normal]].
        unfold f1. rewrite lookup_delete_ne; [apply Hs|]. apply dir_not_child; [done|apply hash_normal; done].
      * apply lookup_insert.
      * apply marshal_nonempty.
Qed.

(** *** C70 *)
Lemma C70_lemma pid now cwd dir dl f data p t m d : is_rooted cwd = true ->
  f !! abs cwd dir = Some NDir -> f !! join2 (abs cwd dir) index_name = Some (NFile data) ->
  unmarshal data = Ok (p, t, m, d) ->
  exists c, run f (open_cat pid now cwd dir dl) = (f, Done (Ok c)) /\ c_dir c = abs cwd dir
    /\ forall c' f1 f2 e, c_inddir c' = c_inddir c -> execs f1 (save_index c') f2 (Done e) ->
         (forall q, q <> join2 d index_name -> f2 !! q = f1 !! q)
         /\ (e = Ok tt -> f2 !! join2 d index_name = Some (NFile (marshal c'))).
Proof.
  intros Hc Hd Hi Hm. eexists. split; [|split; [|]].
  - rewrite (open_existing pid now cwd dir dl f data) by done. apply (ind_load_ok _ _ m p t d data); done.
  - done.
  - cbn [c_inddir]. intros c' f1 f2 e Hc' He. apply save_index_runs in He. rewrite Hc' in He.
    destruct He as [(-> & Hw & ->)|[[w ->] Hf]].
    + split; [intros q Hq; apply lookup_insert_ne; done|]. intros _. apply lookup_insert.
    + split; [done|done].
Qed.
