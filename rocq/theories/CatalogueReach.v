(** Proofs about the catalogue, part 5: reachable states, restarts, JSON, and the
    calls when I/O may fail. *)
From Verif Require Export CatalogueHist.
From Coq Require Import ZifyBool ZifyNat ZifyN.
Ltac Zify.zify_post_hook ::= Z.div_mod_to_equations.

Lemma aspec_det cwd dir dl A f q A1 A2 f1 f2 ans : 
  aspec cwd dir dl A f q A1 f1 ans -> aspec cwd dir dl A f q A2 f2 ans -> A1 = A2.
Proof.
  destruct q as [p|size count chunk h name|h|h i data|order|h|h|fuel h i|h|pid now]; cbn [aspec].
  - intros (_ & H1) (_ & H2). repeat case_match; naive_solver.
  - intros (_ & H1) (_ & H2). repeat case_match; naive_solver.
  - intros (_ & H1 & _) (_ & H2 & _). congruence.
  - destruct (A !! h) as [a|]; [|done]. intros [(H1 & H2 & H3 & _)|(H1 & H2 & H3 & _)] [(G1 & G2 & G3 & _)|(G1 & G2 & G3 & _)]; congruence.
  - naive_solver.
  - naive_solver.
  - naive_solver.
  - naive_solver.
  - naive_solver.
  - naive_solver.
Qed.
Lemma reached_synced cwd dir dl A c f : reached cwd dir dl A c f ->
  is_rooted cwd = true /\ synced c f A /\ c_dir c = dir /\ c_dl c = dl.
Proof.
  induction 1 as [dir0 dl0 pid now f0 f c H Hd Hdl|A c f q A' c' f' ans H IH Hal Hr Hs|A c f f' H IH Hd Hp].
  - pose proof (fresh_synced _ _ _ _ _ _ _ _ H) as (?&?&?). destruct H as [Hc _]. subst. done.
  - destruct IH as (Hc & Hsy & Hd & Hdl). subst dir dl.
    destruct (call_ok cwd c f A q Hc Hsy Hal) as (c2 & f2 & A2 & ans2 & H1 & H2 & H3 & H4 & H5).
    rewrite Hr in H1. simplify_eq. assert (A' = A2) as -> by (eapply aspec_det; done). done.
  - destruct IH as (Hc & Hsy & Hdd & Hdl). split; [done|]. split; [|done]. subst dir. apply (synced_user _ f); done.
Qed.
Lemma reached_call cwd dir dl A c f q : reached cwd dir dl A c f -> allowed cwd dir dl A f q ->
  exists c' f' A' ans, crun cwd c f q = Some (c', f', ans) /\ aspec cwd dir dl A f q A' f' ans
    /\ reached cwd dir dl A' c' f'.
Proof.
  intros H Hal. pose proof (reached_synced _ _ _ _ _ _ H) as (Hc & Hs & Hd & Hdl). subst dir dl.
  destruct (call_ok cwd c f A q Hc Hs Hal) as (c2 & f2 & A2 & ans2 & H1 & H2 & H3 & H4 & H5).
  exists c2, f2, A2, ans2. split; [done|]. split; [done|]. eapply re_call; done.
Qed.

(** *** C27: listings *)
Lemma forall2_hashes (A : astate) l order : Forall2 (fun x h => exists a, A !! h = Some a /\ shows x h a) l order -> map x_hash l = order.
Proof. induction 1 as [|x h l order (a & Ha & Hs) _ IH]; [done|]. cbn. f_equal; [apply Hs|done]. Qed.
Lemma C27_list_lemma cwd dir dl A c f order c' f' l : reached cwd dir dl A c f ->
  allowed cwd dir dl A f (CList order) ->
  crun cwd c f (CList order) = Some (c', f', AList l) -> NoDup (map x_hash l) /\ map x_hash l = order.
Proof.
  intros H Hal Hr. destruct (reached_call _ _ _ _ _ _ _ H Hal) as (c2 & f2 & A2 & ans & H1 & H2 & _).
  rewrite Hr in H1. simplify_eq. cbn [aspec] in H2. destruct H2 as (_ & _ & l' & E & HF). simplify_eq.
  rewrite (forall2_hashes _ _ _ HF). split; [apply Hal|done].
Qed.

(** *** C29 *)
Lemma bserialize_inj a b : binv a -> binv b -> bserialize a = bserialize b -> a = b.
Proof.
  intros Ha Hb E. pose proof (bdeserialize_serialize a (binv_words _ Ha)) as H1.
  pose proof (bdeserialize_serialize b (binv_words _ Hb)) as H2. pose proof (binv_size _ Ha). pose proof (binv_size _ Hb).
  rewrite E in H1. rewrite H2 in H1 by lia. specialize (H1 ltac:(lia)). congruence.
Qed.
(** what listing shows is determined by the abstract entry and the disk *)
Lemma list_exact order : forall c f A acc, synced c f A -> (forall h, h ∈ order -> A !! h <> None) ->
  forall c2 acc2, synced c2 f A -> c_dir c2 = c_dir c -> 
  exists c' c2' l, run f (list_loop c order acc) = (f, Done (c', Ok (acc ++ l)))
    /\ run f (list_loop c2 order acc2) = (f, Done (c2', Ok (acc2 ++ l))).
Proof.
  induction order as [|h order IH]; intros c f A acc H Hin c2 acc2 H2 Hd; cbn [list_loop].
  - exists c, c2, []. rewrite !app_nil_r. done.
  - destruct (A !! h) as [a|] eqn:Ha; [|exfalso; apply (Hin h); [set_solver|done]].
    destruct (get_record_ok c f A h a H Ha) as (r & b & Hrun & Hp & Hrel & Hb & Hs & Hm & Hfile).
    destruct (get_record_ok c2 f A h a H2 Ha) as (r2 & b2 & Hrun2 & Hp2 & Hrel2 & Hb2 & Hs2 & Hm2 & Hfile2).
    rewrite Hd in *. rewrite Hfile in Hfile2. assert (b = b2) as <-.
    { apply bserialize_inj; [apply Hb|apply Hb2|congruence]. }
    assert (export_of r (mkProg b (prog_path (c_dir c) h)) = export_of r2 (mkProg b (prog_path (c_dir c) h))) as Ex.
    { destruct Hrel as (E1 & _ & E2 & _ & E3 & _ & E4 & _). destruct Hrel2 as (F1 & _ & F2 & _ & F3 & _ & F4 & _).
      unfold export_of. congruence. }
    unfold get_record in Hrun, Hrun2. destruct (c_index c !! h) as [r0|] eqn:Er; [|cbn in Hrun; simplify_eq].
    destruct (c_index c2 !! h) as [r02|] eqn:Er2; [|cbn in Hrun2; simplify_eq].
    rewrite !run_bind, Hrun, Hrun2. cbn [on_ok fst snd].
    destruct (IH _ f A (acc ++ [export_of r (mkProg b (prog_path (c_dir c) h))]) Hs ltac:(set_solver) _
       (acc2 ++ [export_of r2 (mkProg b (prog_path (c_dir c) h))]) Hs2 Hd) as (c' & c2' & l & H3 & H4).
    exists c', c2', (export_of r (mkProg b (prog_path (c_dir c) h)) :: l).
    rewrite H3, H4, <- !app_assoc, <- Ex. done.
Qed.
Lemma C29_lemma cwd dir dl A c f pid now order : reached cwd dir dl A c f ->
  valid_utf8 dir -> (forall h a, A !! h = Some a -> valid_utf8 (a_path a)) ->
  NoDup order -> (forall h, h ∈ order <-> A !! h <> None) ->
  exists c' l c1 c1', crun cwd c f (CRestart pid now) = Some (c', f, AOk) /\ reached cwd dir dl A c' f
    /\ crun cwd c f (CList order) = Some (c1, f, AList l)
    /\ crun cwd c' f (CList order) = Some (c1', f, AList l).
Proof.
  intros H Hu Hp Hnd Hin. pose proof (reached_synced _ _ _ _ _ _ H) as (Hc & Hs & Hd & Hdl).
  destruct (restart_ok c f A pid now cwd Hc Hs ltac:(congruence) Hp) as (c' & Hr & Hs' & Hd' & Hdl').
  destruct (list_exact order c f A [] Hs ltac:(intros h Hh; apply Hin; done) c' [] Hs' Hd') as (c1 & c1' & l & H1 & H2).
  exists c', l, c1, c1'. cbn [crun]. rewrite Hr. split; [done|]. split.
  - eapply re_call with (q := CRestart pid now) (ans := AOk); [exact H|split; done|cbn [crun]; rewrite Hr; done|done].
  - unfold list_files. rewrite H1, H2. done.
Qed.

(** *** C30 *)
Lemma C30_roundtrip_lemma c : cat_ints c -> valid_utf8 (c_inddir c) ->
  (forall h r, c_index c !! h = Some r -> valid_utf8 (r_path r)) ->
  unmarshal (marshal c) = Ok (c_pid c, c_touched c,
     (fun r => mkRec (r_path r) (r_size r) (r_hash r) None (r_chunk r)) <$> c_index c, c_inddir c).
Proof.
  intros Hc Hu Hp. rewrite unmarshal_marshal_cat by done. rewrite (proj2 (sanitize_id_iff _) Hu).
  do 3 f_equal. apply map_fmap_ext. intros h r Hr. unfold san_irec. rewrite (proj2 (sanitize_id_iff _) (Hp h r Hr)). done.
Qed.
Lemma C30_truncated_lemma c p s : marshal c = p ++ s -> s <> [] -> unmarshal p = Err "json".
Proof. intros H Hs. unfold unmarshal. rewrite (unmarshal_truncated _ p s H Hs). done. Qed.

(** *** C31 *)
Lemma C31_lemma cwd dir dl A c f pid now : reached cwd dir dl A c f ->
  exists c', run f (open_cat pid now cwd dir dl) = (f, Done (Ok c')) /\
    forall h a, A !! h = Some a -> exists r, c_index c' !! h = Some r /\ r_path r = sanitize (a_path a)
      /\ (r_path r = a_path a <-> valid_utf8 (a_path a)).
Proof.
  intros H. pose proof (reached_synced _ _ _ _ _ _ H) as (Hc & Hs & Hd & Hdl). subst dir dl.
  eexists. split; [apply (restart_gen c f A); done|]. intros h a Ha. cbn [c_index]. rewrite lookup_fmap.
  pose proof (sy_ent _ _ _ Hs h) as He. rewrite Ha in He. destruct (c_index c !! h) as [r|]; [|done].
  destruct He as (_ & _ & Hp & _). eexists. split; [done|]. cbn [san_irec r_path]. rewrite Hp. split; [done|].
  apply sanitize_id_iff.
Qed.
