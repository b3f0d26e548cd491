(** Proofs about Clean (C43, C44). *)
From Verif Require Export CleanSpec CatalogueDownload.
From Coq Require Import ZifyBool ZifyNat ZifyN.
Ltac Zify.zify_post_hook ::= Z.div_mod_to_equations.

Lemma list_bits order : forall c f A acc, synced c f A -> (forall h, h ∈ order -> A !! h <> None) ->
  exists c' l, run f (list_loop c order acc) = (f, Done (c', Ok (acc ++ l)))
    /\ Forall2 (fun x h => exists a, A !! h = Some a /\ x_path x = a_path a /\ x_hash x = h /\ brel (x_bits x) (a_held a, a_count a)) l order.
Proof.
  induction order as [|h order IH]; intros c f A acc H Hin; cbn [list_loop].
  - exists c, []. rewrite app_nil_r. split_and!; [done..|constructor].
  - destruct (A !! h) as [a|] eqn:Ha; [|exfalso; apply (Hin h); [set_solver|done]].
    destruct (get_record_ok c f A h a H Ha) as (r & b & Hrun & Hp & Hrel & Hb & Hs & Hm & Hfile).
    unfold get_record in Hrun. destruct (c_index c !! h) as [r0|] eqn:Er; [|cbn in Hrun; simplify_eq].
    rewrite run_bind, Hrun. cbn [on_ok fst snd].
    destruct (IH (set_index c (<[h:=r]> (c_index c))) f A (acc ++ [export_of r (mkProg b (prog_path (c_dir c) h))]) Hs) as (c' & l & H1 & H5); [set_solver|].
    exists c'. eexists. rewrite H1, <- app_assoc. cbn [app]. split; [done|].
    constructor; [|done]. exists a. split; [done|]. destruct Hrel as (R1 & R2 & R3 & _).
    cbn [export_of x_path x_hash x_bits p_bits]. split; [done|]. split; [done|].
    assert (bcopy b = b) as -> by (destruct b; done). done.
Qed.
Lemma full_complete b a : brel b (a_held a, a_count a) -> bfull b = Ok (bool_decide (complete a)).
Proof.
  intros (Hi & Hn & Hb). cbn [fst snd] in *. destruct (bfull_spec b Hi) as (v & Hv & Hspec). rewrite Hv. f_equal.
  apply eq_true_iff_eq. rewrite bool_decide_eq_true, Hspec. unfold complete. split.
  - intros Hall x Hx. apply elem_of_all_below in Hx. apply Hb, Hall. rewrite Hn. done.
  - intros Hsub y Hy. apply Hb, Hsub. apply elem_of_all_below. rewrite Hn in Hy. done.
Qed.
Global Instance removes_dec a : Decision (removes a).
Proof. unfold removes. destruct a; try (left; auto; fail); right; intros [?|?]; done. Defined.
(** Clean makes only catalogue calls, so it preserves whatever they preserve *)
Section clean.
  Context (cwd dir dl : path) (R : astate -> cat -> fs -> Prop).
  Context (HR : forall A c f, R A c f -> reached cwd dir dl A c f).
  Context (Hcall : forall A c f q A' c' f' ans, R A c f -> allowed cwd dir dl A f q -> crun cwd c f q = Some (c', f', ans) ->
    aspec cwd dir dl A f q A' f' ans -> R A' c' f').
Lemma R_call A c f q : R A c f -> allowed cwd dir dl A f q ->
  exists c' f' A' ans, crun cwd c f q = Some (c', f', ans) /\ aspec cwd dir dl A f q A' f' ans /\ R A' c' f'.
Proof.
  intros H Hal. destruct (reached_call cwd dir dl A c f q (HR _ _ _ H) Hal) as (c' & f' & A' & ans & Hr & Hs & _).
  exists c', f', A', ans. split; [done|]. split; [done|]. exact (Hcall _ _ _ _ _ _ _ _ H Hal Hr Hs).
Qed.
Lemma reached_rehash A c f h a : R A c f -> A !! h = Some a ->
  exists c1, R A c1 f /\
    (file_at f (a_path a) = None -> exists e, run f (rehash c h) = (f, Done (c1, (Some (replicate 20 xff), Some e)))) /\
    (forall l, file_at f (a_path a) = Some l -> run f (rehash c h) = (f, Done (c1, (Some (sha1 l), None)))).
Proof.
  intros H Ea. pose proof (reached_synced _ _ _ _ _ _ (HR _ _ _ H)) as (Hcwd & Hsy & Hd & Hdl).
  destruct (R_call A c f (CRehash h) H I) as (c' & f' & A' & ans & Hr & Hs & Hre).
  cbn [aspec] in Hs. destruct Hs as (_ & -> & _).
  destruct (get_record_ok c f A h a Hsy Ea) as (r & b & Hrun & Hp & Hrel & Hb & Hs & Hm & Hfile).
  pose proof Hrel as (_ & _ & Hrp & _).
  exists (set_index c (<[h := r]> (c_index c))).
  cbn [crun] in Hr. unfold rehash in Hr |- *. rewrite run_bind, Hrun in Hr |- *. cbn [fst] in Hr |- *. rewrite run_bind in Hr |- *.
  unfold hash_path in Hr |- *. cbn [run do_op] in Hr |- *. rewrite Hrp in Hr |- *.
  unfold file_at. destruct (f !! a_path a) as [[l|]|]; cbn [run finish fst snd] in Hr |- *.
  - rewrite hash_of_regular in *. simplify_eq. split; [done|]. split; [done|]. intros l' [= ->]. done.
  - simplify_eq. split; [done|]. split; [|done]. intros _. eexists. done.
  - simplify_eq. split; [done|]. split; [|done]. intros _. eexists. done.
Qed.
Lemma reached_unshare A c f h a : R A c f -> A !! h = Some a ->
  exists c1 f1, run f (unshare_file c h) = (f1, Done (c1, Ok tt)) /\ R (delete h A) c1 f1 /\ same_user dir f f1.
Proof.
  intros H Ea. pose proof (reached_synced _ _ _ _ _ _ (HR _ _ _ H)) as (Hcwd & Hsy & Hd & Hdl).
  destruct (R_call A c f (CUnshare h) H I) as (c' & f' & A' & ans & Hr & Hs & Hre).
  cbn [aspec] in Hs. destruct Hs as (Hsu & -> & _).
  destruct (unshare_ok c f A h a Hsy Ea) as (f1 & Hrun & _).
  cbn [crun] in Hr. rewrite Hrun in Hr. cbn [finish fst snd ans_of] in Hr. simplify_eq.
  eexists _, _. split; [exact Hrun|]. done.
Qed.
Definition after (f : fs) (h : hash) (a : aentry) (A : astate) : astate :=
  if decide (removes (verdict f h a).1) then delete h A else A.
Lemma clean_one_ok A c f x h a : R A c f -> A !! h = Some a ->
  x_path x = a_path a -> x_hash x = h -> brel (x_bits x) (a_held a, a_count a) ->
  exists c' f', run f (clean_one c x) = (f', Done (c', Ok (mkItem (a_path a) h (verdict f h a).2 (verdict f h a).1)))
    /\ R (after f h a A) c' f' /\ same_user dir f f'.
Proof.
  intros H Ha Hp Hh Hb. destruct (reached_rehash _ _ _ h a H Ha) as (c1 & H1 & Hnone & Hsome).
  unfold clean_one. rewrite Hh, Hp. unfold after, verdict. destruct (file_at f (a_path a)) as [l|].
  - rewrite run_bind, (Hsome l eq_refl). cbn [fst snd]. rewrite (full_complete _ a Hb).
    destruct (decide (complete a)) as [Hc|Hc]; [rewrite (bool_decide_eq_true_2 _ Hc)|rewrite (bool_decide_eq_false_2 _ Hc)].
    + destruct (decide (sha1 l = h)) as [E|E]; cbn [fst snd].
      * rewrite decide_False by (intros [?|?]; done). eexists _, _. split; [done|]. split; [done|]. apply same_user_refl.
      * rewrite decide_True by (right; done).
        destruct (reached_unshare _ _ _ h a H1 Ha) as (c2 & f2 & R1 & R2 & R3).
        rewrite run_bind, R1. cbn [on_ok run]. eexists _, _. split; [done|]. done.
    + cbn [fst snd]. rewrite decide_False by (intros [?|?]; done). eexists _, _. split; [done|]. split; [done|]. apply same_user_refl.
  - destruct (Hnone eq_refl) as (e & Hr). rewrite run_bind, Hr. cbn [fst snd].
    rewrite decide_True by (left; done).
    destruct (reached_unshare _ _ _ h a H1 Ha) as (c2 & f2 & R1 & R2 & R3).
    rewrite run_bind, R1. cbn [on_ok run]. eexists _, _. split; [done|]. done.
Qed.
Lemma verdict_user f f' h a : same_user dir f f' -> parent (a_path a) <> dir -> verdict f' h a = verdict f h a.
Proof. intros Hs Hp. unfold verdict, file_at. rewrite Hs by done. done. Qed.
Lemma verdict_stays f h a : ~ removes (verdict f h a).1 <-> stays f h a.
Proof.
  unfold verdict, stays, removes. destruct (file_at f (a_path a)) as [l|]; cbn [fst].
  - destruct (decide (complete a)) as [Hc|Hc].
    + destruct (decide (sha1 l = h)) as [E|E]; cbn [fst]; split.
      * eauto.
      * intros _ [?|?]; done.
      * intros Hn. exfalso. auto.
      * intros (l' & [= <-] & Hx). auto.
    + cbn [fst]. split; [|intros _ [?|?]; done]. intros _. exists l. done.
  - split; [intros Hn; exfalso; auto|]. intros (l & ? & _). done.
Qed.
Lemma Forall2_impl_in {X Y} (P Q : X -> Y -> Prop) xs ys : Forall2 P xs ys ->
  (forall x y, y ∈ ys -> P x y -> Q x y) -> Forall2 Q xs ys.
Proof.
  induction 1 as [|x y xs ys Hx _ IH]; intros H; constructor; [apply H; [set_solver|done]|].
  apply IH. intros x' y' Hy. apply H. set_solver.
Qed.
(** the loop over entries [hs], all present *)
Lemma clean_loop_ok : forall xs hs A c f acc, R A c f -> NoDup hs ->
  (forall h a, A !! h = Some a -> parent (a_path a) <> dir) ->
  Forall2 (fun x h => exists a, A !! h = Some a /\ x_path x = a_path a /\ x_hash x = h /\ brel (x_bits x) (a_held a, a_count a)) xs hs ->
  exists c' f' A' items, run f (clean_loop c xs acc) = (f', Done (c', Ok (acc ++ items)))
    /\ R A' c' f' /\ same_user dir f f'
    /\ Forall2 (fun i h => exists a, A !! h = Some a /\ i = mkItem (a_path a) h (verdict f h a).2 (verdict f h a).1) items hs
    /\ (forall h, h ∉ hs -> A' !! h = A !! h)
    /\ (forall h a, h ∈ hs -> A !! h = Some a -> A' !! h = if decide (removes (verdict f h a).1) then None else Some a).
Proof.
  induction xs as [|x xs IH]; intros hs A c f acc H Hnd Hout HF; inversion HF as [|? h ? hs' (a & Ha & Hp & Hh & Hb) HF']; subst; cbn [clean_loop].
  - exists c, f, A, []. rewrite app_nil_r. split; [done|]. split; [done|]. split; [apply same_user_refl|]. split; [constructor|].
    split; [done|]. intros h a Hx. set_solver.
  - inversion Hnd as [|? ? Hni Hnd']; subst.
    destruct (clean_one_ok _ _ _ x (x_hash x) a H Ha Hp eq_refl Hb) as (c1 & f1 & R1 & R2 & R3).
    rewrite run_bind, R1. cbn [on_ok].
    set (h := x_hash x) in *. set (A1 := after f h a A) in *.
    assert (forall h', h' <> h -> A1 !! h' = A !! h') as HA1.
    { intros h' Hne. unfold A1, after. case_decide; [apply lookup_delete_ne; done|done]. }
    assert (A1 !! h = if decide (removes (verdict f h a).1) then None else Some a) as HA1h.
    { unfold A1, after. case_decide; [apply lookup_delete|done]. }
    assert (forall h', h' ∈ hs' -> h' <> h) as Hne1 by (intros h' Hi ->; done).
    destruct (IH hs' A1 c1 f1 (acc ++ [mkItem (a_path a) h (verdict f h a).2 (verdict f h a).1])) as (c' & f' & A' & items & E1 & E2 & E3 & E4 & E5 & E6).
    + done.
    + done.
    + intros h' a' Ha'. apply (Hout h'). unfold A1, after in Ha'. case_decide; [|done]. apply lookup_delete_Some in Ha' as [_ ?]. done.
    + apply (Forall2_impl_in _ _ _ _ HF'). intros x' h' Hin (a' & Ha' & Hx'). exists a'. rewrite HA1 by auto. done.
    + exists c', f', A'. eexists. rewrite E1, <- app_assoc. cbn [app]. split; [done|]. split; [done|].
      split; [apply (same_user_trans _ _ f1); done|]. split.
      * constructor; [exists a; done|]. apply (Forall2_impl_in _ _ _ _ E4). intros i h' Hin (a' & Ha' & Hi).
        rewrite HA1 in Ha' by auto. exists a'. split; [done|].
        rewrite (verdict_user f f1) in Hi by (done || (apply (Hout h'); done)). done.
      * split.
        -- intros h' Hn. apply not_elem_of_cons in Hn as [Hn1 Hn2]. rewrite E5 by done. apply HA1. done.
        -- intros h' a' Hin Ha'. destruct (decide (h' = h)) as [->|Hne].
           ++ rewrite E5 by done. rewrite HA1h. assert (a' = a) as -> by congruence. done.
           ++ rewrite (E6 h' a'); [|apply elem_of_cons in Hin as [?|?]; done|rewrite HA1; done].
              rewrite (verdict_user f f1) by (done || (apply (Hout h'); done)). done.
Qed.
Lemma clean_generic A c f order : R A c f -> allowed cwd dir dl A f (CList order) ->
  (forall h a, A !! h = Some a -> parent (a_path a) <> dir) ->
  exists c' f' A' items, run f (clean_index c order) = (f', Done (c', Ok items))
    /\ R A' c' f' /\ same_user dir f f'
    /\ Forall2 (fun i h => exists a, A !! h = Some a /\ i = mkItem (a_path a) h (verdict f h a).2 (verdict f h a).1) items order
    /\ (forall h a, A' !! h = Some a <-> A !! h = Some a /\ stays f h a).
Proof.
  intros H [Hnd Hin] Hout. pose proof (reached_synced _ _ _ _ _ _ (HR _ _ _ H)) as (Hcwd & Hsy & _).
  destruct (list_bits order c f A [] Hsy) as (c1 & l & R1 & R2); [intros h Hh; apply Hin; done|].
  destruct (R_call A c f (CList order) H (conj Hnd Hin)) as (c2 & f2 & A2 & ans & Hr & Hs & Hre).
  cbn [aspec] in Hs. destruct Hs as (_ & -> & _). cbn [crun] in Hr. unfold list_files in Hr. rewrite R1 in Hr. cbn [finish fst snd] in Hr. simplify_eq.
  destruct (clean_loop_ok l order A c2 f2 [] Hre Hnd Hout R2) as (c' & f' & A' & items & E1 & E2 & E3 & E4 & E5 & E6).
  exists c', f', A', items. unfold clean_index, list_files. rewrite run_bind, R1. cbn [on_ok app]. split; [done|]. split; [done|].
  split; [done|]. split; [done|]. intros h a. destruct (decide (h ∈ order)) as [Ho|Ho].
  - destruct (A !! h) as [a0|] eqn:Ea; [|apply Hin in Ho; done]. rewrite (E6 h a0 Ho Ea). case_decide as Hdec.
    + split; [done|]. intros [[= ->] Hst]. apply verdict_stays in Hst. done.
    + split; [intros [= ->]; split; [done|]; apply verdict_stays; done|]. intros [[= ->] _]. done.
  - rewrite E5 by done. destruct (A !! h) as [a0|] eqn:Ea; [|naive_solver].
    exfalso. apply Ho, Hin. congruence.
Qed.
End clean.
Lemma C43_lemma cwd dir dl A c f order : reached cwd dir dl A c f -> allowed cwd dir dl A f (CList order) ->
  (forall h a, A !! h = Some a -> parent (a_path a) <> dir) ->
  exists c' f' A' items, run f (clean_index c order) = (f', Done (c', Ok items))
    /\ reached cwd dir dl A' c' f' /\ same_user dir f f'
    /\ Forall2 (fun i h => exists a, A !! h = Some a /\ i = mkItem (a_path a) h (verdict f h a).2 (verdict f h a).1) items order
    /\ (forall h a, A' !! h = Some a <-> A !! h = Some a /\ stays f h a).
Proof. exact (clean_generic cwd dir dl (reached cwd dir dl) (fun _ _ _ H => H) (re_call cwd dir dl) A c f order). Qed.
(** Clean drops a download of which nothing has arrived *)
Lemma C44_lemma cwd dir dl A c f order : reached cwd dir dl A c f -> allowed cwd dir dl A f (CList order) ->
  (forall h a, A !! h = Some a -> parent (a_path a) <> dir) ->
  exists c' f' A' items, run f (clean_index c order) = (f', Done (c', Ok items)) /\ reached cwd dir dl A' c' f'
    /\ forall h a, A !! h = Some a -> ~ complete a -> (A' !! h = Some a <-> exists l, file_at f (a_path a) = Some l).
Proof.
  intros H Hal Hout. destruct (C43_lemma _ _ _ _ _ _ order H Hal Hout) as (c' & f' & A' & items & E1 & E2 & E3 & E4 & E5).
  exists c', f', A', items. split; [done|]. split; [done|]. intros h a Ha Hc. rewrite E5. unfold stays. split.
  - intros (_ & l & Hl & _). eauto.
  - intros [l Hl]. split; [done|]. exists l. done.
Qed.
