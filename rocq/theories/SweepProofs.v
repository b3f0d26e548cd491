(** Proofs about Clean when the daemon is killed or files cannot be opened (C126, C127). *)
From Verif Require Import SweepSpec KillProofs CleanProofs Wedge CatalogueCrash CatalogueReach.
From Coq Require Import ZifyBool ZifyNat ZifyN.

(** ** Kills without failing calls *)
Lemma cut_killed {A : Type} (m : io A) f f' : cut_short f m f' -> killed f m f'.
Proof. induction 1 as [| |f o k r f1 f' E _ IH]; [constructor|constructor 2; done|]. eapply ki_later; [|exact IH]. constructor. done. Qed.
Lemma cut_ret {A : Type} f (a : A) f' : cut_short f (Ret a) f' -> f' = f.
Proof. intros H. inversion H; done. Qed.
Lemma cut_bind {A B : Type} (m : io A) (g : A -> io B) : forall f f', cut_short f (bind m g) f' ->
  cut_short f m f' \/ exists f1 a, run f m = (f1, Done a) /\ cut_short f1 (g a) f'.
Proof.
  induction m as [a|w| |o k IH]; intros f f' H; cbn [bind] in H.
  - right. exists f, a. done.
  - left. inversion H; subst; constructor.
  - left. inversion H; subst; constructor.
  - inversion H as [|? ? ? ? Hp|? ? ? r f1 ? E Hc]; subst.
    + left. constructor.
    + left. constructor 2. done.
    + apply IH in Hc as [Hc|(f2 & a & E2 & Hc)].
      * left. eapply cs_later; done.
      * right. exists f2, a. cbn [run]. rewrite E. done.
Qed.
Lemma cut_in {A B : Type} (m : io A) (g : A -> io B) f f' : cut_short f m f' -> cut_short f (bind m g) f'.
Proof.
  induction 1 as [|f o k f' H|f o k r f1 f' E _ IH]; cbn [bind]; [constructor|constructor 2; done|]. eapply cs_later; done.
Qed.
Lemma cut_after {A B : Type} (m : io A) (g : A -> io B) f f1 a f' : run f m = (f1, Done a) -> cut_short f1 (g a) f' -> cut_short f (bind m g) f'.
Proof.
  revert f. induction m as [b|w| |o k IH]; intros f E H; cbn [run bind] in *; try done.
  - simplify_eq. done.
  - destruct (do_op f o) as [r f2] eqn:Eo. eapply cs_later; [exact Eo|]. apply IH; done.
Qed.
Lemma cut_pure {A : Type} (m : io A) f f' : pure_io m -> cut_short f m f' -> f' = f.
Proof. intros Hp H. apply (killed_pure m); [done|]. apply cut_killed. done. Qed.
Lemma pure_rehash c h : pure_io (rehash c h).
Proof.
  unfold rehash. apply pure_bind; [apply pure_get_record|]. intros [c1 [rp|w|w]]; cbn [pure_io]; try done.
  unfold hash_path. cbn [bind pure_io]. split; [done|]. intros r. destruct r; done.
Qed.
Lemma pure_list order : forall c acc, pure_io (list_loop c order acc).
Proof.
  induction order as [|h order IH]; intros c acc; cbn [list_loop]; [done|]. destruct (c_index c !! h) as [r|] eqn:E; [|apply IH].
  apply pure_bind.
  - pose proof (pure_get_record c h) as P. unfold get_record in P. rewrite E in P. exact P.
  - intros [c1 [x|w|w]]; cbn [on_ok]; [apply IH|done|done].
Qed.

Lemma Forall2_in {X Y} (P Q : X -> Y -> Prop) xs ys : Forall2 P xs ys -> (forall x y, y ∈ ys -> P x y -> Q x y) -> Forall2 Q xs ys.
Proof.
  induction 1 as [|x y xs ys Hx _ IH]; intros H; constructor; [apply H; [set_solver|done]|].
  apply IH. intros x' y' Hy. apply H. set_solver.
Qed.
(** ** Runs with failing calls *)
Lemma execs_then {A B : Type} (m : io A) (g : A -> io B) f f1 a f' out : execs f m f1 (Done a) -> execs f1 (g a) f' out -> execs f (bind m g) f' out.
Proof.
  intros H. remember (Done a) as o eqn:Eo. revert Eo. induction H as [f b| | |f o' k r f2 f3 out2 Hs _ IH]; intros Eo Hg; try done.
  - injection Eo as ->. done.
  - cbn [bind]. eapply ru_do; [exact Hs|]. apply IH; done.
Qed.
Lemma get_record_or c h f f' c' e : execs f (get_record c h) f' (Done (c', e)) ->
  f' = f /\ (run f (get_record c h) = (f, Done (c', e)) \/ c' = c /\ exists w, e = Err w).
Proof.
  unfold get_record, fill. destruct (c_index c !! h) as [r|]; [|intros H; apply execs_ret in H as [-> [= -> ->]]; auto].
  destruct (r_prog r) as [p|]; [intros H; apply execs_ret in H as [-> [= -> ->]]; auto|].
  unfold load_prog. cbn [bind]. intros H. apply execs_do in H as (rep & f1 & Hs & H). pose proof Hs as Hs2.
  apply ostep_read_only in Hs2 as [-> _]; [|done]. inversion Hs as [rep' f2 E|f2 Hp]; subst.
  - cbn [run do_op] in *. rewrite E. assert (forall m : io (cat * res (irec * prog)), (forall o, ~ exists k, m = Do o k) -> execs f m f' (Done (c', e)) -> f' = f /\ run f m = (f, Done (c', e))) as Hm.
    { intros m Hn Hx. destruct m as [b|w| |o k]; [|inversion Hx..|]; [apply execs_ret in Hx as [-> [= <-]]; done|].
      exfalso. apply (Hn o). eauto. }
    apply Hm in H as [-> H]; [auto|]. intros o [k Ek]. destruct rep as [| | |d|]; try done.
    destruct (bdeserialize d); done.
  - cbn [bind] in H. apply execs_ret in H as [-> [= -> ->]]. eauto.
Qed.
Section sweep.
  Context (cwd dir dl : path) (Hu : valid_utf8 dir).
  Notation R := (reached cwd dir dl).
  Definition utf8_paths (A : astate) : Prop := forall h a, A !! h = Some a -> valid_utf8 (a_path a).
  (** what a kill can leave of entries [A] if only those with [P] may be touched *)
  Definition leaves (A : astate) (P : hash -> aentry -> Prop) (f' : fs) : Prop :=
    (exists A' c', starts cwd dir dl f' c' /\ R A' c' f' /\ A' ⊆ A /\ forall h a, A !! h = Some a -> ~ P h a -> A' !! h = Some a)
    \/ wont_start cwd dir dl f' \/ exists h a, A !! h = Some a /\ P h a /\ stuck cwd dir dl h f'.
  Lemma leaves_now A P c f : R A c f -> utf8_paths A -> leaves A P f.
  Proof. intros H Hua. left. destruct (restart_reached _ _ _ _ _ _ H Hu Hua) as (c' & H1 & H2). exists A, c'. done. Qed.
  Lemma leaves_weaken A A1 (P : hash -> aentry -> Prop) f' (Q : hash -> aentry -> Prop) : A1 ⊆ A -> (forall h a, A !! h = Some a -> ~ Q h a -> A1 !! h = Some a) ->
    (forall h a, A1 !! h = Some a -> P h a -> Q h a) -> leaves A1 P f' -> leaves A Q f'.
  Proof.
    intros Hs Hq Hpq [(A' & c' & H1 & H2 & H3 & H4)|[H|(h & a & H1 & H2 & H3)]].
    - left. exists A', c'. split; [done|]. split; [done|]. split; [etrans; done|]. intros h a Ha Hn.
      pose proof (Hq h a Ha Hn) as Ha1. apply H4; [done|]. intros Hp. apply Hn, Hpq; done.
    - right. left. done.
    - right. right. exists h, a. split; [apply (lookup_weaken _ _ _ _ H1 Hs)|]. auto.
  Qed.
  Lemma leaves_unshare A c f h a f' (P : hash -> aentry -> Prop) : R A c f -> utf8_paths A -> A !! h = Some a -> P h a ->
    killed f (unshare_file c h) f' -> leaves A P f'.
  Proof.
    intros H Hua Ha Hp Hk. destruct (unshare_kills _ _ _ _ _ _ h a f' H Ha Hu Hua Hk) as [(c' & H1 & [H2|H2])|[H1|H1]].
    - left. exists A, c'. done.
    - left. exists (delete h A), c'. split; [done|]. split; [done|]. split; [apply delete_subseteq|].
      intros h2 a2 H3 Hn. rewrite lookup_delete_ne; [done|]. intros <-. rewrite Ha in H3. injection H3 as <-. done.
    - right. left. done.
    - right. right. eauto.
  Qed.
  (** a kill inside one iteration *)
  Lemma clean_one_cut A c f x h a f' : R A c f -> utf8_paths A -> A !! h = Some a ->
    x_path x = a_path a -> x_hash x = h -> brel (x_bits x) (a_held a, a_count a) -> cut_short f (clean_one c x) f' ->
    leaves A (fun h' a' => h' = h /\ removes (verdict f h a).1) f'.
  Proof.
    intros H Hua Ha Hp Hh Hb Hk. destruct (reached_rehash cwd dir dl R (fun _ _ _ H => H) (re_call cwd dir dl) _ _ _ h a H Ha) as (c1 & H1 & Hnone & Hsome).
    unfold clean_one in Hk. rewrite Hh, Hp in Hk. apply cut_bind in Hk as [Hk|(f1 & r & Er & Hk)].
    { apply cut_pure in Hk as ->; [|apply pure_rehash]. apply (leaves_now _ _ c); done. }
    assert (forall A1 (v : cat * res citem), cut_short f (Ret v) f' -> A1 = A -> leaves A1 (fun h' _ => h' = h /\ removes (verdict f h a).1) f') as Hret.
    { intros A1 v Hv ->. apply cut_ret in Hv as ->. apply (leaves_now _ _ c); done. }
    unfold verdict in *. destruct (file_at f (a_path a)) as [l|].
    - rewrite (Hsome l eq_refl) in Er. injection Er as <- <-. cbn [fst snd] in Hk. rewrite (full_complete _ a Hb) in Hk.
      destruct (decide (complete a)) as [Hc|Hc]; [rewrite (bool_decide_eq_true_2 _ Hc) in Hk|rewrite (bool_decide_eq_false_2 _ Hc) in Hk].
      + destruct (decide (sha1 l = h)) as [E|E]; [eapply Hret; done|].
        apply cut_bind in Hk as [Hk|(f2 & [c2 e] & E2 & Hk)].
        * apply cut_killed in Hk. eapply leaves_unshare; [exact H1|done|done| |exact Hk]. split; [done|]. right; done.
        * assert (f' = f2) as -> by (destruct e; cbn [on_ok] in Hk; inversion Hk; done).
          eapply leaves_unshare; [exact H1|done|done| |eapply execs_killed, run_execs; exact E2]. split; [done|]. right; done.
      + eapply Hret; done.
    - destruct (Hnone eq_refl) as (e & Hr). rewrite Hr in Er. injection Er as <- <-. cbn [fst snd] in Hk.
      apply cut_bind in Hk as [Hk|(f2 & [c2 e2] & E2 & Hk)].
      + apply cut_killed in Hk. eapply leaves_unshare; [exact H1|done|done| |exact Hk]. split; [done|]. left; done.
      + assert (f' = f2) as -> by (destruct e2; cbn [on_ok] in Hk; inversion Hk; done).
        eapply leaves_unshare; [exact H1|done|done| |eapply execs_killed, run_execs; exact E2]. split; [done|]. left; done.
  Qed.
  Lemma after_sub f h a A : after f h a A ⊆ A.
  Proof. unfold after. case_decide; [apply delete_subseteq|done]. Qed.
  Lemma after_ne f h a A h' : h' <> h -> after f h a A !! h' = A !! h'.
  Proof. intros Hn. unfold after. case_decide; [apply lookup_delete_ne; done|done]. Qed.
  Lemma clean_loop_cut : forall xs hs A c f acc f', R A c f -> utf8_paths A -> NoDup hs ->
    (forall h a, A !! h = Some a -> parent (a_path a) <> dir) ->
    Forall2 (fun x h => exists a, A !! h = Some a /\ x_path x = a_path a /\ x_hash x = h /\ brel (x_bits x) (a_held a, a_count a)) xs hs ->
    cut_short f (clean_loop c xs acc) f' -> leaves A (fun h a => ~ stays f h a) f'.
  Proof.
    induction xs as [|x xs IH]; intros hs A c f acc f' H Hua Hnd Hout HF Hk; inversion HF as [|? h ? hs' (a & Ha & Hp & Hh & Hb) HF']; subst; cbn [clean_loop] in Hk.
    - apply cut_ret in Hk as ->. apply (leaves_now _ _ c); done.
    - inversion Hnd as [|? ? Hni Hnd']; subst. set (h := x_hash x) in *. apply cut_bind in Hk as [Hk|(f1 & [c1 i] & E1 & Hk)].
      + apply (clean_one_cut A c f x h a) in Hk; try done. eapply leaves_weaken; [done|done| |exact Hk]. cbn beta.
        intros h2 a2 H2 [-> Hr]. rewrite Ha in H2. injection H2 as <-. rewrite <- verdict_stays. auto.
      + destruct (clean_one_ok cwd dir dl R (fun _ _ _ H => H) (re_call cwd dir dl) _ _ _ x h a H Ha Hp eq_refl Hb) as (c2 & f2 & R1 & R2 & R3).
        rewrite R1 in E1. injection E1 as <- <- <-. cbn [on_ok] in Hk.
        apply (IH hs' (after f h a A)) in Hk; [|done| |done| |].
        * eapply leaves_weaken; [apply after_sub| | |exact Hk]; cbn beta.
          -- intros h2 a2 H2 Hn. destruct (decide (h2 = h)) as [->|Hne]; [|rewrite after_ne; done]. rewrite Ha in H2. injection H2 as <-.
             unfold after. rewrite decide_False; [done|]. rewrite <- verdict_stays in Hn. tauto.
          -- intros h2 a2 H2 Hn Hs. apply Hn. pose proof (lookup_weaken _ _ _ _ H2 (after_sub f h a A)) as H3.
             apply verdict_stays in Hs. apply verdict_stays. rewrite (verdict_user dir f f2); [done|done|]. apply (Hout h2 a2 H3).
        * intros h2 a2 H2. apply (Hua h2). apply (lookup_weaken _ _ _ _ H2), after_sub.
        * intros h2 a2 H2. apply (Hout h2). apply (lookup_weaken _ _ _ _ H2), after_sub.
        * apply (Forall2_in _ _ _ _ HF'). intros x' h' Hin (a' & Ha' & Hx'). exists a'. rewrite after_ne by (intros ->; done). done.
  Qed.
  Lemma list_state A c f order : R A c f -> allowed cwd dir dl A f (CList order) -> exists c1 l, run f (list_files c order) = (f, Done (c1, Ok l))
    /\ R A c1 f
    /\ Forall2 (fun x h => exists a, A !! h = Some a /\ x_path x = a_path a /\ x_hash x = h /\ brel (x_bits x) (a_held a, a_count a)) l order.
  Proof.
    clear Hu.
    intros H [Hnd Hin]. pose proof (reached_synced _ _ _ _ _ _ H) as (Hcwd & Hsy & _).
    destruct (list_bits order c f A [] Hsy) as (c1 & l & R1 & R2); [intros h Hh; apply Hin; done|].
    destruct (reached_call cwd dir dl A c f (CList order) H (conj Hnd Hin)) as (c2 & f2 & A2 & ans & Hr & Hs & Hre).
    cbn [aspec] in Hs. destruct Hs as (_ & -> & _). cbn [crun] in Hr. unfold list_files in *. rewrite R1 in Hr. cbn [finish fst snd] in Hr. simplify_eq.
    exists c2, l. done.
  Qed.
  Lemma clean_cut A c f order f' : R A c f -> utf8_paths A -> allowed cwd dir dl A f (CList order) ->
    (forall h a, A !! h = Some a -> parent (a_path a) <> dir) -> cut_short f (clean_index c order) f' -> leaves A (fun h a => ~ stays f h a) f'.
  Proof.
    intros H Hua Hal Hout Hk. destruct (list_state A c f order H Hal) as (c1 & l & E1 & H1 & HF).
    unfold clean_index in Hk. apply cut_bind in Hk as [Hk|(f1 & [c2 i] & E2 & Hk)].
    - apply cut_pure in Hk as ->; [|apply pure_list]. apply (leaves_now _ _ c); done.
    - rewrite E1 in E2. injection E2 as <- <- <-. cbn [on_ok] in Hk. apply (clean_loop_cut l order A c1 f [] f'); try done. apply Hal.
  Qed.
  (** *** failing calls *)
  Lemma unshare_user A c f h f' : R A c f -> killed f (unshare_file c h) f' -> same_user dir f f'.
  Proof.
    clear Hu.
    intros H Hk. pose proof (reached_synced _ _ _ _ _ _ H) as (Hcwd & Hs & Ed & Edl). pose proof (sy_dir _ _ _ Hs) as Hd.
    apply (killed_unshare_states _ _ _ _ _ Hs) in Hk as [->|[[a Ha] Hk]]; [apply same_user_refl|].
    assert (hash_wf h) as Hw by (apply (entries_wf _ _ _ _ _ (sy_ent _ _ _ Hs)); rewrite Ha; done). rewrite <- Ed.
    assert (forall p, parent p <> c_dir c -> p <> prog_path (c_dir c) h /\ p <> join2 (c_dir c) index_name) as Hne.
    { intros p Hp. split; intros ->; apply Hp; apply parent_join2; try done; [apply hash_normal; done|apply index_normal]. }
    intros p Hp. destruct (Hne p Hp) as [N1 N2]. destruct Hk as [->|[k ->]]; [|rewrite lookup_insert_ne by done]; apply lookup_delete_ne; done.
  Qed.
  Lemma get_record_R A c f h f' c' e : R A c f -> execs f (get_record c h) f' (Done (c', e)) -> f' = f /\ R A c' f.
  Proof.
    clear Hu.
    intros H Hx. apply get_record_or in Hx as [-> [E|[-> _]]]; [|done]. split; [done|].
    destruct (reached_call cwd dir dl A c f (CContains h) H I) as (c2 & f2 & A2 & ans & Hr & Hs & Hre).
    assert (f2 = f /\ c2 = c' /\ A2 = A) as (-> & -> & ->); [|done].
    cbn [crun] in Hr. unfold contains in Hr. rewrite run_bind, E in Hr. destruct e; cbn [on_ok run finish fst snd] in Hr; simplify_eq; cbn [aspec] in Hs; naive_solver.
  Qed.
  Lemma rehash_R A c f h f' c' r : R A c f -> execs f (rehash c h) f' (Done (c', r)) -> f' = f /\ R A c' f.
  Proof.
    clear Hu.
    intros H Hx. unfold rehash in Hx. apply execs_bind in Hx as [(f1 & [c1 g] & H1 & Hx)|[(w & _ & ?)|[_ ?]]]; [|done..].
    apply (get_record_R A) in H1 as [-> H1]; [|done]. destruct g as [rp|w|w]; [|apply execs_ret in Hx as [-> [= -> _]]; done|inversion Hx].
    apply execs_bind in Hx as [(f1 & r1 & H2 & Hx)|[(w & _ & ?)|[_ ?]]]; [|done..]. apply execs_ret in Hx as [-> [= -> _]]. split; [|done].
    unfold hash_path in H2. apply execs_do in H2 as (rep & f2 & Hs & H2). apply ostep_read_only in Hs as [-> _]; [|done].
    destruct rep; apply execs_ret in H2 as [-> _]; done.
  Qed.
  Lemma unshare_R A c f h a f' c' : R A c f -> A !! h = Some a -> execs f (unshare_file c h) f' (Done (c', Ok tt)) -> R (delete h A) c' f'.
  Proof.
    clear Hu.
    intros H Ha Hx. assert (run f (unshare_file c h) = (f', Done (c', Ok tt))) as E.
    { unfold unshare_file in *. apply execs_bind in Hx as [(f1 & [c1 g] & H1 & Hx)|[(w & _ & ?)|[_ ?]]]; [|done..].
      apply get_record_or in H1 as [-> H1]. destruct g as [rp|w|w]; cbn [on_ok] in Hx; [|apply execs_ret in Hx as [_ ?]; done|inversion Hx].
      destruct H1 as [H1|[_ [w ?]]]; [|done]. rewrite run_bind, H1. cbn [on_ok].
      unfold delete_prog in *. cbn [bind] in Hx |- *. apply execs_do in Hx as (rep & f2 & Hs & Hx). cbn [run].
      assert (rep = ROk) as -> by (destruct rep; cbn [ok_or on_ok] in Hx; first [done|apply execs_ret in Hx as [_ ?]; done]).
      inversion Hs as [rep' f3 Eo|]; subst. rewrite Eo. cbn [ok_or on_ok] in Hx |- *.
      unfold remove_record, save_index in *. cbn [bind] in Hx |- *. apply execs_do in Hx as (rep & f3 & Hs2 & Hx). cbn [run].
      apply execs_ret in Hx as [-> Hx]. injection Hx as -> Hx.
      assert (rep = ROk) as -> by (destruct rep; done). inversion Hs2 as [rep' f4 Eo2|]; subst. rewrite Eo2. done. }
    destruct (reached_unshare cwd dir dl R (fun _ _ _ H => H) (re_call cwd dir dl) A c f h a H Ha) as (c1 & f1 & E1 & H1 & _).
    rewrite E in E1. injection E1 as -> ->. done.
  Qed.
  Lemma clean_one_states A c f x f' : R A c f -> killed f (clean_one c x) f' ->
    f' = f \/ exists c1, R A c1 f /\ killed f (unshare_file c1 (x_hash x)) f'.
  Proof.
    clear Hu.
    intros H Hk. unfold clean_one in Hk. apply killed_bind in Hk as [Hk|(f1 & [c1 r] & Hx & Hk)].
    { apply killed_pure in Hk as ->; [|apply pure_rehash]. auto. }
    apply (rehash_R A) in Hx as [-> H1]; [|done]. destruct r as [hp e].
    assert (forall act, killed f (do! (c2, e) := unshare_file c1 (x_hash x) in
      on_ok c2 e (fun _ => match hp with Some cur => Ret (c2, Ok (mkItem (x_path x) (x_hash x) cur act)) | None => Die "nil dereference" end)) f' ->
      killed f (unshare_file c1 (x_hash x)) f') as Hrem.
    { intros act Hr. apply killed_bind in Hr as [Hr|(f2 & [c2 e2] & Hx2 & Hr)]; [done|].
      assert (f' = f2) as ->.
      { destruct e2; cbn [on_ok] in Hr; [destruct hp|..]; inversion Hr; done. }
      eapply execs_killed; exact Hx2. }
    cbn [fst snd] in Hk. destruct e as [e|]; [right; eauto|]. destruct (bfull (x_bits x)) as [[]|w|w]; [| |inversion Hk; auto..].
    - destruct hp as [cur|]; [|inversion Hk; auto]. destruct (decide (cur = x_hash x)); [inversion Hk; auto|]. right. eauto.
    - destruct hp as [cur|]; inversion Hk; auto.
  Qed.
  Lemma clean_one_faults A c f x a : R A c f -> utf8_paths A -> A !! x_hash x = Some a ->
    (forall f', killed f (clean_one c x) f' -> leaves A (fun h _ => h = x_hash x) f' /\ same_user dir f f')
    /\ (forall f' c' i, execs f (clean_one c x) f' (Done (c', Ok i)) -> R A c' f' \/ R (delete (x_hash x) A) c' f').
  Proof.
    intros H Hua Ha. split.
    - intros f' Hk. apply (clean_one_states A) in Hk as [->|(c1 & H1 & Hk)]; [|split| done].
      + split; [apply (leaves_now _ _ c); done|apply same_user_refl].
      + eapply leaves_unshare; [exact H1|done|exact Ha|done|exact Hk].
      + apply (unshare_user A c1 f (x_hash x)); done.
    - intros f' c' i Hx. unfold clean_one in Hx. apply execs_bind in Hx as [(f1 & [c1 r] & H1 & Hx)|[(w & _ & ?)|[_ ?]]]; [|done..].
      apply (rehash_R A) in H1 as [-> H1]; [|done]. destruct r as [hp e]. cbn [fst snd] in Hx.
      assert (forall act, execs f (do! (c2, e) := unshare_file c1 (x_hash x) in
        on_ok c2 e (fun _ => match hp with Some cur => Ret (c2, Ok (mkItem (x_path x) (x_hash x) cur act)) | None => Die "nil dereference" end)) f' (Done (c', Ok i)) ->
        R (delete (x_hash x) A) c' f') as Hrem.
      { intros act Hr. apply execs_bind in Hr as [(f2 & [c2 e2] & Hx2 & Hr)|[(w & _ & ?)|[_ ?]]]; [|done..].
        destruct e2 as [[]|w|w]; cbn [on_ok] in Hr; [|apply execs_ret in Hr as [_ ?]; done|inversion Hr].
        destruct hp as [cur|]; [|inversion Hr]. apply execs_ret in Hr as [-> Hr]. injection Hr as -> _. apply (unshare_R A c1 f _ a); done. }
      destruct e as [e|]; [right; eapply Hrem; exact Hx|]. destruct (bfull (x_bits x)) as [[]|w|w]; [| |inversion Hx|inversion Hx].
      + destruct hp as [cur|]; [|inversion Hx]. destruct (decide (cur = x_hash x)); [|right; eapply Hrem; exact Hx].
        apply execs_ret in Hx as [-> Hx]. injection Hx as -> _. auto.
      + destruct hp as [cur|]; [|inversion Hx]. apply execs_ret in Hx as [-> Hx]. injection Hx as -> _. auto.
  Qed.
  Lemma clean_loop_faults : forall xs A c f acc f', R A c f -> utf8_paths A -> NoDup (x_hash <$> xs) ->
    Forall (fun x => A !! x_hash x <> None) xs -> killed f (clean_loop c xs acc) f' -> leaves A (fun _ _ => True) f' /\ same_user dir f f'.
  Proof.
    induction xs as [|x xs IH]; intros A c f acc f' H Hua Hnd HF Hk; cbn [clean_loop] in Hk.
    - apply killed_ret in Hk as ->. split; [apply (leaves_now _ _ c); done|apply same_user_refl].
    - rewrite fmap_cons in Hnd. apply NoDup_cons in Hnd as [Hni Hnd]. apply Forall_cons in HF as [Hx HF].
      destruct (A !! x_hash x) as [a|] eqn:Ha; [|done]. destruct (clean_one_faults A c f x a H Hua Ha) as [Hkill Hok].
      assert (forall f1, killed f (clean_one c x) f1 -> leaves A (fun _ _ => True) f1 /\ same_user dir f f1) as Hkill2.
      { intros f1 Hk1. apply Hkill in Hk1 as [G1 G2]. split; [|done]. eapply leaves_weaken; [done|done| |exact G1]. done. }
      apply killed_bind in Hk as [Hk|(f1 & [c1 i] & Hx1 & Hk)]; [apply Hkill2; done|].
      pose proof (Hkill2 _ (execs_killed _ _ _ _ Hx1)) as [K1 K2].
      destruct i as [i|w|w]; cbn [on_ok] in Hk.
      + destruct (Hok _ _ _ Hx1) as [H1|H1].
        * destruct (IH A c1 f1 (acc ++ [i]) f') as [G1 G2]; [done..|]. split; [done|]. apply (same_user_trans _ _ f1); done.
        * destruct (IH (delete (x_hash x) A) c1 f1 (acc ++ [i]) f') as [G1 G2]; [done| |done| |done|].
          -- intros h2 a2 H2. apply lookup_delete_Some in H2 as [_ H2]. eauto.
          -- rewrite Forall_forall in *. intros y Hy. rewrite lookup_delete_ne; [apply HF; done|]. intros E. apply Hni. rewrite E.
             apply elem_of_list_fmap. eauto.
          -- split; [|apply (same_user_trans _ _ f1); done]. eapply leaves_weaken; [apply delete_subseteq| | |exact G1]; cbn beta; [|done].
             intros h2 a2 _ Hn. exfalso. apply Hn. done.
      + apply killed_ret in Hk as ->. done.
      + assert (f' = f1) as -> by (inversion Hk; done). done.
  Qed.
  (** listing with failing reads *)
  Lemma list_R : forall order A c f acc f' c' l, R A c f -> NoDup order -> (forall h, h ∈ order -> A !! h <> None) ->
    execs f (list_loop c order acc) f' (Done (c', Ok l)) ->
    f' = f /\ R A c' f /\ exists l', l = acc ++ l' /\ x_hash <$> l' = order.
  Proof.
    induction order as [|h order IH]; intros A c f acc f' c' l H Hnd Hin Hx; cbn [list_loop] in Hx.
    - apply execs_ret in Hx as [-> Hx]. injection Hx as -> ->. split; [done|]. split; [done|]. exists []. rewrite app_nil_r. done.
    - pose proof (reached_synced _ _ _ _ _ _ H) as (_ & Hsy & _). apply NoDup_cons in Hnd as [Hni Hnd].
      destruct (A !! h) as [a|] eqn:Ha; [|exfalso; apply (Hin h); [set_solver|done]].
      pose proof (sy_ent _ _ _ Hsy h) as He. rewrite Ha in He. destruct (c_index c !! h) as [r0|] eqn:Er; [|done].
      apply execs_bind in Hx as [(f1 & [c1 g] & H1 & Hx)|[(w & _ & ?)|[_ ?]]]; [|done..].
      assert (execs f (get_record c h) f1 (Done (c1, g))) as H2 by (unfold get_record; rewrite Er; done).
      pose proof H2 as H3. apply (get_record_synced _ _ A) in H3 as [-> H3]; [|done]. apply (get_record_R A) in H2 as [_ H2]; [|done].
      destruct H3 as [[[w ->] _]|(r & b & a' & Ha' & -> & _ & _ & _ & _ & Hh)]; cbn [on_ok] in Hx; [apply execs_ret in Hx as [_ ?]; done|].
      apply (IH A) in Hx as (-> & Hc & l' & -> & El); [|done|done|set_solver]. split; [done|]. split; [done|].
      eexists (_ :: l'). rewrite <- app_assoc. split; [done|]. rewrite fmap_cons, El. f_equal. cbn [export_of x_hash fst]. done.
  Qed.
  Lemma clean_faults A c f order f' : R A c f -> utf8_paths A -> allowed cwd dir dl A f (CList order) ->
    killed f (clean_index c order) f' -> leaves A (fun _ _ => True) f' /\ same_user dir f f'.
  Proof.
    intros H Hua [Hnd Hin] Hk. assert (leaves A (fun _ _ => True) f /\ same_user dir f f) as Hnow.
    { split; [apply (leaves_now _ _ c); done|apply same_user_refl]. }
    unfold clean_index in Hk. apply killed_bind in Hk as [Hk|(f1 & [c1 i] & Hx & Hk)].
    - apply killed_pure in Hk as ->; [done|apply pure_list].
    - destruct i as [l|w|w]; cbn [on_ok] in Hk.
      + apply (list_R order A) in Hx as (-> & H1 & l' & -> & El); [|done|done|intros h Hh; apply Hin; done]. cbn [app] in Hk.
        eapply clean_loop_faults; [exact H1|done|rewrite El; done| |exact Hk].
        apply Forall_forall. intros x Hx. apply Hin. rewrite <- El. apply elem_of_list_fmap. eauto.
      + apply killed_ret in Hk as ->. apply execs_killed in Hx. apply killed_pure in Hx as ->; [done|apply pure_list].
      + assert (f' = f1) as -> by (inversion Hk; done). apply execs_killed in Hx. apply killed_pure in Hx as ->; [done|apply pure_list].
  Qed.
  (** *** a file that cannot be opened is taken for a missing one *)
  Lemma rehash_bad A c f h a : R A c f -> A !! h = Some a ->
    exists c1 e, R A c1 f /\ execs f (rehash c h) f (Done (c1, (Some (replicate 20 xff), Some e))).
  Proof.
    clear Hu.
    intros H Ha. pose proof (reached_synced _ _ _ _ _ _ H) as (_ & Hsy & _).
    destruct (get_record_ok c f A h a Hsy Ha) as (r & b & Hrun & _). pose proof (run_execs _ _ _ _ Hrun) as Hx.
    destruct (get_record_R A c f h _ _ _ H Hx) as [_ H1]. eexists _, _. split; [exact H1|]. unfold rehash.
    eapply execs_then; [exact Hx|]. cbn beta iota. eapply execs_then.
    - unfold hash_path. eapply ru_do; [apply os_fault, pa_none|]. constructor.
    - change (hash_blank zero_hash) with (replicate 20 xff). constructor.
  Qed.
  Lemma clean_one_bad A c f x a : R A c f -> A !! x_hash x = Some a -> x_path x = a_path a ->
    exists c' f', execs f (clean_one c x) f' (Done (c', Ok (mkItem (a_path a) (x_hash x) (replicate 20 xff) RemovedMissing)))
      /\ R (delete (x_hash x) A) c' f' /\ same_user dir f f'.
  Proof.
    clear Hu.
    intros H Ha Hp. destruct (rehash_bad A c f _ a H Ha) as (c1 & e & H1 & Hx).
    destruct (reached_unshare cwd dir dl R (fun _ _ _ H => H) (re_call cwd dir dl) A c1 f _ a H1 Ha) as (c2 & f2 & E2 & H2 & U2).
    exists c2, f2. split; [|done]. unfold clean_one. eapply execs_then; [exact Hx|]. cbn [fst snd]. eapply execs_then; [apply run_execs; exact E2|].
    cbn [on_ok]. rewrite Hp. constructor.
  Qed.
  Definition after_with (bad : gset hash) (f : fs) (h : hash) (a : aentry) (A : astate) : astate :=
    if decide (removes (verdict_with bad f h a).1) then delete h A else A.
  Lemma clean_loop_bad bad : forall xs hs A c f acc, R A c f -> NoDup hs ->
    (forall h a, A !! h = Some a -> parent (a_path a) <> dir) ->
    Forall2 (fun x h => exists a, A !! h = Some a /\ x_path x = a_path a /\ x_hash x = h /\ brel (x_bits x) (a_held a, a_count a)) xs hs ->
    exists c' f' A' items, execs f (clean_loop c xs acc) f' (Done (c', Ok (acc ++ items)))
      /\ R A' c' f' /\ same_user dir f f'
      /\ Forall2 (fun i h => exists a, A !! h = Some a /\ i = mkItem (a_path a) h (verdict_with bad f h a).2 (verdict_with bad f h a).1) items hs
      /\ (forall h, h ∉ hs -> A' !! h = A !! h)
      /\ (forall h a, h ∈ hs -> A !! h = Some a -> A' !! h = if decide (removes (verdict_with bad f h a).1) then None else Some a).
  Proof.
    clear Hu.
    induction xs as [|x xs IH]; intros hs A c f acc H Hnd Hout HF; inversion HF as [|? h ? hs' (a & Ha & Hp & Hh & Hb) HF']; subst; cbn [clean_loop].
    - exists c, f, A, []. rewrite app_nil_r. split; [constructor|]. split; [done|]. split; [apply same_user_refl|]. split; [constructor|].
      split; [done|]. intros h a Hx. set_solver.
    - inversion Hnd as [|? ? Hni Hnd']; subst. set (h := x_hash x) in *. set (A1 := after_with bad f h a A).
      assert (exists c1 f1, execs f (clean_one c x) f1 (Done (c1, Ok (mkItem (a_path a) h (verdict_with bad f h a).2 (verdict_with bad f h a).1)))
        /\ R A1 c1 f1 /\ same_user dir f f1) as (c1 & f1 & R1 & R2 & R3).
      { unfold A1, after_with, verdict_with. destruct (decide (h ∈ bad)) as [Hbad|Hbad]; cbn [fst snd].
        - rewrite decide_True by (left; done). apply clean_one_bad; done.
        - destruct (clean_one_ok cwd dir dl R (fun _ _ _ H => H) (re_call cwd dir dl) _ _ _ x h a H Ha Hp eq_refl Hb) as (c2 & f2 & E1 & E2 & E3).
          exists c2, f2. split; [apply run_execs; exact E1|]. done. }
      assert (forall h', h' <> h -> A1 !! h' = A !! h') as HA1.
      { intros h' Hne. unfold A1, after_with. case_decide; [apply lookup_delete_ne; done|done]. }
      assert (A1 !! h = if decide (removes (verdict_with bad f h a).1) then None else Some a) as HA1h.
      { unfold A1, after_with. case_decide; [apply lookup_delete|done]. }
      assert (forall h', h' ∈ hs' -> h' <> h) as Hne1 by (intros h' Hi ->; done).
      assert (forall h' a', A !! h' = Some a' -> verdict_with bad f1 h' a' = verdict_with bad f h' a') as Hv.
      { intros h' a' Ha'. unfold verdict_with. destruct (decide (h' ∈ bad)) as [_|_]; [reflexivity|]. apply (verdict_user dir); [done|]. apply (Hout h'). done. }
      destruct (IH hs' A1 c1 f1 (acc ++ [mkItem (a_path a) h (verdict_with bad f h a).2 (verdict_with bad f h a).1])) as (c' & f' & A' & items & E1 & E2 & E3 & E4 & E5 & E6).
      + done.
      + done.
      + intros h' a' Ha'. apply (Hout h'). unfold A1, after_with in Ha'. case_decide; [|done]. apply lookup_delete_Some in Ha' as [_ ?]. done.
      + apply (Forall2_in _ _ _ _ HF'). intros x' h' Hin (a' & Ha' & Hx'). exists a'. rewrite HA1 by auto. done.
      + exists c', f', A'. eexists. split; [eapply execs_then; [exact R1|]; cbn [on_ok]; rewrite <- app_assoc in E1; exact E1|]. split; [done|].
        split; [apply (same_user_trans _ _ f1); done|]. split.
        * constructor; [exists a; done|]. apply (Forall2_in _ _ _ _ E4). intros i h' Hin (a' & Ha' & Hi).
          rewrite HA1 in Ha' by auto. exists a'. split; [done|]. rewrite Hv in Hi by done. done.
        * split.
          -- intros h' Hn. apply not_elem_of_cons in Hn as [Hn1 Hn2]. rewrite E5 by done. apply HA1. done.
          -- intros h' a' Hin Ha'. destruct (decide (h' = h)) as [->|Hne].
             ++ rewrite E5 by done. rewrite HA1h. assert (a' = a) as -> by congruence. done.
             ++ rewrite (E6 h' a'); [|apply elem_of_cons in Hin as [?|?]; done|rewrite HA1; done]. rewrite Hv by done. done.
  Qed.
  Lemma clean_bad bad A c f order : R A c f -> allowed cwd dir dl A f (CList order) ->
    (forall h a, A !! h = Some a -> parent (a_path a) <> dir) ->
    exists c' f' A' items, execs f (clean_index c order) f' (Done (c', Ok items))
      /\ R A' c' f' /\ same_user dir f f'
      /\ Forall2 (fun i h => exists a, A !! h = Some a /\ i = mkItem (a_path a) h (verdict_with bad f h a).2 (verdict_with bad f h a).1) items order
      /\ (forall h a, A' !! h = Some a <-> A !! h = Some a /\ stays f h a /\ h ∉ bad).
  Proof.
    clear Hu.
    intros H Hal Hout. destruct (list_state A c f order H Hal) as (c1 & l & E1 & H1 & HF). destruct Hal as [Hnd Hin].
    destruct (clean_loop_bad bad l order A c1 f [] H1 Hnd Hout HF) as (c' & f' & A' & items & R1 & R2 & R3 & R4 & R5 & R6).
    exists c', f', A', items. split; [|split; [done|split; [done|split; [done|]]]].
    - unfold clean_index. eapply execs_then; [apply run_execs; exact E1|]. cbn [on_ok]. exact R1.
    - assert (forall h a, ~ removes (verdict_with bad f h a).1 <-> stays f h a /\ h ∉ bad) as Hv.
      { intros h a. unfold verdict_with. destruct (decide (h ∈ bad)) as [Hb|Hb]; cbn [fst].
        - split; [intros Hn; exfalso; apply Hn; left; done|]. intros [_ ?]. done.
        - rewrite verdict_stays. tauto. }
      intros h a. destruct (decide (h ∈ order)) as [Ho|Ho].
      + destruct (A !! h) as [a0|] eqn:Ea; [|apply Hin in Ho; done]. rewrite (R6 h a0 Ho Ea). case_decide as Hdec.
        * split; [done|]. intros [[= ->] Hst]. apply Hv in Hst. done.
        * split; [intros [= ->]; split; [done|]; apply Hv; done|]. intros [[= ->] _]. done.
      + rewrite R5 by done. destruct (A !! h) as [a0|] eqn:Ea; [|naive_solver].
        exfalso. apply Ho, Hin. congruence.
  Qed.
  (** *** kills during the removal of an entry *)
  Lemma cut_unshare A c f h a : R A c f -> A !! h = Some a ->
    let g := delete (prog_path dir h) f in
    cut_short f (unshare_file c h) g /\ cut_short f (unshare_file c h) (<[join2 dir index_name := NFile []]> g).
  Proof.
    intros H Ha g. pose proof (reached_synced _ _ _ _ _ _ H) as (Hcwd & Hs & Ed & Edl). pose proof (sy_dir _ _ _ Hs) as Hd.
    assert (hash_wf h) as Hw by (apply (entries_wf _ _ _ _ _ (sy_ent _ _ _ Hs)); rewrite Ha; done).
    destruct (get_record_ok c f A h a Hs Ha) as (r & b & Hrun & Hp & Hrel & Hb & Hs2 & Hm & Hfile).
    assert (do_op f (ORemove (join1 (prog_path (c_dir c) h))) = (ROk, g)) as Eo.
    { cbn [do_op]. rewrite join1_clean by (apply prog_path_clean; done). rewrite Hfile. unfold g. rewrite Ed. done. }
    unfold unshare_file. split; (eapply cut_after; [exact Hrun|]; cbn [on_ok snd fst]; unfold delete_prog; cbn [p_file bind]; eapply cs_later; [exact Eo|]; cbn [ok_or on_ok]).
    - constructor.
    - unfold remove_record, save_index. cbn [bind set_index c_inddir]. rewrite (sy_ind _ _ _ Hs), Ed. eapply cs_during.
      eapply (pa_write _ _ _ 0). rewrite <- Ed. apply writable_child; [done|apply index_normal| |]; unfold g; rewrite <- Ed.
      + rewrite lookup_delete_ne by (apply dir_not_child; [done|apply hash_normal; done]). apply Hs.
      + rewrite lookup_delete_ne by (apply prog_path_ne_index; done). apply Hs, index_normal.
  Qed.
  Lemma clean_cut_at A c f h a order f' : R A c f -> allowed cwd dir dl A f (CList (h :: order)) -> A !! h = Some a -> ~ stays f h a ->
    (forall c1, R A c1 f -> cut_short f (unshare_file c1 h) f') -> cut_short f (clean_index c (h :: order)) f'.
  Proof.
    clear Hu.
    intros H Hal Ha Hn Hk. destruct (list_state A c f _ H Hal) as (c1 & l & E1 & H1 & HF).
    inversion HF as [|x ? l' ? (a' & Ha' & Hp & Hh & Hb) HF']; subst. rewrite Ha in Ha'. injection Ha' as <-.
    unfold clean_index. eapply cut_after; [exact E1|]. cbn [on_ok clean_loop]. apply cut_in.
    destruct (reached_rehash cwd dir dl R (fun _ _ _ H => H) (re_call cwd dir dl) _ _ _ _ a H1 Ha) as (c2 & H2 & Hnone & Hsome).
    unfold clean_one. unfold stays in Hn. destruct (file_at f (a_path a)) as [l|] eqn:El.
    - eapply cut_after; [apply Hsome; done|]. cbn [fst snd]. rewrite (full_complete _ a Hb).
      destruct (decide (complete a)) as [Hc|Hc]; [|exfalso; apply Hn; exists l; done]. rewrite (bool_decide_eq_true_2 _ Hc).
      rewrite decide_False by (intros E; apply Hn; exists l; done). apply cut_in. auto.
    - destruct (Hnone eq_refl) as (e & Hr). eapply cut_after; [exact Hr|]. cbn [fst snd]. apply cut_in. auto.
  Qed.
  Lemma clean_cut_bad A c f h a order : R A c f -> allowed cwd dir dl A f (CList (h :: order)) -> A !! h = Some a -> ~ stays f h a ->
    (exists f', cut_short f (clean_index c (h :: order)) f' /\ wont_start cwd dir dl f')
    /\ exists f', cut_short f (clean_index c (h :: order)) f' /\ stuck cwd dir dl h f'.
  Proof.
    intros H Hal Ha Hn. pose proof (reached_synced _ _ _ _ _ _ H) as (Hcwd & Hs & Ed & Edl).
    pose proof (sy_dir _ _ _ Hs) as Hd. pose proof (sy_dl _ _ _ Hs) as Hdl.
    assert (hash_wf h) as Hw by (apply (entries_wf _ _ _ _ _ (sy_ent _ _ _ Hs)); rewrite Ha; done).
    split.
    - eexists. split; [eapply clean_cut_at; [done..|]; intros c1 H1; apply (proj2 (cut_unshare A c1 f h a H1 Ha))|].
      rewrite <- Ed in *. apply (starts_torn _ _ _ _ (marshal c) 0 c); try done.
      + rewrite lookup_insert_ne by (apply dir_not_child; [done|apply index_normal]).
        rewrite lookup_delete_ne by (apply dir_not_child; [done|apply hash_normal; done]). apply Hs.
      + apply lookup_insert.
      + destruct (length (marshal c)) eqn:E; [|lia]. exfalso. unfold marshal, json_marshal, index_json in E. cbn [print_json length] in E. done.
    - eexists. split; [eapply clean_cut_at; [done..|]; intros c1 H1; apply (proj1 (cut_unshare A c1 f h a H1 Ha))|].
      rewrite <- Ed, <- Edl in *. apply wedged_stuck; try done. split; [|split].
      + rewrite lookup_delete_ne; [apply Hs|]. apply dir_not_child; [done|apply hash_normal; done].
      + rewrite lookup_delete. done.
      + exists c. rewrite lookup_delete_ne by (apply prog_path_ne_index; done). split; [apply Hs|]. apply (synced_good _ f A _ a); done.
  Qed.
End sweep.
Lemma C126_lemma cwd dir dl A c f order f' : valid_utf8 dir -> reached cwd dir dl A c f -> (forall h a, A !! h = Some a -> valid_utf8 (a_path a)) ->
  allowed cwd dir dl A f (CList order) -> (forall h a, A !! h = Some a -> parent (a_path a) <> dir) ->
  cut_short f (clean_index c order) f' ->
  same_user dir f f'
  /\ ((exists A' c', starts cwd dir dl f' c' /\ reached cwd dir dl A' c' f' /\ A' ⊆ A
         /\ forall h a, A !! h = Some a -> stays f h a -> A' !! h = Some a)
      \/ wont_start cwd dir dl f' \/ exists h a, A !! h = Some a /\ ~ stays f h a /\ stuck cwd dir dl h f').
Proof.
  intros Hu H Hua Hal Hout Hk. split.
  - apply (clean_faults cwd dir dl Hu A c f order f' H Hua Hal). apply cut_killed. done.
  - destruct (clean_cut cwd dir dl Hu A c f order f' H Hua Hal Hout Hk) as [(A' & c' & H1 & H2 & H3 & H4)|Hr]; [|right; exact Hr].
    left. exists A', c'. split; [done|]. split; [done|]. split; [done|]. intros h a Ha Hs. apply H4; [done|]. intros Hn. apply Hn. done.
Qed.
Lemma C127_lemma cwd dir dl A c f order f' : valid_utf8 dir -> reached cwd dir dl A c f -> (forall h a, A !! h = Some a -> valid_utf8 (a_path a)) ->
  allowed cwd dir dl A f (CList order) -> killed f (clean_index c order) f' ->
  same_user dir f f'
  /\ ((exists A' c', starts cwd dir dl f' c' /\ reached cwd dir dl A' c' f' /\ A' ⊆ A)
      \/ wont_start cwd dir dl f' \/ exists h a, A !! h = Some a /\ stuck cwd dir dl h f').
Proof.
  intros Hu H Hua Hal Hk. destruct (clean_faults cwd dir dl Hu A c f order f' H Hua Hal Hk) as [G1 G2]. split; [done|].
  destruct G1 as [(A' & c' & H1 & H2 & H3 & _)|[G|(h & a & H1 & _ & H2)]]; [left; eauto|auto|right; right; eauto].
Qed.
