(** Proofs about host discovery. *)
From Verif Require Export DiscoverSpec ServerProofs5.
From Coq Require Import ZifyBool ZifyNat ZifyN.

Definition wmsgs (x : waiter) : list (nat * message) := match wt_chan x with Some p => [p] | None => [] end ++ wt_got x.
Record dinv (D : dstate) : Prop := {
  di_msg : forall i d, d_ds D !! i = Some d -> answers (dl_msg d) (dl_reqid d) \/ exists es, dl_msg d = ListResp (dl_reqid d) es;
  di_lock : forall i d w, d_ds D !! i = Some d -> dl_pc d = DSend w -> d_lock D = Some i;
  di_lock2 : forall i, d_lock D = Some i -> exists d w, d_ds D !! i = Some d /\ dl_pc d = DSend w;
  di_map : forall r t w, d_map D !! (r, t) = Some w -> t = 1%N /\ exists x, d_ws D !! w = Some x /\ wt_reqid x = r /\ (wt_pc x = WWait \/ wt_pc x = WUnreg);
  di_send : forall i d w, d_ds D !! i = Some d -> dl_pc d = DSend w ->
    answers (dl_msg d) (dl_reqid d) /\ exists x, d_ws D !! w = Some x /\ wt_reqid x = dl_reqid d /\ (wt_pc x = WWait \/ wt_pc x = WUnreg);
  di_start : forall w x, d_ws D !! w = Some x -> wt_pc x = WStart -> wmsgs x = [];
  di_crash : forall w x, d_ws D !! w = Some x -> wt_pc x <> WCrash;
  di_msgs : forall w x i m, d_ws D !! w = Some x -> (i, m) ∈ wmsgs x ->
    answers m (wt_reqid x) /\ d_ds D !! i = Some (mkDel (wt_reqid x) m (DDone true));
  di_nodup : forall w x, d_ws D !! w = Some x -> NoDup (map fst (wmsgs x));
  di_one : forall w w' x x' i, d_ws D !! w = Some x -> d_ws D !! w' = Some x' -> i ∈ map fst (wmsgs x) -> i ∈ map fst (wmsgs x') -> w = w';
  di_done : forall i d, d_ds D !! i = Some d -> dl_pc d = DDone true -> exists w x, d_ws D !! w = Some x /\ (i, dl_msg d) ∈ wmsgs x
}.
Lemma resp_type m r : answers m r -> msg_type m = 1%N /\ is_disc_resp m = true.
Proof. intros (a & p & cs & ->). done. Qed.
Lemma deliver_msg e s buffer ra f r m : run f (handle_message e s buffer ra) = (f, Done (s, [], HDeliver r m)) ->
  answers m r \/ exists es, m = ListResp r es.
Proof.
  unfold handle_message. destruct (parse buffer) as [m'|w|w]; cbn [run]; try done.
  destruct m' as [reqid h cs|addr port reqid cs|reqid h|reqid es|h i cap|off data|off]; cbn [run]; try done.
  - intros E. exfalso. revert E. unfold respond_discover. destruct (local_ip _) as [[ip|]| |]; try done.
    destruct (let! _ := sl_index ip 0 in _) as [ad| |]; try done. destruct (is_blank h).
    + cbn [run]. unfold send. destruct (en_wok e); done.
    + rewrite run_bind. destruct (run f (contains (sv_cat s) h)) as [f1 [[c1 g]|w|]]; [|done|done].
      destruct g as [x| |]; cbn [run].
      * destruct (if decide _ then _ else _) as [out| |]; cbn [on_ret run]; [|done|done]. unfold send. destruct (en_wok e); done.
      * unfold send. destruct (en_wok e); done.
      * unfold send. destruct (en_wok e); done.
  - intros [= <- <-]. left. by eexists _, _, _.
  - intros E. exfalso. revert E. unfold respond_list. destruct (is_blank h).
    + rewrite run_bind. destruct (run f (list_files _ _)) as [f1 [[c1 g]|w|]]; [|done|done]. destruct g; cbn [run]; try done. unfold send. destruct (en_wok e); done.
    + rewrite run_bind. destruct (run f (contains _ _)) as [f1 [[c1 g]|w|]]; [|done|done]. destruct g; cbn [run]; try done. unfold send. destruct (en_wok e); done.
  - intros [= <- <-]. right. by eexists.
  - intros E. exfalso. revert E. unfold start_upload. rewrite run_bind. destruct (run f (contains _ _)) as [f1 [[c1 g]|w|]]; [|done|done].
    destruct g as [x|w|w]; cbn [on_ret run]; try done. rewrite run_bind.
    destruct (run f1 (get_chunk_reader _ _ _ _)) as [f2 [[c2 g]|w|]]; [|done|done].
    destruct g as [[fo rd]|w|w]; cbn [on_ret run]; try done. destruct (_ <? _)%Z; [done|].
    destruct (new_ipv4 _) as [ip|w|w]; cbn [on_ret run]; try done. destruct (kickstart _ _ _ _) as [u' rk]. destruct rk as [p|w|w]; cbn [on_ret run]; done.
  - intros E. exfalso. revert E. unfold continue_upload. destruct (new_ipv4 _) as [ip|w|w]; cbn [on_ret run]; try done. destruct (_ !! _); done.
Qed.

Ltac look H := repeat first
  [ rewrite lookup_insert in H | rewrite lookup_insert_ne in H by congruence ].
Tactic Notation "upd" hyp(H) constr(a) constr(b) :=
  destruct (decide (a = b)) as [->|]; [rewrite lookup_insert in H|rewrite lookup_insert_ne in H by congruence].

Lemma dinv_init : dinv d_init.
Proof. constructor; cbn; intros; rewrite ?lookup_empty in *; done. Qed.
Lemma dinv_step D D' : dinv D -> dstep D D' -> dinv D'.
Proof.
  intros HI Hs. destruct Hs as [D w r Hw|D w x Hw Hpc Hl|D i e s buffer ra f r m Hi Hm|D i d Hi Hpc Hl Hmap|D i d w Hi Hpc Hl Hmap
    |D i d w x Hi Hpc Hw Hc|D w x i m Hw Hpc Hc|D w x Hw Hpc|D w x Hw Hpc Hl]; pose proof HI as [I1 I2 I2b I3 I4 I5 I6 I7 I8 I9 I10].
  - (* call *)
    constructor; cbn [set_w d_ds d_lock d_map d_ws]; try done.
    + intros r' t w' Hx. destruct (I3 _ _ _ Hx) as (-> & x & H1 & H2). split; [done|]. exists x. rewrite lookup_insert_ne by congruence. done.
    + intros i d w' H1 H2. destruct (I4 _ _ _ H1 H2) as (G1 & x & G2 & G3). split; [done|]. exists x. rewrite lookup_insert_ne by congruence. done.
    + intros w' x H. upd H w w'; [simplify_eq; done|eauto].
    + intros w' x H. upd H w w'; [simplify_eq; done|eauto].
    + intros w' x i m H. upd H w w'; [simplify_eq; intros Hin; cbn in Hin; set_solver|eauto].
    + intros w' x H. upd H w w'; [simplify_eq; constructor|eauto].
    + intros w1 w2 x1 x2 i H1 H2. upd H1 w w1; [simplify_eq; intros Hin; cbn in Hin; set_solver|].
      upd H2 w w2; [simplify_eq; intros _ Hin; cbn in Hin; set_solver|]. eauto.
    + intros i d H1 H2. destruct (I10 _ _ H1 H2) as (w' & x & G1 & G2). exists w', x. rewrite lookup_insert_ne by congruence. done.
  - (* register *)
    constructor; cbn [set_w set_rmap d_ds d_lock d_map d_ws]; try done.
    + intros r' t w' Hx. destruct (decide ((wt_reqid x, response_type_disc) = (r', t))) as [E|E].
      * rewrite E, lookup_insert in Hx. simplify_eq. split; [done|]. eexists. rewrite lookup_insert. cbn. auto.
      * rewrite lookup_insert_ne in Hx by done. destruct (I3 _ _ _ Hx) as (-> & y & H1 & H2 & H3). split; [done|]. exists y.
        rewrite lookup_insert_ne; [done|]. intros ->. rewrite Hw in H1; simplify_eq; destruct H3; congruence.
    + intros i d w' H1 H2. destruct (I4 _ _ _ H1 H2) as (G1 & y & G2 & G3 & G4). split; [done|]. exists y.
      rewrite lookup_insert_ne; [done|]. intros ->. rewrite Hw in G2; simplify_eq; destruct G4; congruence.
    + intros w' y H. upd H w w'; [simplify_eq; done|eauto].
    + intros w' y H. upd H w w'; [simplify_eq; done|eauto].
    + intros w' y i m H. upd H w w'; [simplify_eq; intros Hin|eauto].
      pose proof (I5 _ _ Hw Hpc) as E0. unfold wmsgs in E0. apply app_eq_nil in E0 as [_ E0]. unfold wmsgs in Hin. cbn in Hin. rewrite E0 in Hin. set_solver.
    + intros w' y H. upd H w w'; [simplify_eq|eauto].
      pose proof (I5 _ _ Hw Hpc) as E0. unfold wmsgs in E0. apply app_eq_nil in E0 as [_ E0]. unfold wmsgs. cbn. rewrite E0. constructor.
    + pose proof (I5 _ _ Hw Hpc) as E0. unfold wmsgs in E0. apply app_eq_nil in E0 as [_ E0].
      intros w1 w2 x1 x2 i H1 H2. upd H1 w w1; [simplify_eq; intros Hin; unfold wmsgs in Hin; cbn in Hin; rewrite E0 in Hin; set_solver|].
      upd H2 w w2; [simplify_eq; intros _ Hin; unfold wmsgs in Hin; cbn in Hin; rewrite E0 in Hin; set_solver|]. eauto.
    + intros i d H1 H2. destruct (I10 _ _ H1 H2) as (w' & y & G1 & G2). exists w', y. rewrite lookup_insert_ne; [done|].
      intros ->. rewrite Hw in G1. simplify_eq. rewrite (I5 _ _ Hw Hpc) in G2. set_solver.
  - (* arrive *)
    constructor; cbn [set_d d_ds d_lock d_map d_ws]; try done.
    + intros j d H. upd H i j; [simplify_eq; cbn; eapply deliver_msg; done|eauto].
    + intros j d w H. upd H i j; [simplify_eq; done|eauto].
    + intros j H. destruct (I2b _ H) as (d & w & H1 & H2). exists d, w. rewrite lookup_insert_ne by congruence. done.
    + intros j d w H. upd H i j; [simplify_eq; done|eauto].
    + intros w x j m' H Hin. destruct (I7 _ _ _ _ H Hin) as [G1 G2]. split; [done|]. rewrite lookup_insert_ne by congruence. done.
    + intros j d H. upd H i j; [simplify_eq; done|eauto].
  - (* reject *)
    constructor; cbn [set_d d_ds d_lock d_map d_ws]; try done.
    + intros j d' H. upd H i j; [simplify_eq; cbn; eauto|eauto].
    + intros j d' w H. upd H i j; [simplify_eq; done|eauto].
    + intros j H. congruence.
    + intros j d' w H. upd H i j; [simplify_eq; done|eauto].
    + intros w x j m' H Hin. destruct (I7 _ _ _ _ H Hin) as [G1 G2]. split; [done|]. rewrite lookup_insert_ne; [done|].
      intros ->. rewrite Hi in G2; simplify_eq; done.
    + intros j d' H. upd H i j; [simplify_eq; done|eauto].
  - (* lock *)
    constructor; cbn [set_d set_lock d_ds d_lock d_map d_ws]; try done.
    + intros j d' H. upd H i j; [simplify_eq; cbn; eauto|eauto].
    + intros j d' w' H. upd H i j; [simplify_eq; done|]. intros E. rewrite (I2 _ _ _ H E) in Hl. done.
    + intros j [= <-]. eexists _, w. rewrite lookup_insert. done.
    + intros j d' w' H. upd H i j; [simplify_eq; cbn|eauto]. intros [= <-]. destruct (I3 _ _ _ Hmap) as (Ht & x & G1 & G2 & G3).
      split; [|exists x; done]. destruct (I1 _ _ Hi) as [Hr|[es Hr]]; [done|]. rewrite Hr in Ht. done.
    + intros w' x j m' H Hin. destruct (I7 _ _ _ _ H Hin) as [G1 G2]. split; [done|]. rewrite lookup_insert_ne; [done|].
      intros ->. rewrite Hi in G2; simplify_eq; done.
    + intros j d' H. upd H i j; [simplify_eq; done|eauto].
  - (* send *)
    destruct (I4 _ _ _ Hi Hpc) as (Gr & x0 & Gx & Gq & Gp). rewrite Hw in Gx. simplify_eq.
    assert (forall w' y j m, d_ws D !! w' = Some y -> (j, m) ∈ wmsgs y -> j <> i) as Hfresh.
    { intros w' y j m H1 H2 ->. destruct (I7 _ _ _ _ H1 H2) as [_ G]. rewrite Hi in G; simplify_eq; done. }
    assert (wmsgs (mkWaiter (wt_reqid x0) (wt_pc x0) (Some (i, dl_msg d)) (wt_got x0)) = (i, dl_msg d) :: wmsgs x0) as Hms.
    { unfold wmsgs. rewrite Hc. done. }
    constructor; cbn [set_d set_w set_lock d_ds d_lock d_map d_ws]; try done.
    + intros j d' H. upd H i j; [simplify_eq; cbn; eauto|eauto].
    + intros j d' w' H. upd H i j; [simplify_eq; done|]. intros E. pose proof (I2 _ _ _ H E). pose proof (I2 _ _ _ Hi Hpc). congruence.
    + intros r t w' H. destruct (I3 _ _ _ H) as (-> & y & G1 & G2 & G3). split; [done|].
      destruct (decide (w = w')) as [->|]; [|exists y; rewrite lookup_insert_ne by done; done].
      rewrite Hw in G1. simplify_eq. eexists. rewrite lookup_insert. cbn. done.
    + intros j d' w' H. upd H i j; [simplify_eq; done|]. intros E. pose proof (I2 _ _ _ H E). pose proof (I2 _ _ _ Hi Hpc). congruence.
    + intros w' y H E. upd H w w'; [simplify_eq; cbn in E; destruct Gp; congruence|eauto].
    + intros w' y H. upd H w w'; [simplify_eq; cbn; eauto|eauto].
    + intros w' y j m H. upd H w w'.
      * simplify_eq. rewrite Hms. intros Hin. apply elem_of_cons in Hin as [E|Hin].
        -- simplify_eq. cbn. rewrite Gq, lookup_insert. done.
        -- cbn [wt_reqid]. destruct (I7 _ _ _ _ Hw Hin) as [G1 G2]. split; [done|]. rewrite lookup_insert_ne by (apply not_eq_sym; eauto). done.
      * intros Hin. destruct (I7 _ _ _ _ H Hin) as [G1 G2]. split; [done|]. rewrite lookup_insert_ne by (apply not_eq_sym; eauto). done.
    + intros w' y H. upd H w w'; [simplify_eq|eauto]. rewrite Hms. cbn [map fst]. constructor; [|eauto].
      intros Hin. apply elem_of_list_fmap in Hin as ([j m] & E & Hin). cbn in E. subst j. eapply Hfresh; done.
    + assert (forall w' y, <[w := mkWaiter (wt_reqid x0) (wt_pc x0) (Some (i, dl_msg d)) (wt_got x0)]> (d_ws D) !! w' = Some y ->
        exists y0, d_ws D !! w' = Some y0 /\ forall j, j ∈ map fst (wmsgs y) -> j ∈ map fst (wmsgs y0) \/ (j = i /\ w' = w)) as Hold.
      { intros w' y H. upd H w w'; [simplify_eq|eauto]. exists x0. split; [done|]. rewrite Hms. intros j Hj. apply elem_of_cons in Hj as [->|Hj]; auto. }
      intros w1 w2 x1 x2 j H1 H2 Hj1 Hj2. destruct (Hold _ _ H1) as (y1 & G1 & K1). destruct (Hold _ _ H2) as (y2 & G2 & K2).
      specialize (K1 _ Hj1). specialize (K2 _ Hj2).
      assert (forall w' y, d_ws D !! w' = Some y -> i ∉ map fst (wmsgs y)) as Hni.
      { intros w' y H Hin. apply elem_of_list_fmap in Hin as ([j' m] & E & Hin). cbn in E. subst j'. eapply Hfresh; done. }
      destruct K1 as [K1|[-> ->]], K2 as [K2|[K2 K2']]; subst; first [done|exact (I9 _ _ _ _ _ G1 G2 K1 K2)|exfalso; exact (Hni _ _ G1 K1)|exfalso; exact (Hni _ _ G2 K2)].
    + intros j d' H E. upd H i j.
      * simplify_eq. cbn. exists w. eexists. rewrite lookup_insert. split; [done|]. rewrite Hms. left.
      * destruct (I10 _ _ H E) as (w' & y & G1 & G2). destruct (decide (w = w')) as [->|].
        -- rewrite Hw in G1. simplify_eq. exists w'. eexists. rewrite lookup_insert. split; [done|]. rewrite Hms. right. done.
        -- exists w', y. rewrite lookup_insert_ne by done. done.
  - (* recv *)
    assert (wmsgs x = (i, m) :: wt_got x) as Hms by (unfold wmsgs; rewrite Hc; done).
    destruct (I7 _ _ i m Hw) as [Gr _]; [rewrite Hms; left|]. destruct (resp_type _ _ Gr) as [_ ->].
    set (x' := mkWaiter (wt_reqid x) WWait None (wt_got x ++ [(i, m)])).
    assert (forall p, p ∈ wmsgs x' <-> p ∈ wmsgs x) as Hsame.
    { intros p. rewrite Hms. unfold wmsgs. cbn. set_solver. }
    assert (forall j, j ∈ map fst (wmsgs x') <-> j ∈ map fst (wmsgs x)) as Hsame2.
    { intros j. rewrite !elem_of_list_fmap. split; intros (p & E & H); exists p; rewrite ?Hsame in *; split; auto; apply Hsame; done. }
    constructor; cbn [set_w d_ds d_lock d_map d_ws]; try done.
    + intros r t w' H. destruct (I3 _ _ _ H) as (-> & y & G1 & G2 & G3). split; [done|].
      destruct (decide (w = w')) as [->|]; [|exists y; rewrite lookup_insert_ne by done; done].
      rewrite Hw in G1. simplify_eq. eexists. rewrite lookup_insert. cbn. auto.
    + intros j d w' H E. destruct (I4 _ _ _ H E) as (G1 & y & G2 & G3 & G4). split; [done|].
      destruct (decide (w = w')) as [->|]; [|exists y; rewrite lookup_insert_ne by done; done].
      rewrite Hw in G2. simplify_eq. eexists. rewrite lookup_insert. cbn. auto.
    + intros w' y H E. upd H w w'; [simplify_eq; done|eauto].
    + intros w' y H. upd H w w'; [simplify_eq; done|eauto].
    + intros w' y j m' H. upd H w w'; [simplify_eq; rewrite Hsame; cbn; apply (I7 _ _ _ _ Hw)|apply (I7 _ _ _ _ H)].
    + intros w' y H. upd H w w'; [simplify_eq|eauto]. pose proof (I8 _ _ Hw) as Hn. rewrite Hms in Hn. unfold wmsgs. cbn.
      rewrite map_app. cbn in *. apply NoDup_app. inversion Hn; subst. split; [done|]. split; [|constructor; [set_solver|constructor]].
      intros j Hj1 Hj2. apply elem_of_list_singleton in Hj2 as ->. done.
    + intros w1 w2 x1 x2 j H1 H2.
      assert (forall w' y, <[w := x']> (d_ws D) !! w' = Some y -> exists y0, d_ws D !! w' = Some y0 /\ (j ∈ map fst (wmsgs y) -> j ∈ map fst (wmsgs y0))) as Hold.
      { intros w' y H. upd H w w'; [simplify_eq; exists x; split; [done|]; apply Hsame2|eauto]. }
      destruct (Hold _ _ H1) as (y1 & G1 & K1). destruct (Hold _ _ H2) as (y2 & G2 & K2). intros J1 J2. eapply I9; eauto.
    + intros j d H E. destruct (I10 _ _ H E) as (w' & y & G1 & G2).
      destruct (decide (w = w')) as [->|]; [|exists w', y; rewrite lookup_insert_ne by done; done].
      rewrite Hw in G1. simplify_eq. exists w', x'. rewrite lookup_insert. split; [done|]. apply Hsame. done.
  - (* timeout *)
    constructor; cbn [set_w d_ds d_lock d_map d_ws]; try done.
    + intros r t w' H. destruct (I3 _ _ _ H) as (-> & y & G1 & G2 & G3). split; [done|].
      destruct (decide (w = w')) as [->|]; [|exists y; rewrite lookup_insert_ne by done; done].
      rewrite Hw in G1. simplify_eq. eexists. rewrite lookup_insert. cbn. auto.
    + intros j d w' H E. destruct (I4 _ _ _ H E) as (G1 & y & G2 & G3 & G4). split; [done|].
      destruct (decide (w = w')) as [->|]; [|exists y; rewrite lookup_insert_ne by done; done].
      rewrite Hw in G2. simplify_eq. eexists. rewrite lookup_insert. cbn. auto.
    + intros w' y H E. upd H w w'; [simplify_eq; done|eauto].
    + intros w' y H. upd H w w'; [simplify_eq; done|eauto].
    + intros w' y j m' H. upd H w w'; [simplify_eq; apply (I7 _ _ _ _ Hw)|apply (I7 _ _ _ _ H)].
    + intros w' y H. upd H w w'; [simplify_eq; apply (I8 _ _ Hw)|eauto].
    + intros w1 w2 x1 x2 j H1 H2.
      assert (forall w' y, <[w := mkWaiter (wt_reqid x) WUnreg (wt_chan x) (wt_got x)]> (d_ws D) !! w' = Some y -> exists y0, d_ws D !! w' = Some y0 /\ (j ∈ map fst (wmsgs y) -> j ∈ map fst (wmsgs y0))) as Hold.
      { intros w' y H. upd H w w'; [simplify_eq; exists x; done|eauto]. }
      destruct (Hold _ _ H1) as (y1 & G1 & K1). destruct (Hold _ _ H2) as (y2 & G2 & K2). intros J1 J2. eapply I9; eauto.
    + intros j d H E. destruct (I10 _ _ H E) as (w' & y & G1 & G2).
      destruct (decide (w = w')) as [->|]; [|exists w', y; rewrite lookup_insert_ne by done; done].
      rewrite Hw in G1. simplify_eq. exists w'. eexists. rewrite lookup_insert. done.
  - (* unregister *)
    assert (forall i d w', d_ds D !! i = Some d -> dl_pc d = DSend w' -> False) as Hnosend.
    { intros i d w' H1 H2. rewrite (I2 _ _ _ H1 H2) in Hl. done. }
    constructor; cbn [set_w set_rmap d_ds d_lock d_map d_ws]; try done.
    + intros r t w' H. apply lookup_delete_Some in H as [Hne H]. destruct (I3 _ _ _ H) as (-> & y & G1 & G2 & G3). split; [done|].
      exists y. rewrite lookup_insert_ne; [done|]. intros ->. rewrite Hw in G1; simplify_eq; naive_solver.
    + intros j d w' H E. exfalso. eauto.
    + intros w' y H E. upd H w w'; [simplify_eq; done|eauto].
    + intros w' y H. upd H w w'; [simplify_eq; done|eauto].
    + intros w' y j m' H. upd H w w'; [simplify_eq; apply (I7 _ _ _ _ Hw)|apply (I7 _ _ _ _ H)].
    + intros w' y H. upd H w w'; [simplify_eq; apply (I8 _ _ Hw)|eauto].
    + intros w1 w2 x1 x2 j H1 H2.
      assert (forall w' y, <[w := mkWaiter (wt_reqid x) WDone (wt_chan x) (wt_got x)]> (d_ws D) !! w' = Some y -> exists y0, d_ws D !! w' = Some y0 /\ (j ∈ map fst (wmsgs y) -> j ∈ map fst (wmsgs y0))) as Hold.
      { intros w' y H. upd H w w'; [simplify_eq; exists x; done|eauto]. }
      destruct (Hold _ _ H1) as (y1 & G1 & K1). destruct (Hold _ _ H2) as (y2 & G2 & K2). intros J1 J2. eapply I9; eauto.
    + intros j d H E. destruct (I10 _ _ H E) as (w' & y & G1 & G2).
      destruct (decide (w = w')) as [->|]; [|exists w', y; rewrite lookup_insert_ne by done; done].
      rewrite Hw in G1. simplify_eq. exists w'. eexists. rewrite lookup_insert. done.
Qed.

Lemma d_reached_inv D : d_reached D -> dinv D.
Proof. apply rtc_ind_r; [apply dinv_init|]. intros. by eapply dinv_step. Qed.
Lemma handed_wmsgs D i m w : handed D i m w <-> exists x, d_ws D !! w = Some x /\ (i, m) ∈ wmsgs x.
Proof.
  unfold handed, wmsgs. split; intros (x & H1 & H2); exists x; (split; [done|]); destruct (wt_chan x); set_solver.
Qed.
Lemma C55_lemma D : d_reached D ->
  (forall i m w, handed D i m w -> exists r, wt_reqid <$> d_ws D !! w = Some r /\ answers m r) /\
  (forall i m m' w w', handed D i m w -> handed D i m' w' -> m = m' /\ w = w') /\
  (forall w x, d_ws D !! w = Some x -> NoDup (map fst (match wt_chan x with Some p => [p] | None => [] end ++ wt_got x))) /\
  (forall i, (exists m w, handed D i m w) <-> dpc_of D i = Some (DDone true)) /\
  (forall w, pc_of D w <> Some WCrash).
Proof.
  intros HD. pose proof (d_reached_inv _ HD) as [I1 I2 I2b I3 I4 I5 I6 I7 I8 I9 I10]. split_and!.
  - intros i m w (x & H1 & H2)%handed_wmsgs. destruct (I7 _ _ _ _ H1 H2) as [G1 _]. exists (wt_reqid x). rewrite H1. done.
  - intros i m m' w w' (x & H1 & H2)%handed_wmsgs (x' & H1' & H2')%handed_wmsgs.
    destruct (I7 _ _ _ _ H1 H2) as [_ G]. destruct (I7 _ _ _ _ H1' H2') as [_ G']. rewrite G in G'. simplify_eq. split; [done|].
    eapply I9; [done..| |]; apply elem_of_list_fmap; by eexists.
  - intros w x H. apply (I8 _ _ H).
  - intros i. unfold dpc_of. split.
    + intros (m & w & (x & H1 & H2)%handed_wmsgs). destruct (I7 _ _ _ _ H1 H2) as [_ ->]. done.
    + intros H. destruct (d_ds D !! i) as [d|] eqn:E; [|done]. cbn in H. injection H as H.
      destruct (I10 _ _ E H) as (w & x & G1 & G2). exists (dl_msg d), w. apply handed_wmsgs. by exists x.
  - intros w. unfold pc_of. destruct (d_ws D !! w) as [x|] eqn:E; [|done]. cbn. intros [= H]. by eapply I6.
Qed.

Lemma step_calls D D' w x : dstep D D' -> d_ws D !! w = Some x -> exists x', d_ws D' !! w = Some x' /\ wt_reqid x' = wt_reqid x.
Proof.
  intros Hs Hw. destruct Hs as [D w' r Hw'|D w' y Hw' Hpc Hl|D i e s buffer ra f r m Hi Hm|D i d Hi Hpc Hl Hmap|D i d w' Hi Hpc Hl Hmap
    |D i d w' y Hi Hpc Hw' Hc|D w' y i m Hw' Hpc Hc|D w' y Hw' Hpc|D w' y Hw' Hpc Hl]; cbn [set_w set_d set_rmap set_lock d_ws d_ds d_map d_lock];
  try (by exists x); (destruct (decide (w' = w)) as [->|]; [|rewrite lookup_insert_ne by done; by exists x]);
  rewrite ?lookup_insert; rewrite Hw in Hw'; simplify_eq; try (by eexists).
  destruct (is_disc_resp m); by eexists.
Qed.
Lemma distinct_back D D' : dstep D D' -> distinct_ids D' -> distinct_ids D.
Proof.
  intros Hs Hd w w' x x' H1 H2 E. destruct (step_calls _ _ _ _ Hs H1) as (y & G1 & G2). destruct (step_calls _ _ _ _ Hs H2) as (y' & G1' & G2').
  eapply Hd; [done..|congruence].
Qed.
Lemma map_complete D : d_reached D -> distinct_ids D -> forall w r, waiting D w r -> d_map D !! (r, 1%N) = Some w.
Proof.
  revert D. apply (rtc_ind_r (fun D => distinct_ids D -> forall w r, waiting D w r -> d_map D !! (r, 1%N) = Some w)).
  { intros _ w r (x & H & _). cbn in H. by rewrite lookup_empty in H. }
  intros D D' HD Hs IH Hd' w r. pose proof (distinct_back _ _ Hs Hd') as Hd. specialize (IH Hd).
  assert (forall w r, waiting D w r -> d_map D !! (r, 1%N) = Some w) as IH' by exact IH. clear IH.
  intros (x & Hx & Hr & Hp).
  destruct Hs as [D w' q Hw'|D w' y Hw' Hpc Hl|D i e s buffer ra f q m Hi Hm|D i d Hi Hpc Hl Hmap|D i d w' Hi Hpc Hl Hmap
    |D i d w' y Hi Hpc Hw' Hc|D w' y i m Hw' Hpc Hc|D w' y Hw' Hpc|D w' y Hw' Hpc Hl]; cbn [set_w set_d set_rmap set_lock d_ws d_ds d_map d_lock] in *.
  - upd Hx w' w; [simplify_eq; cbn in Hp; naive_solver|]. apply IH'. by exists x.
  - destruct (decide (w' = w)) as [->|Hne].
    + rewrite lookup_insert in Hx. simplify_eq. cbn. rewrite lookup_insert. done.
    + rewrite lookup_insert_ne in Hx by done. rewrite lookup_insert_ne; [apply IH'; by exists x|].
      intros [= E]. apply Hne. eapply Hd; [done..|congruence].
  - apply IH'. by exists x.
  - apply IH'. by exists x.
  - apply IH'. by exists x.
  - upd Hx w' w; [simplify_eq; cbn in Hp|]; apply IH'; by eexists.
  - upd Hx w' w; [|apply IH'; by eexists]. destruct (is_disc_resp m); simplify_eq; cbn in *; [|naive_solver]. apply IH'. eexists. eauto.
  - upd Hx w' w; [|apply IH'; by eexists]. simplify_eq. cbn. apply IH'. eexists. eauto.
  - upd Hx w' w; [simplify_eq; cbn in Hp; naive_solver|]. rewrite lookup_delete_ne; [apply IH'; by eexists|].
    intros [= E]. assert (w' = w); [|done]. eapply Hd; [done..|congruence].
Qed.
Lemma C55_routing_lemma D D' i d : d_reached D -> dstep D D' -> d_ds D !! i = Some d -> dl_pc d = DStart ->
  (forall w, dpc_of D' i = Some (DSend w) -> answers (dl_msg d) (dl_reqid d) /\ waiting D w (dl_reqid d)) /\
  (dpc_of D' i = Some (DDone false) ->
     unchanged D D' /\ (distinct_ids D -> answers (dl_msg d) (dl_reqid d) -> forall w, ~ waiting D w (dl_reqid d))) /\
  dpc_of D' i <> Some (DDone true).
Proof.
  intros HD Hs Hd Hp. pose proof (d_reached_inv _ HD) as [I1 I2 I2b I3 I4 I5 I6 I7 I8 I9 I10].
  assert (forall D1, d_ds D1 = d_ds D -> dpc_of D1 i = Some DStart) as Hsame.
  { intros D1 E. unfold dpc_of. rewrite E, Hd. cbn. by rewrite Hp. }
  assert (forall D1 j y, d_ds D1 = <[j := y]> (d_ds D) -> j <> i -> dpc_of D1 i = Some DStart) as Hsame2.
  { intros D1 j y E Hj. unfold dpc_of. rewrite E, lookup_insert_ne, Hd by done. cbn. by rewrite Hp. }
  pose proof (map_complete _ HD) as Hmc.
  destruct Hs as [D w' q Hw'|D w' y Hw' Hpc Hl|D j e s buffer ra f q m Hi Hm|D j d' Hi Hpc Hl Hmap|D j d' w' Hi Hpc Hl Hmap
    |D j d' w' y Hi Hpc Hw' Hc|D w' y j m Hw' Hpc Hc|D w' y Hw' Hpc|D w' y Hw' Hpc Hl];
    try (rewrite Hsame by done; naive_solver).
  - rewrite (Hsame2 _ j (mkDel q m DStart)) by (done || congruence). naive_solver.
  - destruct (decide (j = i)) as [->|Hj]; [|rewrite (Hsame2 _ j (mkDel (dl_reqid d') (dl_msg d') (DDone false))) by done; naive_solver].
    rewrite Hd in Hi. injection Hi as <-. unfold dpc_of. cbn. rewrite lookup_insert. cbn.
    split; [done|]. split; [|done]. intros _. split; [done|]. intros Hdi (a & p & cs & Ea) w Hwt.
    pose proof (Hmc Hdi _ _ Hwt) as E. rewrite Ea in Hmap. cbn in Hmap. congruence.
  - destruct (decide (j = i)) as [->|Hj]; [|rewrite (Hsame2 _ j (mkDel (dl_reqid d') (dl_msg d') (DSend w'))) by done; naive_solver].
    rewrite Hd in Hi. injection Hi as <-. unfold dpc_of. cbn. rewrite lookup_insert. cbn.
    split; [|done]. intros w [= <-]. destruct (I3 _ _ _ Hmap) as (Ht & Hx). split; [|exact Hx].
    destruct (I1 _ _ Hd) as [Hr|[es Hr]]; [done|]. rewrite Hr in Ht. done.
  - assert (j <> i) by (intros ->; rewrite Hd in Hi; congruence).
    rewrite (Hsame2 _ j (mkDel (dl_reqid d') (dl_msg d') (DDone true))) by done. naive_solver.
Qed.

(** *** C56 *)
Lemma jammed_step D D' : dinv D -> jammed D -> dstep D D' ->
  jammed D' /\ (forall w, pc_of D' w = Some WDone -> pc_of D w = Some WDone) /\
  (forall i b, dpc_of D' i = Some (DDone b) -> dpc_of D i = Some (DDone b)) /\
  (forall w, pc_of D' w = Some WWait -> pc_of D w = Some WWait).
Proof.
  intros HI (i & w & x & Hl & Hi & Hw & Hp & Hc) Hs. pose proof (di_lock _ HI) as Hlk.
  destruct Hs as [D w' q Hw'|D w' y Hw' Hpc' Hl'|D j e s buffer ra f q m Hj Hm|D j d' Hj Hpc' Hl' Hmap|D j d' w' Hj Hpc' Hl' Hmap
    |D j d' w' y Hj Hpc' Hw' Hc'|D w' y j m Hw' Hpc' Hc'|D w' y Hw' Hpc'|D w' y Hw' Hpc' Hl']; try congruence.
  - split_and!; [|unfold pc_of; cbn; intros w1|done|unfold pc_of; cbn; intros w1].
    + exists i, w, x. cbn. rewrite lookup_insert_ne by congruence. done.
    + destruct (decide (w' = w1)) as [->|]; [rewrite lookup_insert; done|rewrite lookup_insert_ne by done; done].
    + destruct (decide (w' = w1)) as [->|]; [rewrite lookup_insert; done|rewrite lookup_insert_ne by done; done].
  - split_and!; [|done| |done].
    + exists i, w, x. unfold dpc_of in *. cbn. rewrite lookup_insert_ne; [done|]. intros ->. by rewrite Hj in Hi.
    + unfold dpc_of; cbn. intros i1 b. destruct (decide (j = i1)) as [->|]; [rewrite lookup_insert; done|rewrite lookup_insert_ne by done; done].
  - exfalso. pose proof (Hlk _ _ _ Hj Hpc') as E. rewrite Hl in E. injection E as <-. unfold dpc_of in Hi. rewrite Hj in Hi. cbn in Hi.
    rewrite Hpc' in Hi. injection Hi as ->. congruence.
  - assert (w' <> w) by congruence. destruct HI as [I1 I2 I2b I3 I4 I5 I6 I7 I8 I9 I10].
    split_and!; [|unfold pc_of; cbn; intros w1|done|unfold pc_of; cbn; intros w1].
    + exists i, w, x. cbn. rewrite lookup_insert_ne by congruence. done.
    + destruct (decide (w' = w1)) as [->|]; [rewrite lookup_insert|rewrite lookup_insert_ne by done; done]. destruct (is_disc_resp m); done.
    + destruct (decide (w' = w1)) as [->|]; [rewrite lookup_insert|rewrite lookup_insert_ne by done; done]. rewrite Hw'. cbn. rewrite Hpc'. done.
  - split_and!; [|unfold pc_of; cbn; intros w1|done|unfold pc_of; cbn; intros w1].
    + exists i, w. destruct (decide (w' = w)) as [->|].
      * exfalso. rewrite Hw in Hw'. congruence.
      * exists x. cbn. rewrite lookup_insert_ne by congruence. done.
    + destruct (decide (w' = w1)) as [->|]; [rewrite lookup_insert; done|rewrite lookup_insert_ne by done; done].
    + destruct (decide (w' = w1)) as [->|]; [rewrite lookup_insert; done|rewrite lookup_insert_ne by done; done].
Qed.
Lemma C56_forever_lemma D D' : d_reached D -> jammed D -> rtc dstep D D' ->
  jammed D' /\ (forall w, pc_of D' w = Some WDone -> pc_of D w = Some WDone) /\
  (forall i b, dpc_of D' i = Some (DDone b) -> dpc_of D i = Some (DDone b)) /\
  (forall w, pc_of D' w = Some WWait -> pc_of D w = Some WWait).
Proof.
  intros HD HJ Hs. pose proof (d_reached_inv _ HD) as HI. clear HD. induction Hs as [D|D D1 D' H1 H2 IH]; [done|].
  pose proof (dinv_step _ _ HI H1) as HI1. destruct (jammed_step _ _ HI HJ H1) as (J1 & A1 & B1 & C1).
  destruct (IH J1 HI1) as (J2 & A2 & B2 & C2). split_and!; eauto.
Qed.
Lemma unreg_free D w : d_lock D = None -> pc_of D w = Some WUnreg -> exists D', rtc dstep D D' /\ pc_of D' w = Some WDone.
Proof.
  intros Hl Hp. unfold pc_of in Hp. destruct (d_ws D !! w) as [x|] eqn:E; [|done]. cbn in Hp. injection Hp as Hp.
  eexists. split; [apply rtc_once; by eapply ds_unregister|]. unfold pc_of. cbn. rewrite lookup_insert. done.
Qed.
Lemma send_once D i w x : dinv D -> d_lock D = Some i -> dpc_of D i = Some (DSend w) -> d_ws D !! w = Some x -> wt_chan x = None ->
  exists D', dstep D D' /\ d_lock D' = None /\ dpc_of D' i = Some (DDone true) /\ forall w', pc_of D' w' = pc_of D w'.
Proof.
  intros HI Hl Hi Hw Hc. unfold dpc_of in Hi. destruct (d_ds D !! i) as [d|] eqn:E; [|done]. cbn in Hi. injection Hi as Hi.
  eexists. split; [by eapply ds_send|]. split; [done|]. split; [unfold dpc_of; cbn; by rewrite lookup_insert|].
  intros w'. unfold pc_of. cbn. destruct (decide (w = w')) as [->|]; [rewrite lookup_insert, Hw|rewrite lookup_insert_ne by done]; done.
Qed.
Lemma C56_exact_lemma D w : d_reached D -> pc_of D w = Some WUnreg ->
  (exists D', rtc dstep D D' /\ pc_of D' w = Some WDone) <-> ~ jammed D.
Proof.
  intros HD Hp. split.
  - intros (D' & Hs & Hd) HJ. destruct (C56_forever_lemma _ _ HD HJ Hs) as (_ & A & _). apply A in Hd. congruence.
  - intros HJ. pose proof (d_reached_inv _ HD) as HI. destruct (d_lock D) as [i|] eqn:Hl; [|by apply unreg_free].
    destruct (di_lock2 _ HI _ Hl) as (d & w0 & Hi & Hpc). destruct (di_send _ HI _ _ _ Hi Hpc) as (Ga & x & Gx & Gr & Gp).
    assert (dpc_of D i = Some (DSend w0)) as Hdp by (unfold dpc_of; rewrite Hi; cbn; by rewrite Hpc).
    destruct (wt_chan x) as [[j m]|] eqn:Ec.
    + destruct Gp as [Gp|Gp]; [|exfalso; apply HJ; exists i, w0, x; split_and!; [done..|congruence]].
      pose proof (ds_recv _ _ _ _ _ Gx Gp Ec) as S1. pose proof (dinv_step _ _ HI S1) as HI1.
      destruct (di_msgs _ HI w0 x j m Gx) as [Gm _]; [unfold wmsgs; rewrite Ec; left|]. destruct (resp_type _ _ Gm) as [_ Em]. rewrite Em in S1, HI1.
      destruct (send_once _ i w0 (mkWaiter (wt_reqid x) WWait None (wt_got x ++ [(j, m)])) HI1) as (D2 & S2 & L2 & _ & P2); [done|done|by cbn; rewrite lookup_insert|done|].
      destruct (unreg_free D2 w L2) as (D3 & S3 & E3).
      { rewrite P2. unfold pc_of in *. cbn. rewrite lookup_insert_ne; [done|]. intros ->. rewrite Gx in Hp. cbn in Hp. congruence. }
      exists D3. split; [|done]. eapply rtc_l; [exact S1|]. by eapply rtc_l.
    + destruct (send_once _ i w0 x HI Hl Hdp Gx Ec) as (D2 & S2 & L2 & _ & P2).
      destruct (unreg_free D2 w L2) as (D3 & S3 & E3); [by rewrite P2|]. exists D3. split; [by eapply rtc_l|done].
Qed.
Lemma C56_partial_lemma D : d_reached D -> (forall r, responses D r <= 1) ->
  (forall i, d_lock D = Some i -> exists D', dstep D D' /\ d_lock D' = None /\ dpc_of D' i = Some (DDone true)) /\
  (forall w, pc_of D w = Some WUnreg -> exists D', rtc dstep D D' /\ pc_of D' w = Some WDone).
Proof.
  intros HD Hr. pose proof (d_reached_inv _ HD) as HI.
  assert (forall i d w x, d_ds D !! i = Some d -> dl_pc d = DSend w -> d_ws D !! w = Some x -> wt_chan x = None) as Hroom.
  { intros i d w x Hi Hpc Hw. destruct (wt_chan x) as [[j m]|] eqn:Ec; [|done]. exfalso.
    destruct (di_send _ HI _ _ _ Hi Hpc) as (_ & x' & Gx & Gr & _). rewrite Hw in Gx. injection Gx as <-.
    destruct (di_msgs _ HI w x j m Hw) as [_ Gj]; [unfold wmsgs; rewrite Ec; left|].
    assert (i <> j) as Hne by (intros ->; rewrite Hi in Gj; simplify_eq; done).
    specialize (Hr (wt_reqid x)). unfold responses in Hr.
    assert ({[i; j]} ⊆ dom (filter (fun p : nat * deliverer => dl_reqid p.2 = wt_reqid x) (d_ds D))) as Hsub.
    { intros k Hk. apply elem_of_dom. apply elem_of_union in Hk as [Hk|Hk]; apply elem_of_singleton in Hk as ->; eexists; apply map_filter_lookup_Some; split; try done; cbn; congruence. }
    apply subseteq_size in Hsub. rewrite size_dom, size_union, !size_singleton in Hsub by set_solver. lia. }
  split.
  - intros i Hl. destruct (di_lock2 _ HI _ Hl) as (d & w & Hi & Hpc). destruct (di_send _ HI _ _ _ Hi Hpc) as (_ & x & Gx & _).
    destruct (send_once D i w x HI Hl) as (D' & S & L & P & _); [unfold dpc_of; rewrite Hi; cbn; by rewrite Hpc|done|by eapply Hroom|]. by exists D'.
  - intros w Hp. apply C56_exact_lemma; [done..|]. intros (i & w' & x & Hl & Hi & Hw & Hpx & Hc). apply Hc.
    unfold dpc_of in Hi. destruct (d_ds D !! i) as [d|] eqn:E; [|done]. cbn in Hi. injection Hi as Hi. by eapply Hroom.
Qed.
Lemma deliver_run e s buffer ra f a p r cs : parse buffer = Ok (DiscResp a p r cs) ->
  run f (handle_message e s buffer ra) = (f, Done (s, [], HDeliver r (DiscResp a p r cs))).
Proof. intros E. unfold handle_message. rewrite E. done. Qed.
