(** Proofs about download connections. *)
From Verif Require Import SysProofs.
From Verif Require Export ReaderSpec.
From Coq Require Import ZifyBool ZifyNat ZifyN.
Ltac Zify.zify_post_hook ::= Z.div_mod_to_equations.

Lemma parse_data_ok s : (exists p, parse_data s = Ok p) \/ exists w, parse_data s = Panic w.
Proof.
  unfold parse_data, sl_range, sl_from, rbind. repeat case_decide; eauto.
Qed.
Lemma recv_packet_ok r p : (exists x, recv_packet r p = Ok x) \/ exists w, recv_packet r p = Panic w.
Proof.
  destruct p as [o d]. unfold recv_packet, split_packet, rbind. repeat case_decide; eauto. destruct (rc_hash r); eauto.
Qed.
Lemma parse_all_app ds es ps qs : parse_all ds = Ok ps -> parse_all es = Ok qs -> parse_all (ds ++ es) = Ok (ps ++ qs).
Proof.
  revert ps. induction ds as [|d ds IH]; intros ps H1 H2; cbn [parse_all app] in *; [by simplify_eq|].
  destruct (parse_data _); cbn [rbind] in *; try done. destruct (parse_all ds) as [ps'| |]; cbn [rbind] in *; try done.
  simplify_eq. rewrite (IH ps') by done. done.
Qed.
Lemma parse_all_bad ds ps d w : parse_all ds = Ok ps -> parse_data (udp_clipped 1029 d) = Panic w -> parse_all (ds ++ [d]) = Panic w.
Proof.
  revert ps. induction ds as [|e ds IH]; intros ps H1 H2; cbn [parse_all app] in *; [rewrite H2; done|].
  destruct (parse_data (udp_clipped 1029 e)); cbn [rbind] in *; try done. destruct (parse_all ds) as [ps'| |]; cbn [rbind] in *; try done.
  rewrite (IH ps') by done. done.
Qed.
Lemma parse_all_split ds ps qs : parse_all ds = Ok (ps ++ qs) -> exists es fs, ds = es ++ fs /\ parse_all es = Ok ps /\ parse_all fs = Ok qs.
Proof.
  revert ds. induction ps as [|p ps IH]; intros ds H; [exists [], ds; done|].
  destruct ds as [|d ds]; cbn [parse_all] in *; [done|]. destruct (parse_data _) as [p'| |] eqn:E; cbn [rbind] in *; try done.
  destruct (parse_all ds) as [ps'| |] eqn:E2; cbn [rbind] in *; try done. injection H as -> ->.
  destruct (IH ds E2) as (es & fs & -> & H1 & H2). exists (d :: es), fs. split; [done|]. split; [|done].
  cbn [parse_all]. rewrite E. cbn [rbind]. rewrite H1. done.
Qed.
Lemma recv_all_app r ps qs r' : recv_all r ps = Ok (RMore r') -> recv_all r (ps ++ qs) = recv_all r' qs.
Proof.
  revert r. induction ps as [|p ps IH]; intros r H; cbn [recv_all app] in *; [by simplify_eq|].
  destruct (recv_packet r p) as [[r1|]| |]; cbn [rbind] in *; try done. apply IH. done.
Qed.
Lemma recv_all_saved r ps qs buf ok : recv_all r ps = Ok (RSave buf ok) -> recv_all r (ps ++ qs) = Ok (RSave buf ok).
Proof.
  revert r. induction ps as [|p ps IH]; intros r H; cbn [recv_all app] in *; [done|].
  destruct (recv_packet r p) as [[r1|]| |]; cbn [rbind] in *; try done. apply IH. done.
Qed.

(** ** The invariant *)
Definition loop_after (ps : list packet) (g : reader_loop) : Prop :=
  match g with
  | GRun r => recv_all new_recv ps = Ok (RMore r)
  | GNothing => exists r, recv_all new_recv ps = Ok (RMore r)
  | GSaved buf ok => exists ps0 p r, ps = ps0 ++ [p] /\ recv_all new_recv ps0 = Ok (RMore r) /\ recv_packet r p = Ok (RSave buf ok)
  end.
(** [es]: datagrams parsed; [ps]: packets the loop has taken; [qs]: packets it has not *)
Definition winv (ds : list (list byte)) (a : dconn) : Prop :=
  exists es ps qs, ds = es ++ w_queue a /\ parse_all es = Ok (ps ++ qs) /\ loop_after ps (w_loop a) /\ length (w_chan a) <= chan_room
    /\ match w_rd a with
       | RdRead => w_chan a = map Some qs /\ w_open a = true
       | RdSend (Some p) => (exists c, w_chan a = map Some c /\ qs = c ++ [p]) /\ w_open a = true
       | RdSend None => w_chan a = map Some qs /\ w_open a = false /\ w_queue a = []
       | RdEnd => match w_loop a with GNothing => qs = [] /\ w_chan a = [] | _ => w_chan a = map Some qs ++ [None] end
                  /\ w_open a = false /\ w_queue a = []
       end
    /\ (w_loop a = GNothing -> w_rd a = RdEnd).
Lemma winv_start : winv [] new_dconn.
Proof. exists [], [], []. cbn. unfold chan_room. split_and!; try done; lia. Qed.
Lemma winv_step ds a b : winv ds a -> wstep a (Some b) -> winv ds b.
Proof.
  intros (es & ps & qs & -> & Hp & Hl & Hroom & Hrd & Hno) H. inversion H; subst; cbn [w_queue w_open w_rd w_chan w_loop] in *.
  - (* read *)
    destruct Hrd as [-> ->]. exists (es ++ [d]), ps, (qs ++ [p]). split; [by rewrite <- app_assoc|]. split.
    { rewrite app_assoc. apply parse_all_app; [done|]. cbn [parse_all]. match goal with Hq : parse_data _ = _ |- _ => rewrite Hq end. done. }
    split; [done|]. split; [done|]. split; [|intros E; specialize (Hno E); done]. split; [|done]. eauto.
  - destruct Hrd as [-> ->]. exists es, ps, qs. split; [done|]. split; [done|]. split; [done|]. split; [done|]. split; [done|].
    intros E. specialize (Hno E). done.
  - destruct Hrd as [(c' & -> & ->) ->]. exists es, ps, (c' ++ [p]). cbn [w_queue w_open w_rd w_chan w_loop]. rewrite map_app, app_length. cbn [map length].
    split; [done|]. split; [done|]. split; [done|]. split; [lia|]. split; [done|]. intros E. specialize (Hno E). done.
  - destruct Hrd as (-> & -> & ->). exists es, ps, qs. cbn [w_queue w_open w_rd w_chan w_loop]. rewrite app_length. cbn [length].
    split; [done|]. split; [done|]. split; [done|]. split; [lia|]. split; [|done]. split; [|done].
    destruct g; [done|done|]. specialize (Hno eq_refl). done.
  - (* take *)
    assert (exists qs', qs = p :: qs') as [qs' ->].
    { destruct rd as [|[p'|]|].
      - destruct Hrd as [E _]. destruct qs; cbn in E; simplify_eq. eauto.
      - destruct Hrd as [(c' & E & ->) _]. destruct c'; cbn in E; simplify_eq. cbn. eauto.
      - destruct Hrd as [E _]. destruct qs; cbn in E; simplify_eq. eauto.
      - destruct Hrd as [E _]. destruct qs; cbn in E; simplify_eq. eauto. }
    cbn [length] in Hroom. exists es, (ps ++ [p]), qs'. cbn [w_queue w_open w_rd w_chan w_loop]. rewrite <- app_assoc. cbn [app]. split; [done|]. split; [done|]. split.
    { cbn [loop_after w_loop] in *. rewrite (recv_all_app _ _ _ _ Hl). cbn [recv_all]. match goal with Hq : recv_packet _ _ = _ |- _ => rewrite Hq end. done. }
    split; [lia|]. split; [|done]. destruct rd as [|[p'|]|].
    + destruct Hrd as [E ->]. cbn in E. simplify_eq. done.
    + destruct Hrd as [(c' & E & E2) ->]. destruct c' as [|x c']; cbn in E, E2; simplify_eq. split; [|done]. eauto.
    + destruct Hrd as (E & -> & ->). cbn in E. simplify_eq. done.
    + destruct Hrd as (E & -> & ->). cbn in E. simplify_eq. done.
  - (* save *)
    assert (exists qs', qs = p :: qs') as [qs' ->].
    { destruct rd as [|[p'|]|].
      - destruct Hrd as [E _]. destruct qs; cbn in E; simplify_eq. eauto.
      - destruct Hrd as [(c' & E & ->) _]. destruct c'; cbn in E; simplify_eq. cbn. eauto.
      - destruct Hrd as [E _]. destruct qs; cbn in E; simplify_eq. eauto.
      - destruct Hrd as [E _]. destruct qs; cbn in E; simplify_eq. eauto. }
    cbn [length] in Hroom. exists es, (ps ++ [p]), qs'. cbn [w_queue w_open w_rd w_chan w_loop]. rewrite <- app_assoc. cbn [app]. split; [done|]. split; [done|]. split.
    { cbn [loop_after w_loop] in *. exists ps, p, r. done. }
    split; [lia|]. split; [|done]. destruct rd as [|[p'|]|].
    + destruct Hrd as [E ->]. cbn in E. simplify_eq. done.
    + destruct Hrd as [(c' & E & E2) ->]. destruct c' as [|x c']; cbn in E, E2; simplify_eq. split; [|done]. eauto.
    + destruct Hrd as (E & -> & ->). cbn in E. simplify_eq. done.
    + destruct Hrd as (E & -> & ->). cbn in E. simplify_eq. done.
  - (* stop *)
    assert (rd = RdEnd /\ qs = [] /\ c = [] /\ o = false /\ q = []) as (-> & -> & -> & -> & ->).
    { destruct rd as [|[p'|]|].
      - destruct Hrd as [E _]. destruct qs; done.
      - destruct Hrd as [(c' & E & ->) _]. destruct c'; done.
      - destruct Hrd as [E _]. destruct qs; done.
      - destruct Hrd as [E [-> ->]]. destruct qs; cbn in E; [|done]. simplify_eq. done. }
    exists es, ps, []. cbn [w_queue w_open w_rd w_chan w_loop]. split; [done|]. split; [done|]. split; [cbn [loop_after w_loop] in *; eauto|]. split; [cbn; lia|]. done.
Qed.
Lemma winv_trace ds0 a ds b : winv ds0 a -> wtrace a ds b -> winv (ds0 ++ ds) b.
Proof.
  intros Ha. induction 1 as [a|a ds b c H IH Hs|a ds q rd ch g d H IH].
  - rewrite app_nil_r. done.
  - eapply winv_step; [apply IH; done|done].
  - specialize (IH Ha). destruct IH as (es & ps & qs & E & Hp & Hl & Hroom & Hrd & Hno). cbn [w_queue w_open w_rd w_chan w_loop] in *.
    exists es, ps, qs. cbn [w_queue w_open w_rd w_chan w_loop]. rewrite !app_assoc, <- E. split; [done|]. split; [done|]. split; [done|]. split; [done|].
    split; [|done]. destruct rd as [|[p|]|]; [done|done| |]; destruct Hrd as (_ & ? & _); done.
Qed.
Lemma winv_reach ds a : wtrace new_dconn ds a -> winv ds a.
Proof. intros H. change ds with ([] ++ ds). eapply winv_trace; [exact winv_start|done]. Qed.

(** ** C89: in order, nothing lost or repeated *)
Lemma recv_datagrams_ok es ps x : parse_all es = Ok ps -> recv_all new_recv ps = x -> recv_datagrams es = x.
Proof. intros H <-. unfold recv_datagrams. rewrite H. done. Qed.
Lemma loop_after_result es ps g : parse_all es = Ok ps -> loop_after ps g -> loop_result es g.
Proof.
  intros Hp Hl. destruct g as [r|buf ok|]; cbn [loop_after loop_result] in *.
  - eapply recv_datagrams_ok; done.
  - destruct Hl as (ps0 & p & r & -> & H1 & H2). destruct (parse_all_split _ _ _ Hp) as (e1 & e2 & -> & E1 & E2). split.
    + eapply recv_datagrams_ok; [exact Hp|]. rewrite (recv_all_app _ _ _ _ H1). cbn [recv_all]. rewrite H2. done.
    + destruct e2 as [|d [|d' e2]]; cbn [parse_all] in E2; [done| |].
      * exists e1, d, r. split; [done|]. eapply recv_datagrams_ok; done.
      * exfalso. destruct (parse_data (udp_clipped 1029 d)); cbn [rbind] in E2; try done.
        destruct (parse_data (udp_clipped 1029 d')); cbn [rbind] in E2; try done. destruct (parse_all e2); done.
  - destruct Hl as [r Hl]. exists r. eapply recv_datagrams_ok; done.
Qed.
Lemma parse_all_length es ps : parse_all es = Ok ps -> length es = length ps.
Proof.
  revert ps. induction es as [|d es IH]; intros ps H; cbn [parse_all] in H; [by simplify_eq|].
  destruct (parse_data _); cbn [rbind] in H; try done. destruct (parse_all es); cbn [rbind] in H; try done. simplify_eq. cbn [length]. f_equal. by apply IH.
Qed.
Lemma C89_lemma ds a : wtrace new_dconn ds a ->
  exists ds1 ds2, ds = ds1 ++ ds2 /\ loop_result ds1 (w_loop a) /\ (w_loop a = GNothing -> ds2 = []).
Proof.
  intros H. apply winv_reach in H as (es & ps & qs & -> & Hp & Hl & _ & Hrd & Hno).
  destruct (parse_all_split _ _ _ Hp) as (e1 & e2 & -> & H1 & H2). exists e1, (e2 ++ w_queue a). split; [by rewrite app_assoc|]. split.
  - eapply loop_after_result; done.
  - intros E. rewrite (Hno E), E in Hrd. destruct Hrd as ([-> _] & _ & ->). apply parse_all_length in H2. destruct e2; done.
Qed.
Lemma C89_dies_lemma ds a : wtrace new_dconn ds a -> wstep a None -> exists ds1 ds2, ds = ds1 ++ ds2 /\ is_panic (recv_datagrams ds1).
Proof.
  intros H Hs. apply winv_reach in H as (es & ps & qs & -> & Hp & Hl & _ & Hrd & _).
  inversion Hs; subst; cbn [w_queue w_open w_rd w_chan w_loop] in *.
  - exists (es ++ [d]), q. split; [by rewrite <- app_assoc|]. unfold recv_datagrams. match goal with Hq : parse_data _ = _ |- _ => rewrite (parse_all_bad _ _ _ _ Hp Hq) end. eexists. done.
  - assert (exists qs', qs = p :: qs') as [qs' ->].
    { destruct rd as [|[p'|]|].
      - destruct Hrd as [E _]. destruct qs; cbn in E; simplify_eq. eauto.
      - destruct Hrd as [(c' & E & ->) _]. destruct c'; cbn in E; simplify_eq. cbn. eauto.
      - destruct Hrd as [E _]. destruct qs; cbn in E; simplify_eq. eauto.
      - destruct Hrd as [E _]. destruct qs; cbn in E; simplify_eq. eauto. }
    change (p :: qs') with ([p] ++ qs') in Hp. rewrite app_assoc in Hp.
    destruct (parse_all_split _ _ _ Hp) as (e1 & e2 & -> & H1 & H2). exists e1, (e2 ++ q). split; [by rewrite app_assoc|].
    unfold recv_datagrams. rewrite H1. cbn [rbind]. cbn [loop_after] in Hl. rewrite (recv_all_app _ _ _ _ Hl). cbn [recv_all]. match goal with Hq : recv_packet _ _ = _ |- _ => rewrite Hq end. eexists. done.
Qed.

(** every parseable sequence of datagrams can be received *)
Lemma arrivals a ds q rd ch g es : wtrace a ds (mkDconn q true rd ch g) -> wtrace a (ds ++ es) (mkDconn (q ++ es) true rd ch g).
Proof.
  revert ds q. induction es as [|e es IH]; intros ds q H; [rewrite !app_nil_r; done|].
  change (e :: es) with ([e] ++ es). rewrite !app_assoc. apply IH. apply wt_arrive. done.
Qed.
Lemma served ds : forall ps r x ds0, parse_all ds = Ok ps -> recv_all r ps = Ok x -> wtrace new_dconn ds0 (mkDconn [] true RdRead [] (GRun r)) ->
  exists a, wtrace new_dconn (ds0 ++ ds) a /\ w_loop a = match x with RMore _ => GNothing | RSave buf ok => GSaved buf ok end.
Proof.
  induction ds as [|d ds IH]; intros ps r x ds0 Hp Hr H0; cbn [parse_all] in Hp.
  - injection Hp as <-. cbn [recv_all] in Hr. injection Hr as <-. rewrite app_nil_r. eexists. split.
    + eapply wt_step; [eapply wt_step; [eapply wt_step; [exact H0|apply w_time]|apply w_last; unfold chan_room; cbn; lia]|]. cbn [app]. apply w_stop.
    + done.
  - destruct (parse_data (udp_clipped 1029 d)) as [p| |] eqn:Ed; cbn [rbind] in Hp; try done.
    destruct (parse_all ds) as [ps'| |] eqn:Eds; cbn [rbind] in Hp; try done. injection Hp as <-. cbn [recv_all] in Hr.
    destruct (recv_packet r p) as [y| |] eqn:Ep; cbn [rbind] in Hr; try done.
    assert (wtrace new_dconn (ds0 ++ [d]) (mkDconn [] true RdRead [Some p] (GRun r))) as H1.
    { eapply wt_step; [eapply wt_step; [apply wt_arrive; exact H0|]|]; [apply w_read; exact Ed|]. apply (w_send [] true []). unfold chan_room. cbn. lia. }
    change (d :: ds) with ([d] ++ ds). rewrite app_assoc. destruct y as [r'|buf ok].
    + apply (IH ps' r' x _ eq_refl Hr). eapply wt_step; [exact H1|]. apply w_more. done.
    + injection Hr as <-. eexists (mkDconn ([] ++ ds) true RdRead [] (GSaved buf ok)). split; [|reflexivity]. apply arrivals. eapply wt_step; [exact H1|]. apply w_save. done.
Qed.
Lemma C89_all_lemma ds x : recv_datagrams ds = Ok x ->
  exists a, wtrace new_dconn ds a /\ w_loop a = match x with RMore _ => GNothing | RSave buf ok => GSaved buf ok end.
Proof.
  intros H. unfold recv_datagrams in H. destruct (parse_all ds) as [ps| |] eqn:E; cbn [rbind] in H; try done.
  exact (served ds ps new_recv x [] E H (wt_nil _)).
Qed.

(** ** C90: the loop does not wait for ever *)
Lemma C90_lemma ds a : wtrace new_dconn ds a -> idle a -> finished a.
Proof.
  intros H Hi r Hr. apply winv_reach in H as (es & ps & qs & -> & Hp & Hl & Hroom & Hrd & Hno).
  destruct a as [q o rd c g]. cbn [w_queue w_open w_rd w_chan w_loop] in *. subst g. destruct c as [|[p|] c].
  - destruct rd as [|[p|]|].
    + destruct q as [|d q]; [exact (Hi _ (w_time _ _ _))|]. destruct (parse_data_ok (udp_clipped 1029 d)) as [[p E]|[w E]].
      * exact (Hi _ (w_read _ _ _ _ _ _ E)).
      * exact (Hi _ (w_bad _ _ _ _ _ _ E)).
    + refine (Hi _ (w_send _ _ _ _ _ _)). unfold chan_room. cbn. lia.
    + refine (Hi _ (w_last _ _ _ _ _)). unfold chan_room. cbn. lia.
    + destruct Hrd as [E _]. destruct qs; done.
  - destruct (recv_packet_ok r p) as [[[r'|buf ok] E]|[w E]].
    + exact (Hi _ (w_more _ _ _ _ _ _ _ E)).
    + exact (Hi _ (w_save _ _ _ _ _ _ _ _ E)).
    + exact (Hi _ (w_crash _ _ _ _ _ _ _ E)).
  - exact (Hi _ (w_stop _ _ _ _ _)).
Qed.

(** ** C91: what becomes of the goroutine and the socket *)
Lemma C91_lemma ds a : wtrace new_dconn ds a -> idle a ->
  exists ds1 ds2, ds = ds1 ++ ds2 /\ loop_result ds1 (w_loop a) /\ (w_loop a = GNothing -> ds2 = [])
    /\ (released a <-> length ds2 <= 9) /\ (w_open a = true <-> 11 <= length ds2).
Proof.
  intros H Hi. pose proof (C90_lemma _ _ H Hi) as Hfin. apply winv_reach in H as (es & ps & qs & -> & Hp & Hl & Hroom & Hrd & Hno).
  destruct (parse_all_split _ _ _ Hp) as (e1 & e2 & -> & H1 & H2). exists e1, (e2 ++ w_queue a). split; [by rewrite app_assoc|].
  split; [eapply loop_after_result; done|]. apply parse_all_length in H2. unfold released, chan_room in *. split.
  { intros E. rewrite (Hno E), E in Hrd. destruct Hrd as ([-> _] & _ & ->). destruct e2; done. }
  rewrite app_length, H2. destruct a as [q o rd c g]. cbn [w_queue w_open w_rd w_chan w_loop] in *.
  destruct rd as [|[p|]|].
  - exfalso. destruct q as [|d q]; [exact (Hi _ (w_time _ _ _))|]. destruct (parse_data_ok (udp_clipped 1029 d)) as [[p E]|[w E]].
    + exact (Hi _ (w_read _ _ _ _ _ _ E)).
    + exact (Hi _ (w_bad _ _ _ _ _ _ E)).
  - destruct Hrd as [(c' & -> & ->) ->]. rewrite app_length, map_length in *. cbn [length].
    assert (~ length c' < 10) as Hfull. { intros Hlt. refine (Hi _ (w_send _ _ _ _ _ _)). unfold chan_room. rewrite map_length. done. }
    split; split; try lia; try done; try by intros [? _].
  - destruct Hrd as (-> & -> & ->). rewrite map_length in *. cbn [length].
    assert (~ length qs < 10) as Hfull. { intros Hlt. refine (Hi _ (w_last _ _ _ _ _)). unfold chan_room. rewrite map_length. done. }
    split; split; try lia; try done; try by intros [? _].
  - destruct Hrd as (E & -> & ->). cbn [length]. destruct g as [r|buf ok|].
    + exfalso. exact (Hfin r eq_refl).
    + subst c. rewrite app_length, map_length in *. cbn [length] in *. split; split; try lia; done.
    + destruct E as [-> ->]. cbn [length]. split; split; try lia; done.
Qed.
Lemma C91_forever_lemma ds a ds' b : wtrace new_dconn ds a -> idle a -> w_rd a <> RdEnd -> wtrace a ds' b ->
  idle b /\ w_rd b = w_rd a /\ w_open b = w_open a /\ w_chan b = w_chan a /\ w_loop b = w_loop a.
Proof.
  intros Ha Hi Hend. pose proof (C90_lemma _ _ Ha Hi) as Hfin.
  assert (exists x, w_rd a = RdSend x /\ chan_room <= length (w_chan a)) as (x & Hx & Hfull).
  { destruct a as [q o rd c g]. cbn [w_queue w_open w_rd w_chan w_loop] in *. destruct rd as [|x|].
    - exfalso. destruct q as [|d q]; [exact (Hi _ (w_time _ _ _))|]. destruct (parse_data_ok (udp_clipped 1029 d)) as [[p E]|[w E]].
      + exact (Hi _ (w_read _ _ _ _ _ _ E)).
      + exact (Hi _ (w_bad _ _ _ _ _ _ E)).
    - exists x. split; [done|]. destruct (decide (length c < chan_room)); [|lia]. exfalso. destruct x as [p|].
      + exact (Hi _ (w_send _ _ _ _ _ l)).
      + exact (Hi _ (w_last _ _ _ _ l)).
    - done. }
  clear Ha Hend. induction 1 as [a|a ds2 b c H IH Hs|a ds2 q rd ch g d H IH].
  - done.
  - destruct (IH Hi Hfin Hx Hfull) as (Hb & _). exfalso. exact (Hb _ Hs).
  - destruct (IH Hi Hfin Hx Hfull) as (Hb & E1 & E2 & E3 & E4). cbn [w_queue w_open w_rd w_chan w_loop] in *. split; [|done].
    intros y Hy. rewrite Hx in E1. subst rd ch g. inversion Hy; subst; try lia; eapply Hfin; done.
Qed.

(** ** Examples: an executable schedule, the loop first *)
Definition wnext (a : dconn) : option (option dconn) :=
  let '(mkDconn q o rd c g) := a in
  match c, g with
  | Some p :: c', GRun r =>
      match recv_packet r p with
      | Ok (RMore r') => Some (Some (mkDconn q o rd c' (GRun r')))
      | Ok (RSave buf ok) => Some (Some (mkDconn q o rd c' (GSaved buf ok)))
      | _ => Some None
      end
  | None :: c', GRun r => Some (Some (mkDconn q o rd c' GNothing))
  | _, _ =>
      match rd with
      | RdRead => match q with
                  | [] => Some (Some (mkDconn [] false (RdSend None) c g))
                  | d :: q' => match parse_data (udp_clipped 1029 d) with Ok p => Some (Some (mkDconn q' o (RdSend (Some p)) c g)) | _ => Some None end
                  end
      | RdSend x => if decide (length c < chan_room) then
                      Some (Some (mkDconn q o (match x with Some _ => RdRead | None => RdEnd end) (c ++ [x]) g)) else None
      | RdEnd => None
      end
  end.
Fixpoint wrun (n : nat) (a : dconn) : option dconn :=
  match n with
  | O => None
  | S n' => match wnext a with None => Some a | Some (Some b) => wrun n' b | Some None => None end
  end.
Lemma wnext_step a x : wnext a = Some x -> wstep a x.
Proof.
  destruct a as [q o rd c g]. cbn [wnext].
  assert (match rd with
      | RdRead => match q with
                  | [] => Some (Some (mkDconn [] false (RdSend None) c g))
                  | d :: q' => match parse_data (udp_clipped 1029 d) with Ok p => Some (Some (mkDconn q' o (RdSend (Some p)) c g)) | _ => Some None end
                  end
      | RdSend x => if decide (length c < chan_room) then
                      Some (Some (mkDconn q o (match x with Some _ => RdRead | None => RdEnd end) (c ++ [x]) g)) else None
      | RdEnd => None
      end = Some x -> wstep (mkDconn q o rd c g) x) as Hrd.
  { destruct rd as [|[p|]|]; [| | |done].
    - destruct q as [|d q]; [intros [= <-]; apply w_time|]. destruct (parse_data_ok (udp_clipped 1029 d)) as [[p E]|[w E]]; rewrite E; intros [= <-].
      + apply w_read. done.
      + eapply w_bad. done.
    - case_decide; [|done]. intros [= <-]. apply w_send. done.
    - case_decide; [|done]. intros [= <-]. apply w_last. done. }
  destruct c as [|[p|] c]; [done| |]; (destruct g as [r|buf ok|]; [|done|done]).
  - destruct (recv_packet_ok r p) as [[[r'|buf ok] E]|[w E]]; rewrite E; intros [= <-]; [by apply w_more|by apply w_save|by eapply w_crash].
  - intros [= <-]. apply w_stop.
Qed.
Lemma wnext_idle a : wnext a = None -> idle a.
Proof.
  intros H x Hx. revert H. destruct Hx; cbn [wnext]; try (rewrite ?H; repeat case_match; simplify_eq; done).
Qed.
Lemma wrun_trace n : forall a b, wrun n a = Some b -> forall a0 ds, wtrace a0 ds a -> wtrace a0 ds b /\ idle b.
Proof.
  induction n as [|n IH]; intros a b H a0 ds H0; cbn [wrun] in H; [done|]. destruct (wnext a) as [[c|]|] eqn:E; [|done|].
  - apply (IH c b H). eapply wt_step; [done|]. apply wnext_step. done.
  - injection H as <-. split; [done|]. apply wnext_idle. done.
Qed.
Definition arrived (ds : list (list byte)) : dconn := mkDconn ds true RdRead [] (GRun new_recv).
Lemma wrun_case n ds b : wrun n (arrived ds) = Some b -> wtrace new_dconn ds b /\ idle b.
Proof. intros H. apply (wrun_trace n _ _ H). exact (arrivals new_dconn [] [] RdRead [] (GRun new_recv) ds (wt_nil _)). Qed.
