(** Proofs about starting daemons, continued: a daemon that is started alone. *)
From Verif Require Export DaemonProofs.

Definition good (ifs : option (list ifaddr)) : Prop := exists r, local_ip ifs = Ok (Some r).
Lemma good_address ifs : ifs_wf ifs -> good ifs <-> has_address ifs.
Proof.
  destruct ifs as [l|]; cbn; intros Hw.
  2:{ split; [by intros [r [=]]|by intros (l & a & [=] & _)]. }
  pose proof (first_ipv4_spec l Hw) as H. split.
  - intros [r Hr]. cbn in Hr. injection Hr as Hr. rewrite Hr in H. destruct H as [H _]. exists l, (slice_bytes r). done.
  - intros (l' & a & [= <-] & pre & i & post & E & Hc & _). unfold good. cbn. destruct (first_ipv4 l) as [r|]; [by exists r|].
    exfalso. rewrite Forall_forall in H. apply (H i) with a; [|done]. subst. set_solver.
Qed.
Definition left_ (c : cli_pc) (u : udp_pc) : nat :=
  match c with CliRemove => 2 | CliListen => 1 | CliServe => 0 end + match u with UdpBind => 2 | UdpShow => 1 | UdpServe => 0 end.
Record alone (ifs : option (list ifaddr)) (n : nat) (h : machine) (c : cli_pc) (u : udp_pc) : Prop := {
  al_n : mc_procs h !! n = Some (mkProc true c u);
  al_other : forall j p, j <> n -> mc_procs h !! j = Some p -> p_alive p = false;
  al_listen : c = CliListen -> mc_sock h = None;
  al_serve : c = CliServe -> mc_sock h = Some n;
  al_bind : u = UdpBind -> mc_port h = None;
  al_good : u = UdpServe -> good ifs }.
Definition gone (h : machine) : Prop := forall j p, mc_procs h !! j = Some p -> p_alive p = false.
Lemma gone_dies ifs n h c u : alone ifs n h c u -> gone (dies_ h n).
Proof.
  intros A j p. cbn. destruct (decide (n = j)) as [<-|Hne].
  - rewrite list_lookup_alter, (al_n _ _ _ _ _ A). by intros [= <-].
  - rewrite list_lookup_alter_ne by done. intros Hp. eapply (al_other _ _ _ _ _ A); [|done]. congruence.
Qed.
Lemma alone_next ifs n h c u a h' : alone ifs n h c u -> a = DCli n \/ a = DUdp n -> dnext ifs h a = Some h' ->
  (exists c' u', alone ifs n h' c' u' /\ left_ c u = S (left_ c' u')) \/ (gone h' /\ ~ good ifs /\ 0 < left_ c u).
Proof.
  intros A Ha H. pose proof (al_n _ _ _ _ _ A) as Hn. pose proof (lookup_lt_Some _ _ _ Hn) as Hlt.
  assert (Ho : forall x j p, j <> n -> <[n := x]> (mc_procs h) !! j = Some p -> p_alive p = false).
  { intros x j p Hj. rewrite list_lookup_insert_ne by done. by apply (al_other _ _ _ _ _ A). }
  destruct Ha as [-> | ->]; cbn in H; rewrite Hn in H; cbn in H; unfold cli_step, udp_step in H; cbn in H.
  - left. destruct c; [|rewrite (al_listen _ _ _ _ _ A) in H by done|done]; injection H as <-.
    + exists CliListen, u. split; [|done]. split; cbn; try done; [by apply list_lookup_insert|apply Ho|apply A..].
    + exists CliServe, u. split; [|done]. split; cbn; try done; [by apply list_lookup_insert|apply Ho|apply A..].
  - destruct u; [rewrite (al_bind _ _ _ _ _ A) in H by done| |done].
    + injection H as <-. left. exists c, UdpShow. split; [|unfold left_; lia].
      split; cbn; try done; [by apply list_lookup_insert|apply Ho|apply A..].
    + destruct (local_ip ifs) as [[r|]| |] eqn:E; injection H as <-.
      2-4: right; split; [by eapply gone_dies|]; split; [intros [r Hr]; congruence|unfold left_; lia].
      left. exists c, UdpServe. split; [|unfold left_; lia].
      split; cbn; try done; [by apply list_lookup_insert|apply Ho|apply A|apply A|]. intros _. by exists r.
Qed.
Lemma gone_next ifs n h a h' : gone h -> a = DCli n \/ a = DUdp n -> dnext ifs h a = Some h' -> False.
Proof.
  intros G [-> | ->]; cbn; (destruct (mc_procs h !! n) as [p|] eqn:E; [|done]); by rewrite (G _ _ E).
Qed.
Lemma alone_steps ifs n h l h' c u : dsteps ifs h l h' -> only n l -> alone ifs n h c u ->
  length l <= left_ c u /\ ((exists c' u', alone ifs n h' c' u') \/ (gone h' /\ ~ good ifs)).
Proof.
  intros H. revert c u. induction H as [|h a h' l h'' Ha Hl IH]; intros c u Ho A; [split; [cbn; lia|eauto]|].
  apply Forall_cons in Ho as [Ho1 Ho2]. destruct (alone_next _ _ _ _ _ _ _ A Ho1 Ha) as [(c' & u' & A' & E)|(G & Hg & Hlt)].
  - destruct (IH c' u' Ho2 A') as [H1 H2]. split; [cbn; lia|done].
  - destruct Hl as [|h' b h1 l h'' Hb _]; [split; [cbn; lia|by right]|]. apply Forall_cons in Ho2 as [Ho2 _]. by destruct (gone_next _ _ _ _ _ G Ho2 Hb).
Qed.
Lemma C102_lemma ifs l0 h h1 n l h' : ifs_wf ifs -> dsteps ifs no_daemon l0 h -> nobody h -> n = length (mc_procs h) ->
  dnext ifs h DBoot = Some h1 -> dsteps ifs h1 l h' -> only n l ->
  length l <= 4 /\ (at_rest ifs h' -> (has_address ifs -> receives h' n /\ commands h' n) /\ (~ has_address ifs -> nobody h')).
Proof.
  intros Hw H0 Hno -> [= <-] H Ho. rewrite <- (good_address ifs Hw).
  assert (A : alone ifs (length (mc_procs h)) (mkMachine (mc_procs h ++ [mkProc true CliRemove UdpBind]) (mc_sock h) (mc_port h)) CliRemove UdpBind).
  { split; cbn; try done.
    - rewrite lookup_app_r by lia. by rewrite Nat.sub_diag.
    - intros j p Hj [Hp|[Hge Hp]]%lookup_app_Some.
      + destruct (p_alive p) eqn:E; [|done]. exfalso. apply (Hno j). by exists p.
      + apply list_lookup_singleton_Some in Hp as [Hp _]. lia.
    - intros _. destruct (mc_port h) as [i|] eqn:E; [|done]. exfalso. apply dinv_from in H0. destruct (d_port _ H0 _ E) as (p & H1 & H2 & _). apply (Hno i). by exists p. }
  destruct (alone_steps _ _ _ _ _ _ _ H Ho A) as [H1 H2]. split; [done|]. intros Hr. destruct H2 as [(c & u & A')|[G Hg]].
  - destruct (rest_up _ _ _ _ Hr (al_n _ _ _ _ _ A') eq_refl) as [E1 E2]. cbn in E1, E2. subst c u.
    pose proof (al_n _ _ _ _ _ A') as Hp. split.
    + intros _. split; [by eexists|]. split; [by apply A'|by eexists].
    + intros Hng. exfalso. apply Hng. by apply A'.
  - split; [done|]. intros _ i (p & Hp & Ha). rewrite (G _ _ Hp) in Ha. done.
Qed.
