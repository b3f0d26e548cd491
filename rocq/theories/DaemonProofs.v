(** Proofs about starting daemons. *)
From Verif Require Export DaemonSpec ServerProofs.

Record dinv (h : machine) : Prop := {
  d_port : forall i, mc_port h = Some i -> exists p, mc_procs h !! i = Some p /\ p_alive p = true /\ p_udp p <> UdpBind;
  d_bound : forall i p, mc_procs h !! i = Some p -> p_alive p = true -> p_udp p <> UdpBind -> mc_port h = Some i;
  d_sock : forall i, mc_sock h = Some i -> exists p, mc_procs h !! i = Some p /\ p_cli p = CliServe }.
Lemma dinv_dies h i p : dinv h -> mc_procs h !! i = Some p -> dinv (dies_ h i).
Proof.
  intros [D1 D2 D3] Hi. unfold dies_. split; cbn.
  - intros j. case_decide as E; [done|]. intros Hj. destruct (D1 _ Hj) as (q & H1 & H2). exists q. rewrite list_lookup_alter_ne by congruence. done.
  - intros j q. destruct (decide (i = j)) as [<-|Hne].
    + rewrite list_lookup_alter, Hi. by intros [= <-].
    + rewrite list_lookup_alter_ne by done. intros H1 H2 H3. pose proof (D2 _ _ H1 H2 H3). case_decide; congruence.
  - intros j Hj. destruct (D3 _ Hj) as (q & H1 & H2). destruct (decide (i = j)) as [<-|Hne].
    + rewrite list_lookup_alter, H1. cbn. eauto.
    + rewrite list_lookup_alter_ne by done. eauto.
Qed.
Lemma dinv_next ifs h a h' : dinv h -> dnext ifs h a = Some h' -> dinv h'.
Proof.
  intros D H. pose proof D as [D1 D2 D3]. destruct a as [|i|i|i]; cbn in H.
  - injection H as <-. split; cbn.
    + intros i Hi. destruct (D1 _ Hi) as (p & H1 & H2). exists p. split; [by apply lookup_app_l_Some|done].
    + intros i p [Hi|[_ Hi]]%lookup_app_Some; [by eapply D2|]. apply list_lookup_singleton_Some in Hi as [_ <-]. done.
    + intros i Hi. destruct (D3 _ Hi) as (p & H1 & H2). exists p. split; [by apply lookup_app_l_Some|done].
  - destruct (mc_procs h !! i) as [p|] eqn:Hi; [|done]. destruct (p_alive p); [|done]. injection H as <-. by eapply dinv_dies.
  - destruct (mc_procs h !! i) as [p|] eqn:Hi; [|done]. destruct (p_alive p) eqn:Ha; [|done]. unfold cli_step in H.
    pose proof (lookup_lt_Some _ _ _ Hi) as Hlt.
    assert (Hset : forall pc s, (forall j, s = Some j -> exists p', <[i := mkProc true pc (p_udp p)]> (mc_procs h) !! j = Some p' /\ p_cli p' = CliServe) ->
      dinv (mkMachine (<[i := mkProc true pc (p_udp p)]> (mc_procs h)) s (mc_port h))).
    { intros pc s Hs. split; cbn.
      - intros j Hj. destruct (D1 _ Hj) as (q & H1 & H2 & H3). destruct (decide (i = j)) as [<-|Hne].
        + rewrite list_lookup_insert by done. rewrite Hi in H1. injection H1 as <-. eauto.
        + rewrite list_lookup_insert_ne by done. eauto.
      - intros j q. destruct (decide (i = j)) as [<-|Hne].
        + rewrite list_lookup_insert by done. intros [= <-] _ H3. by apply (D2 i p).
        + rewrite list_lookup_insert_ne by done. apply D2.
      - done. }
    destruct (p_cli p) eqn:Hp; [|destruct (mc_sock h) as [x|] eqn:Hs|done]; injection H as <-; [by apply Hset|by eapply dinv_dies|].
    apply Hset. intros j [= <-]. rewrite list_lookup_insert by done. eauto.
  - destruct (mc_procs h !! i) as [p|] eqn:Hi; [|done]. destruct (p_alive p) eqn:Ha; [|done]. unfold udp_step in H.
    pose proof (lookup_lt_Some _ _ _ Hi) as Hlt.
    assert (Hset : forall pc, pc <> UdpBind -> (mc_port h = None \/ mc_port h = Some i) ->
      dinv (mkMachine (<[i := mkProc true (p_cli p) pc]> (mc_procs h)) (mc_sock h) (Some i))).
    { intros pc Hpc Hport. split; cbn.
      - intros j [= <-]. rewrite list_lookup_insert by done. eauto.
      - intros j q. destruct (decide (i = j)) as [<-|Hne]; [done|].
        rewrite list_lookup_insert_ne by done. intros H1 H2 H3. pose proof (D2 _ _ H1 H2 H3). destruct Hport; congruence.
      - intros j Hj. destruct (D3 _ Hj) as (q & H1 & H2). destruct (decide (i = j)) as [<-|Hne].
        + rewrite list_lookup_insert by done. rewrite Hi in H1. injection H1 as <-. eauto.
        + rewrite list_lookup_insert_ne by done. eauto. }
    destruct (p_udp p) eqn:Hp.
    + destruct (mc_port h) as [x|] eqn:Hs; injection H as <-; [by eapply dinv_dies|]. apply Hset; [done|by left].
    + assert (Hq : mc_port h = Some i) by (apply (D2 i p); [done|done|congruence]).
      destruct (local_ip ifs) as [[r|]| |]; injection H as <-; try by eapply dinv_dies. rewrite Hq. apply Hset; [done|by right].
    + done.
Qed.
Lemma dinv_steps ifs h l h' : dsteps ifs h l h' -> dinv h -> dinv h'.
Proof. induction 1; [done|]. intros. eauto using dinv_next. Qed.
Lemma dinv_none : dinv no_daemon.
Proof. split; intros; done. Qed.
Lemma dinv_from ifs l h : dsteps ifs no_daemon l h -> dinv h.
Proof. intros H. eapply dinv_steps; [done|apply dinv_none]. Qed.

(** what the resting daemons are *)
Lemma rest_up ifs h i p : at_rest ifs h -> mc_procs h !! i = Some p -> p_alive p = true -> p_cli p = CliServe /\ p_udp p = UdpServe.
Proof.
  intros Hr Hi Ha. destruct (Hr i) as [H1 H2]. cbn in H1, H2. rewrite Hi, Ha in H1, H2. unfold cli_step in H1. unfold udp_step in H2.
  split; [destruct (p_cli p); [done|destruct (mc_sock h); done|done]|].
  destruct (p_udp p); [destruct (mc_port h); done|destruct (local_ip ifs) as [[]| |]; done|done].
Qed.
Lemma C100_lemma ifs l h i j : dsteps ifs no_daemon l h -> receives h i -> receives h j -> i = j.
Proof.
  intros H (p & H1 & H2 & H3) (q & Q1 & Q2 & Q3). apply dinv_from in H as D.
  assert (mc_port h = Some i) by (apply (d_bound _ D i p); [done|done|congruence]).
  assert (mc_port h = Some j) by (apply (d_bound _ D j q); [done|done|congruence]). congruence.
Qed.
Lemma C100_rest_lemma ifs l h i : dsteps ifs no_daemon l h -> at_rest ifs h -> alive h i -> receives h i /\ forall j, alive h j -> j = i.
Proof.
  intros H Hr (p & H1 & H2). destruct (rest_up _ _ _ _ Hr H1 H2) as [H3 H4].
  assert (Hi : receives h i) by (exists p; done). split; [done|]. intros j (q & Q1 & Q2). destruct (rest_up _ _ _ _ Hr Q1 Q2) as [Q3 Q4].
  eapply (C100_lemma ifs l h j i); [done|exists q; done|done].
Qed.

(** *** a running daemon *)
Definition running (h : machine) (i : nat) : Prop := mc_procs h !! i = Some (mkProc true CliServe UdpServe).
Lemma running_next ifs h a h' i : running h i -> a <> DKill i -> dnext ifs h a = Some h' -> running h' i.
Proof.
  unfold running. intros Hi Ha H. destruct a as [|j|j|j]; cbn in H.
  - injection H as <-. cbn. by apply lookup_app_l_Some.
  - destruct (mc_procs h !! j) as [p|] eqn:Hj; [|done]. destruct (p_alive p); [|done]. injection H as <-. cbn.
    rewrite list_lookup_alter_ne; [done|]. congruence.
  - destruct (mc_procs h !! j) as [p|] eqn:Hj; [|done]. destruct (p_alive p); [|done].
    destruct (decide (j = i)) as [->|Hne]. { rewrite Hi in Hj. injection Hj as <-. done. }
    unfold cli_step in H. destruct (p_cli p); [|destruct (mc_sock h)|done]; injection H as <-; cbn.
    all: by rewrite ?list_lookup_alter_ne, ?list_lookup_insert_ne.
  - destruct (mc_procs h !! j) as [p|] eqn:Hj; [|done]. destruct (p_alive p); [|done].
    destruct (decide (j = i)) as [->|Hne]. { rewrite Hi in Hj. injection Hj as <-. done. }
    unfold udp_step in H. destruct (p_udp p); [destruct (mc_port h)|destruct (local_ip ifs) as [[]| |]|done]; injection H as <-; cbn.
    all: by rewrite ?list_lookup_alter_ne, ?list_lookup_insert_ne.
Qed.
Lemma running_steps ifs h l h' i : dsteps ifs h l h' -> DKill i ∉ l -> running h i -> running h' i.
Proof. induction 1; [done|]. intros Hn Hr. apply IHdsteps; [set_solver|]. eapply running_next; [done| |done]. intros ->. set_solver. Qed.
(** the socket stays that of daemon [i] exactly as long as no later daemon removes it *)
Definition later_ok (n : nat) (h : machine) : Prop := forall j, n <= j -> ~ removed h j.
Definition only_i (i n : nat) (h : machine) : Prop :=
  forall j p, j < n -> j <> i -> mc_procs h !! j = Some p -> p_alive p = false.
Lemma sock_next ifs h a h' i n : running h i -> a <> DKill i -> i < n <= length (mc_procs h) -> only_i i n h -> dnext ifs h a = Some h' ->
  (mc_sock h = Some i <-> later_ok n h) -> only_i i n h' /\ n <= length (mc_procs h') /\ (mc_sock h' = Some i <-> later_ok n h').
Proof.
  intros Hi Ha Hn Ho H Hs.
  assert (Hdies : forall j p, mc_procs h !! j = Some p -> only_i i n (dies_ h j) /\ n <= length (mc_procs (dies_ h j)) /\ (mc_sock (dies_ h j) = Some i <-> later_ok n (dies_ h j))).
  { intros j p Hj. split; [|split].
    - intros k q Hk Hki. cbn. destruct (decide (j = k)) as [<-|Hne]; [rewrite list_lookup_alter, Hj; by intros [= <-]|].
      rewrite list_lookup_alter_ne by done. by apply Ho.
    - cbn. rewrite alter_length. lia.
    - cbn. rewrite Hs. unfold later_ok, removed. cbn. split.
      + intros Hl k Hk (q & Hq & Hr). apply (Hl k Hk). destruct (decide (j = k)) as [<-|Hne].
        * rewrite list_lookup_alter, Hj in Hq. injection Hq as <-. cbn in Hr. eauto.
        * rewrite list_lookup_alter_ne in Hq by done. eauto.
      + intros Hl k Hk (q & Hq & Hr). apply (Hl k Hk). destruct (decide (j = k)) as [<-|Hne].
        * rewrite list_lookup_alter, Hq. cbn. eexists. split; [done|done].
        * rewrite list_lookup_alter_ne by done. eauto. }
  assert (Hlater : forall j p, mc_procs h !! j = Some p -> p_alive p = true -> j <> i -> n <= j).
  { intros j p Hj Hal Hji. destruct (decide (n <= j)); [done|]. rewrite (Ho j p) in Hal; [done|lia|done|done]. }
  destruct a as [|j|j|j]; cbn in H.
  - injection H as <-. split; [|split].
    + intros j p Hj Hji. cbn. rewrite lookup_app_l by lia. by apply Ho.
    + cbn. rewrite app_length. lia.
    + cbn. rewrite Hs. unfold later_ok, removed. cbn. split.
      * intros Hl k Hk (q & [Hq|[_ Hq]]%lookup_app_Some & Hr); [by eapply (Hl k); eauto|].
        apply list_lookup_singleton_Some in Hq as [_ <-]. done.
      * intros Hl k Hk (q & Hq & Hr). apply (Hl k Hk). exists q. split; [by apply lookup_app_l_Some|done].
  - destruct (mc_procs h !! j) as [p|] eqn:Hj; [|done]. destruct (p_alive p); [|done]. injection H as <-. by eapply Hdies.
  - destruct (mc_procs h !! j) as [p|] eqn:Hj; [|done]. destruct (p_alive p) eqn:Hal; [|done].
    destruct (decide (j = i)) as [->|Hne]. { unfold running in Hi. rewrite Hi in Hj. injection Hj as <-. done. }
    pose proof (Hlater _ _ Hj Hal Hne) as Hnj. pose proof (lookup_lt_Some _ _ _ Hj) as Hlt.
    unfold cli_step in H. destruct (p_cli p) eqn:Hp; [|destruct (mc_sock h) as [x|] eqn:Hx|done]; injection H as <-; [|by eapply Hdies|].
    + split; [|split]; cbn; [|by rewrite insert_length; lia|].
      * intros k q Hk Hki. cbn. rewrite list_lookup_insert_ne by lia. by apply Ho.
      * split; [done|]. intros Hl. exfalso. apply (Hl j Hnj). eexists. cbn. rewrite list_lookup_insert by done. done.
    + split; [|split]; cbn; [|by rewrite insert_length; lia|].
      * intros k q Hk Hki. cbn. rewrite list_lookup_insert_ne by lia. by apply Ho.
      * split; [congruence|]. intros Hl. exfalso. apply (Hl j Hnj). eexists. cbn. rewrite list_lookup_insert by done. done.
  - destruct (mc_procs h !! j) as [p|] eqn:Hj; [|done]. destruct (p_alive p) eqn:Hal; [|done].
    destruct (decide (j = i)) as [->|Hne]. { unfold running in Hi. rewrite Hi in Hj. injection Hj as <-. done. }
    pose proof (Hlater _ _ Hj Hal Hne) as Hnj. pose proof (lookup_lt_Some _ _ _ Hj) as Hlt.
    assert (Hset : forall pc pt, let h' := mkMachine (<[j := mkProc true (p_cli p) pc]> (mc_procs h)) (mc_sock h) pt in
      only_i i n h' /\ n <= length (mc_procs h') /\ (mc_sock h' = Some i <-> later_ok n h')).
    { intros pc pt. cbn. split; [|split]; [|by rewrite insert_length; lia|].
      - intros k q Hk Hki. cbn. rewrite list_lookup_insert_ne by lia. by apply Ho.
      - rewrite Hs. unfold later_ok, removed. cbn. split; intros Hl k Hk (q & Hq & Hr); apply (Hl k Hk); destruct (decide (j = k)) as [<-|Hjk].
        + rewrite list_lookup_insert in Hq by done. injection Hq as <-. eauto.
        + rewrite list_lookup_insert_ne in Hq by done. eauto.
        + rewrite list_lookup_insert by done. rewrite Hj in Hq. injection Hq as <-. eauto.
        + rewrite list_lookup_insert_ne by done. eauto. }
    unfold udp_step in H. destruct (p_udp p); [destruct (mc_port h)|destruct (local_ip ifs) as [[]| |]|done]; injection H as <-;
      first [by eapply Hdies|apply Hset].
Qed.
Lemma sock_steps ifs h l h' i n : dsteps ifs h l h' -> DKill i ∉ l -> running h i -> i < n <= length (mc_procs h) -> only_i i n h ->
  (mc_sock h = Some i <-> later_ok n h) -> (mc_sock h' = Some i <-> later_ok n h').
Proof.
  induction 1 as [|h a h' l h'' Hn Hl IH]; [done|]. intros Hk Hr Hlen Ho Hs.
  assert (Ha : a <> DKill i) by (intros ->; set_solver).
  destruct (sock_next _ _ _ _ _ _ Hr Ha Hlen Ho Hn Hs) as (H1 & H2 & H3). apply IH; [set_solver|by eapply running_next|lia|done|done].
Qed.
Lemma C101_lemma ifs l0 h i l h' :
  dsteps ifs no_daemon l0 h -> at_rest ifs h -> commands h i -> dsteps ifs h l h' -> DKill i ∉ l ->
  alive h' i /\ receives h' i /\ (commands h' i <-> forall j, length (mc_procs h) <= j -> ~ removed h' j).
Proof.
  intros H0 Hrest (Hs & p & Hi & Ha & Hc) H Hk. destruct (rest_up _ _ _ _ Hrest Hi Ha) as [_ Hu].
  assert (Hr : running h i) by (unfold running; rewrite Hi; destruct p; cbn in *; congruence).
  pose proof (running_steps _ _ _ _ _ H Hk Hr) as Hr'. unfold running in Hr'.
  split; [by eexists|]. split; [by eexists|].
  assert (Hlt : i < length (mc_procs h)) by by eapply lookup_lt_Some.
  assert (Ho : only_i i (length (mc_procs h)) h).
  { intros j q Hj Hji Hq. destruct (p_alive q) eqn:E; [|done]. destruct (C100_rest_lemma _ _ _ i H0 Hrest) as [_ Hu1]; [by exists p|].
    exfalso. apply Hji, Hu1. by exists q. }
  assert (Hs' : mc_sock h = Some i <-> later_ok (length (mc_procs h)) h).
  { split; [|done]. intros _ j Hj (q & Hq & _). apply lookup_lt_Some in Hq. lia. }
  pose proof (sock_steps _ _ _ _ _ _ H Hk Hr (conj Hlt (le_n _)) Ho Hs') as Hfin. unfold later_ok in Hfin. rewrite <- Hfin.
  unfold commands. split; [by intros [? _]|]. intros Hx. split; [done|]. by eexists.
Qed.

(** *** executions *)
Fixpoint mach_run (ifs : option (list ifaddr)) (h : machine) (l : list dlabel) : option machine :=
  match l with [] => Some h | a :: l => match dnext ifs h a with Some h' => mach_run ifs h' l | None => None end end.
Lemma mach_run_steps ifs h l h' : mach_run ifs h l = Some h' <-> dsteps ifs h l h'.
Proof.
  split.
  - revert h. induction l as [|a l IH]; intros h; cbn; [intros [= ->]; constructor|].
    destruct (dnext ifs h a) as [h1|] eqn:E; [|done]. intros H. by eapply ds_cons; [|apply IH].
  - induction 1 as [|h a h' l h'' H _ IH]; [done|]. cbn. by rewrite H.
Qed.
Lemma rest_dec ifs h : forallb (fun i => match dnext ifs h (DCli i), dnext ifs h (DUdp i) with None, None => true | _, _ => false end)
  (seq 0 (length (mc_procs h))) = true -> at_rest ifs h.
Proof.
  rewrite forallb_forall. intros H i. destruct (decide (i < length (mc_procs h))) as [Hi|Hi].
  - specialize (H i). destruct (dnext ifs h (DCli i)), (dnext ifs h (DUdp i)); try (exfalso; by apply diff_false_true, H, in_seq; lia). done.
  - cbn. rewrite lookup_ge_None_2 by lia. done.
Qed.
