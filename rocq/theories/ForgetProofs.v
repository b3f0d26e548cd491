(** Proofs about what the daemon keeps of its uploads. *)
From Verif Require Export ForgetSpec ServerProofs7 SenderProofs.
From Coq Require Import ZifyBool ZifyNat ZifyN.
Ltac Zify.zify_post_hook ::= Z.div_mod_to_equations.

Definition evolves (u u' : sender) : Prop :=
  (exists h size wok r, kickstart h size u wok = (u', r)) \/ exists v ps, sstep u v = SGo u' ps.
Lemma carries_evolves l cs i u u' : carries l cs i u -> evolves u u' -> carries l cs i u'.
Proof. intros H [(h & size & wok & r & E)|(v & ps & E)]; [eapply ca_request; done|eapply ca_step; done]. Qed.

(** the key of a request for a chunk *)
Definition new_key (buffer : list byte) (ra : udp_addr) (k : list byte * N) : Prop :=
  exists h i cap ip, parse buffer = Ok (OpenReq h i cap) /\ new_ipv4 (ua_ip ra) = Ok ip /\ k = (ip, u16_of_int (ua_port ra)).
Definition keeps_ups (new : list byte * N -> Prop) (s s' : server) : Prop :=
  sv_uploads s' = sv_uploads s \/
  exists k u', sv_uploads s' = <[k := u']> (sv_uploads s) /\ (forall u, sv_uploads s !! k = Some u -> evolves u u')
    /\ (sv_uploads s !! k = None -> new k).
Lemma send_ups new e s s1 d s' ds r : sv_uploads s1 = sv_uploads s -> send e s1 d = (s', ds, r) -> keeps_ups new s s'.
Proof. intros E. unfold send. destruct (en_wok e); intros [= <- _ _]; by left. Qed.
Lemma handle_ups e s f buffer ra s' f' ds r : run f (handle_message e s buffer ra) = (f', Done (s', ds, r)) -> keeps_ups (new_key buffer ra) s s'.
Proof.
  assert (keeps_ups (new_key buffer ra) s s) as Hs by (by left).
  unfold handle_message. destruct (parse buffer) as [m|w|w] eqn:Ep; cbn [run]; [|by intros [= <- <- _ _]|done].
  destruct m as [reqid h cs|addr port reqid cs|reqid h|reqid es|h i cap|off data|off]; cbn [run]; try (by intros [= <- <- _ _]); try done.
  - unfold respond_discover. destruct (local_ip (en_ifs e)) as [[ip|]| |]; try done.
    destruct (let! _ := sl_index ip 0 in _) as [ad| |]; try done.
    destruct (is_blank h).
    + cbn [run]. intros [= <- E]. eapply send_ups; done.
    + rewrite run_bind. destruct (run f (contains (sv_cat s) h)) as [f1 [[c1 g]|w|]]; [|done|done].
      destruct g as [x| |]; cbn [run].
      * destruct (if decide _ then _ else _) as [out| |]; cbn [on_ret run]; [|by intros [= <- <- _ _]; left|done].
        intros [= <- E]. eapply send_ups; [|exact E]. done.
      * intros [= <- E]. eapply send_ups; [|exact E]. done.
      * intros [= <- E]. eapply send_ups; [|exact E]. done.
  - unfold respond_list. destruct (is_blank h); rewrite run_bind.
    + destruct (run f (list_files _ _)) as [f1 [[c1 g]|w|]]; [|done|done]. destruct g as [x| |]; cbn [run]; [|done|done].
      intros [= <- E]. eapply send_ups; [|exact E]. done.
    + destruct (run f (contains _ _)) as [f1 [[c1 g]|w|]]; [|done|done]. destruct g as [x| |]; cbn [run]; [|done|done].
      intros [= <- E]. eapply send_ups; [|exact E]. done.
  - unfold start_upload. rewrite run_bind. destruct (run f (contains _ _)) as [f1 [[c1 g]|w|]]; [|done|done].
    destruct g as [x|w|w]; cbn [on_ret run]; [|by intros [= <- <- _ _]; left|done].
    rewrite run_bind. destruct (run f1 (get_chunk_reader _ _ _ _)) as [f2 [[c2 g2]|w|]]; [|done|done].
    destruct g2 as [[fo rd]|w|w]; cbn [on_ret run]; [|by intros [= <- <- _ _]; left|done].
    destruct (_ <? _)%Z; [by intros [= <- <- _ _]; left|].
    destruct (new_ipv4 _) as [ip|w|w] eqn:Eip; cbn [on_ret run]; [|by intros [= <- <- _ _]; left|done].
    set (k := (ip, u16_of_int (ua_port ra))). cbn [sv_uploads set_cat].
    set (u := match sv_uploads s !! k with Some u => u | None => _ end).
    destruct (kickstart _ _ u (en_wok e)) as [u' rk] eqn:Ek.
    assert (forall s2, sv_uploads s2 = sv_uploads s -> keeps_ups (new_key buffer ra) s (set_upload (set_upload s2 k u) k u')) as Hfin.
    { intros s2 E. right. exists k, u'. cbn. rewrite E, insert_insert. split; [done|]. split; [intros v Hv; left; subst u; rewrite Hv in Ek; eauto|].
      intros _. exists h, i, cap, ip. done. }
    destruct rk as [p|w|w]; cbn [on_ret run]; [| |done]; intros [= <- <- _ _]; apply Hfin; done.
  - unfold continue_upload. destruct (new_ipv4 _) as [ip|w|w]; cbn [on_ret run]; [|by intros [= <- <- _ _]|done].
    destruct (sv_uploads s !! _) as [u|] eqn:Ek; cbn [run]; [|by intros [= <- <- _ _]].
    intros [= <- <- _ _]. right. eexists _, _. split; [done|]. split; [|congruence]. intros v Hv. rewrite Ek in Hv. injection Hv as <-.
    right. exists SAck, []. done.
Qed.

(** *** C107 *)
Lemma srv_step_keeps a b : srv_step a b -> forall k u, sv_uploads a.1 !! k = Some u ->
  exists u', sv_uploads b.1 !! k = Some u' /\ (u' = u \/ evolves u u').
Proof.
  destruct 1 as [s f e buffer ra s' f' ds r H|s f k0 u0 v u' ps H1 H2|s f|s f c f']; intros k u Hk; cbn [fst] in *.
  - destruct (handle_ups _ _ _ _ _ _ _ _ _ H) as [E|(k1 & u1 & E & Hu & _)]; rewrite E.
    + eauto.
    + destruct (decide (k = k1)) as [->|N]; [rewrite lookup_insert|rewrite lookup_insert_ne by done]; eauto.
  - cbn. destruct (decide (k = k0)) as [->|N]; [rewrite lookup_insert|rewrite lookup_insert_ne by done; eauto].
    rewrite Hk in H1. injection H1 as ->. eexists. split; [done|]. right. right. eauto.
  - eauto.
  - eauto.
Qed.
Lemma C107_only_lemma e s f buffer ra ip s' f' ds r k : run f (handle_message e s buffer ra) = (f', Done (s', ds, r)) -> from_ipv4 ra ip ->
  sv_uploads s !! k = None -> sv_uploads s' !! k <> None ->
  k = (ip, u16_of_int (ua_port ra)) /\ exists h i cap, parse buffer = Ok (OpenReq h i cap).
Proof.
  intros H (lip & Hra & Hip) Hk Hk'. destruct (handle_ups _ _ _ _ _ _ _ _ _ H) as [E|(k1 & u1 & E & _ & Hnew)]; rewrite E in Hk'; [done|].
  destruct (decide (k1 = k)) as [->|Hne]; [|rewrite lookup_insert_ne in Hk'; done].
  destruct (Hnew Hk) as (h & i & cap & ip' & Hp & Hn & ->). rewrite Hra, new_ipv4_exact with (a := ip) in Hn by done. injection Hn as <-.
  split; [done|]. eauto.
Qed.
Lemma C107_lemma s f s' f' k u : rtc srv_step (s, f) (s', f') -> sv_uploads s !! k = Some u ->
  exists u', sv_uploads s' !! k = Some u' /\ forall l cs i, carries l cs i u -> carries l cs i u'.
Proof.
  intros H. remember (s, f) as a eqn:Ea. remember (s', f') as b eqn:Eb. replace s' with b.1 by (by subst). replace s with a.1 by (by subst).
  clear s f s' f' Ea Eb. revert u. induction H as [a|a b c H1 H2 IH]; intros u Hu; [eauto|].
  destruct (srv_step_keeps _ _ H1 _ _ Hu) as (u1 & Hu1 & He). destruct (IH _ Hu1) as (u2 & Hu2 & Hc).
  exists u2. split; [done|]. intros l cs i Hl. apply Hc. destruct He as [->|He]; [done|]. eapply carries_evolves; done.
Qed.

(** the executions of one upload happen inside the server *)
Definition begun (l : list byte) (cs i : nat) (cap : N) : sender := mkSender (FRegular l) (rd_at l cs i (stream_pos (chunk_bytes l cs i) 0)) 1 cap 0 false 1 0.
Lemma upload_in_server cwd dir dl A f l cs i cap k u ps n s : (Z.of_nat cs < 4294967296)%Z -> (Z.of_nat i < 65536)%Z ->
  uploads_acked l cs i cap u ps n -> srv_reached cwd dir dl A s f -> sv_uploads s !! k = Some (begun l cs i cap) ->
  exists s', srv_reached cwd dir dl A s' f /\ rtc srv_step (s, f) (s', f) /\ sv_uploads s' = <[k := u]> (sv_uploads s).
Proof.
  intros Hcs Hi H Hs Hk. induction H as [fuel rd u p' H1 H2|u ps n u' H IH Hgo|u ps n e u' ps' H IH He Hgo].
  - destruct (kickstart_ok l cs i Hcs Hi cap u p' fuel rd H1 H2) as [-> _]. exists s. split; [done|]. split; [done|].
    rewrite insert_id by done. done.
  - destruct IH as (s' & Hs' & Hr & E). assert (sv_uploads s' !! k = Some u) as Hk' by (rewrite E; apply lookup_insert).
    exists (set_upload s' k u'). split; [eapply sr_work; [exact Hs'|exact Hk'|exact Hgo]|]. split.
    + eapply rtc_r; [exact Hr|]. eapply ss_work; done.
    + cbn. rewrite E, insert_insert. done.
  - destruct IH as (s' & Hs' & Hr & E). assert (sv_uploads s' !! k = Some u) as Hk' by (rewrite E; apply lookup_insert).
    exists (set_upload s' k u'). split; [eapply sr_work; [exact Hs'|exact Hk'|exact Hgo]|]. split.
    + eapply rtc_r; [exact Hr|]. eapply ss_work; done.
    + cbn. rewrite E, insert_insert. done.
Qed.
Lemma first_open cwd dir dl A s f e buffer h a l i cap ra ip :
  let cs := Z.to_nat (a_chunk a) in let key := (ip, u16_of_int (ua_port ra)) in
  srv_reached cwd dir dl A s f ->
  parse buffer = Ok (OpenReq h i cap) -> A !! h = Some a -> i ∈ a_held a ->
  file_at f (a_path a) = Some l -> length l < en_fuel e -> from_ipv4 ra ip -> en_wok e = true ->
  sv_uploads s !! key = None ->
  exists s' ds, run f (handle_message e s buffer ra) = (f, Done (s', ds, HRet (Ok tt)))
    /\ sv_uploads s' = <[key := begun l cs (N.to_nat i) cap]> (sv_uploads s).
Proof.
  intros cs key Hsr Hp Ha Hh Hl Hfuel Hip Hw Hk.
  destruct (srv_inv _ _ _ _ _ _ Hsr) as (H & _ & _). destruct (parse_typed _ _ Hp) as [(_ & Hi & _) _].
  destruct (entry_facts _ _ _ _ _ _ _ _ H Ha) as (F1 & F2 & F3 & F4).
  assert (Z.of_nat cs < 4294967296)%Z as Hcs by (subst cs; lia).
  assert (Z.of_nat (N.to_nat i) < 65536)%Z as Hi' by (unfold u16 in Hi; lia).
  destruct (start_upload_run cwd dir dl A s f e h a l i cap ra ip (new_sender (FRegular l) (rd_at l cs (N.to_nat i) 0) cap) l cs (N.to_nat i))
    as (s' & u' & Hu & Hup & Hre & _ & _ & Hrun); try done.
  { unfold up_key. fold key. rewrite Hk. done. }
  { split; [done|]. exists 0. split; [done|]. lia. }
  fold cs in Hu, Hrun. fold key in Hup. unfold handle_message. rewrite Hp. rewrite Hrun, Hw.
  eexists s', _. split; [done|]. rewrite Hup. f_equal.
  pose proof (kickstart_eq l cs (N.to_nat i) Hcs cap) as Hke.
  change (cr_hash (rd_at l cs (N.to_nat i) 0)) with (sha1 (chunk_bytes l cs (N.to_nat i))) in Hke.
  change (cr_size (rd_at l cs (N.to_nat i) 0)) with (Z.of_nat (length (chunk_bytes l cs (N.to_nat i)))) in Hke.
  rewrite Hw, Hke in Hu. symmetry. exact Hu.
Qed.
Lemma one_over l cs i : (Z.of_nat cs < 4294967296)%Z -> (Z.of_nat i < 65536)%Z ->
  exists u ps, uploads_acked l cs i 1 u ps (length ps) /\ sd_workers u = 0.
Proof.
  intros Hcs Hi. destruct (exits_lemma l cs i Hcs Hi 1%N ltac:(lia)) as (u & ps & n & H1 & H2 & -> & _ & _).
  { pose proof (E_pos l cs i). lia. }
  exists u, ps. split; [exact H1|]. destruct (settled l cs i Hcs Hi 1%N ltac:(lia) u ps (length ps) H1 H2 ltac:(lia)) as (Hw & _). exact Hw.
Qed.
Lemma C107_grows_lemma cwd dir dl A s f h a l i ip n :
  let cs := Z.to_nat (a_chunk a) in
  srv_reached cwd dir dl A s f -> A !! h = Some a -> i ∈ a_held a -> (i < 65536)%N ->
  file_at f (a_path a) = Some l -> length ip = 4 -> (forall p, sv_uploads s !! (ip, p) = None) -> (Z.of_nat n <= 65536)%Z ->
  exists s', srv_reached cwd dir dl A s' f /\ rtc srv_step (s, f) (s', f)
    /\ size (sv_uploads s') = size (sv_uploads s) + n
    /\ (forall p, p < n -> exists u, sv_uploads s' !! (ip, N.of_nat p) = Some u /\ over l cs (N.to_nat i) 1 u).
Proof.
  intros cs Hsr Ha Hh Hi Hl Hip Hno Hn.
  cut (exists s', srv_reached cwd dir dl A s' f /\ rtc srv_step (s, f) (s', f)
    /\ size (sv_uploads s') = size (sv_uploads s) + n
    /\ (forall p, p < n -> exists u, sv_uploads s' !! (ip, N.of_nat p) = Some u /\ over l cs (N.to_nat i) 1 u)
    /\ (forall p, (N.of_nat n <= p)%N -> sv_uploads s' !! (ip, p) = None)).
  { intros (s' & H1 & H2 & H3 & H4 & _). eauto. }
  assert (Z.of_nat (N.to_nat i) < 65536)%Z as Hi' by lia.
  induction n as [|n IH].
  { exists s. split; [done|]. split; [done|]. split; [lia|]. split; [lia|]. intros p _. apply Hno. }
  destruct IH as (s1 & H1 & H2 & H3 & H4 & H5); [lia|].
  destruct (srv_inv _ _ _ _ _ _ H1) as (H & _ & _).
  destruct (entry_facts _ _ _ _ _ _ _ _ H Ha) as (F1 & F2 & F3 & F4).
  assert (Z.of_nat cs < 4294967296)%Z as Hcs by (subst cs; lia).
  set (e := mkEnv None true (elements (dom A : gset hash)) (S (length l))).
  set (ra := mkAddr (exact_slice ip) (Z.of_nat n)).
  assert (u16_of_int (ua_port ra) = N.of_nat n) as Hport.
  { cbn. unfold u16_of_int. rewrite Z.mod_small by lia. lia. }
  assert (from_ipv4 ra ip) as Hra by (exists ip; split; [done|]; split; [done|]; by left).
  destruct (first_open cwd dir dl A s1 f e (udp_buffer 1024 (serialize (OpenReq h i 1))) h a l i 1%N ra ip H1) as (s2 & ds & Hrun & Hup); try done.
  { assert (msg_typed (OpenReq h i 1)) as Ht by (split; [exact F1|]; unfold u16; lia).
    rewrite buffer_parse; [done|exact Ht|cbn; tauto|]. rewrite serialize_length by exact Ht. cbn. lia. }
  { cbn. lia. }
  { rewrite Hport. apply H5. lia. }
  rewrite Hport in Hup. fold cs in Hup.
  assert (srv_reached cwd dir dl A s2 f) as HR2.
  { eapply sr_msg; [exact H1| | |exact Hrun].
    - exact (NoDup_elements (dom A : gset hash)).
    - intros k. cbn. rewrite elem_of_elements, elem_of_dom. destruct (A !! k); split; [done|eauto|by intros [? ?]|done]. }
  destruct (one_over l cs (N.to_nat i) Hcs Hi') as (u & ps & Hua & Hw).
  destruct (upload_in_server cwd dir dl A f l cs (N.to_nat i) 1%N (ip, N.of_nat n) u ps (length ps) s2 Hcs Hi' Hua HR2) as (s3 & HR3 & Hst & Hup3).
  { rewrite Hup. apply lookup_insert. }
  rewrite Hup, insert_insert in Hup3. exists s3. split; [done|]. split.
  { etrans; [exact H2|]. eapply rtc_l; [eapply ss_msg; exact Hrun|exact Hst]. }
  split.
  { rewrite Hup3, map_size_insert_None by (apply H5; lia). lia. }
  split.
  - intros p Hp. rewrite Hup3. destruct (decide (p = n)) as [->|N].
    + rewrite lookup_insert. exists u. split; [done|]. exists ps. done.
    + rewrite lookup_insert_ne by (intros [=]; lia). apply H4. lia.
  - intros p Hp. rewrite Hup3. rewrite lookup_insert_ne by (intros [=]; lia). apply H5. lia.
Qed.

(** *** C108 *)
Lemma C108_lemma l cs i cap u ps n : (Z.of_nat cs < 4294967296)%Z -> (Z.of_nat i < 65536)%Z -> (1 <= cap < 65536)%N ->
  uploads_acked l cs i cap u ps n -> n <= length ps -> blocked u = 0.
Proof.
  intros Hcs Hi Hcap H Hn. apply (ua_uinv l cs i Hcs Hi cap Hcap) in H as (k & m & Hu & -> & _ & Hc & _ & ->).
  rewrite map_length, seq_length in Hn. unfold blocked. rewrite Hc. inversion Hu; subst; lia.
Qed.
Lemma gone_step u v u' ps : sd_workers u = 0 -> sstep u v = SGo u' ps ->
  v = SAck /\ u' = set_acks u (S (sd_acks u)).
Proof.
  intros Hw. destruct v as [|w|]; cbn [sstep].
  - intros [= <- <-]. done.
  - rewrite decide_False by lia. done.
  - rewrite decide_False by lia. done.
Qed.
Lemma gone_later u u' : left_alone u u' -> sd_workers u = 0 -> exists m, u' = set_acks u (sd_acks u + m).
Proof.
  induction 1 as [u|u u1 u2 (v & ps & Hs) _ IH]; intros Hw.
  - exists 0. rewrite Nat.add_0_r. destruct u. done.
  - destruct (gone_step _ _ _ _ Hw Hs) as [_ ->]. destruct IH as [m ->]; [done|]. exists (S m). cbn. rewrite Nat.add_succ_r. done.
Qed.
Lemma ack_step e s f buffer ra ip off u : parse buffer = Ok (Ack off) -> from_ipv4 ra ip ->
  sv_uploads s !! (ip, u16_of_int (ua_port ra)) = Some u ->
  run f (handle_message e s buffer ra) = (f, Done (set_upload s (ip, u16_of_int (ua_port ra)) (set_acks u (S (sd_acks u))), [], HRet (Ok tt))).
Proof.
  intros Hp (lip & Hra & Hip) Hk. unfold handle_message. rewrite Hp. unfold continue_upload.
  rewrite Hra, new_ipv4_exact with (a := ip) by done. cbn [on_ret]. rewrite Hk. done.
Qed.

Lemma C108_piles_lemma cwd dir dl A s f e buffer ra ip off u m :
  let key := (ip, u16_of_int (ua_port ra)) in
  srv_reached cwd dir dl A s f -> NoDup (en_order e) -> (forall h, h ∈ en_order e <-> A !! h <> None) ->
  parse buffer = Ok (Ack off) -> from_ipv4 ra ip ->
  sv_uploads s !! key = Some u -> sd_workers u = 0 ->
  exists s' u', srv_reached cwd dir dl A s' f /\ rtc srv_step (s, f) (s', f) /\ sv_uploads s' !! key = Some u'
    /\ blocked u' = sd_acks u + m - N.to_nat (sd_cap u)
    /\ forall u'', left_alone u' u'' -> blocked u' <= blocked u''.
Proof.
  intros key Hsr Hnd Hin Hp Hra Hk Hw.
  cut (exists s', srv_reached cwd dir dl A s' f /\ rtc srv_step (s, f) (s', f) /\ sv_uploads s' !! key = Some (set_acks u (sd_acks u + m))).
  { intros (s' & H1 & H2 & H3). eexists s', _. split; [done|]. split; [done|]. split; [done|]. split; [done|].
    intros u'' Hl. destruct (gone_later _ _ Hl Hw) as [m' ->]. unfold blocked. cbn. lia. }
  induction m as [|m (s1 & H1 & H2 & H3)].
  - exists s. split; [done|]. split; [done|]. rewrite Hk, Nat.add_0_r. f_equal. destruct u. done.
  - pose proof (ack_step e s1 f buffer ra ip off _ Hp Hra H3) as Hr.
    eexists. split; [eapply sr_msg; [exact H1|exact Hnd|exact Hin|exact Hr]|]. split.
    + eapply rtc_r; [exact H2|]. eapply ss_msg. exact Hr.
    + cbn. fold key. rewrite lookup_insert. rewrite Nat.add_succ_r. done.
Qed.
(** as long as a worker waits, what is in the channel is taken *)
Lemma C108_taken_lemma l cs i cap u ps n : (Z.of_nat cs < 4294967296)%Z -> (Z.of_nat i < 65536)%Z -> (1 <= cap < 65536)%N ->
  uploads_acked l cs i cap u ps n -> 0 < sd_workers u -> 0 < sd_acks u ->
  exists u' ps', sstep u (SKick None) = SGo u' ps' /\ sd_acks u' = pred (sd_acks u).
Proof.
  intros Hcs Hi Hcap H Hw Ha. apply (ua_uinv l cs i Hcs Hi cap Hcap) in H as (k & m & Hu & -> & Hf & Hc & Hr & ->).
  cbn [sstep]. rewrite decide_True by done.
  destruct (ukick l cs i Hcs cap Hcap (set_acks u (pred (sd_acks u))) k m) as (s1 & m1 & Hk & Hm & _ & Hu1 & Hf1 & Hc1 & Hr1 & Ha1 & Hz1);
    try done; [by apply ustate_acks|].
  rewrite Hk. eexists _, _. split; [done|]. rewrite Ha1. done.
Qed.
Lemma sstep_cap u v u' ps : sstep u v = SGo u' ps -> sd_cap u' = sd_cap u.
Proof.
  destruct v as [|w|]; cbn [sstep].
  - intros [= <- _]. done.
  - destruct (decide _); [|done]. unfold kick. destruct (kick_loop _ _ _ w) as [[[q ts] rd] err]. destruct (err && _); [done|].
    intros [= <- _]. done.
  - destruct (decide _); [|done]. intros [= <- _]. done.
Qed.
Lemma acked_cap l cs i cap u ps n : uploads_acked l cs i cap u ps n -> sd_cap u = cap.
Proof.
  induction 1 as [fuel rd u p H1 H2|u ps n u' H IH Hgo|u ps n e u' ps' H IH He Hgo].
  - unfold kickstart in H2. destruct (cr_read _ _ _) as [[[[d o] er] rd']| |]; try done. destruct (decide _); [done|]. cbn [negb] in H2.
    injection H2 as <- _. done.
  - rewrite (sstep_cap _ _ _ _ Hgo). done.
  - rewrite (sstep_cap _ _ _ _ Hgo). done.
Qed.
Lemma abc_held : 0%N ∈ a_held entry_abc.
Proof. apply (bool_decide_eq_true (0%N ∈ a_held entry_abc)). vm_compute. reflexivity. Qed.
