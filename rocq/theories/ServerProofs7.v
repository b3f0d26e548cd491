(** Proofs about message handling, part 7: consequences and witnesses. *)
From Verif Require Export ServerCases.
From Coq Require Import ZifyBool ZifyNat ZifyN.
Ltac Zify.zify_post_hook ::= Z.div_mod_to_equations.

Lemma uploads_carries l cs i cap u ps : uploads l cs i cap u ps -> carries l cs i u.
Proof.
  induction 1 as [fuel rd s p Hr Hk|s ps e s' ps' _ IH Hs].
  - eapply ca_request; [|exact Hk]. by eapply ca_new.
  - by eapply ca_step.
Qed.
Lemma buffer_parse m : msg_typed m -> ~ is_data m -> length (serialize m) <= 1024 -> parse (udp_buffer 1024 (serialize m)) = Ok (wire_view m).
Proof. intros H1 H2 H3. rewrite udp_buffer_fits by done. apply parse_serialize; done. Qed.
(** *** C53 *)
Lemma C53_refuted_lemma cwd dir dl A s f e buf1 buf2 ra ip h1 a1 l1 i1 h2 a2 l2 i2 cap1 cap2 :
  let B1 := chunk_bytes l1 (Z.to_nat (a_chunk a1)) (N.to_nat i1) in
  let B2 := chunk_bytes l2 (Z.to_nat (a_chunk a2)) (N.to_nat i2) in
  srv_reached cwd dir dl A s f -> NoDup (en_order e) -> (forall h, h ∈ en_order e <-> A !! h <> None) ->
  parse buf1 = Ok (OpenReq h1 i1 cap1) -> A !! h1 = Some a1 -> i1 ∈ a_held a1 -> file_at f (a_path a1) = Some l1 -> length l1 < en_fuel e ->
  parse buf2 = Ok (OpenReq h2 i2 cap2) -> A !! h2 = Some a2 -> i2 ∈ a_held a2 -> file_at f (a_path a2) = Some l2 -> length l2 < en_fuel e ->
  from_ipv4 ra ip -> en_wok e = true -> sv_uploads s !! (ip, u16_of_int (ua_port ra)) = None ->
  take 1000 B1 <> take 1000 B2 ->
  exists s1 s2 d1 d2,
    run f (handle_message e s buf1 ra) = (f, Done (s1, [d1], HRet (Ok tt)))
    /\ run f (handle_message e s1 buf2 ra) = (f, Done (s2, [d2], HRet (Ok tt)))
    /\ dg_data d2 <> wire (stream (sha1 B2) B2 0).
Proof.
  intros B1 B2 Hsr Hnd Hin P1 Ha1 Hh1 Hl1 Hf1 P2 Ha2 Hh2 Hl2 Hf2 Hip Hw Hk Hne.
  destruct (C53_first_lemma _ _ _ _ _ _ _ _ _ _ _ _ _ _ _ Hsr P1 Ha1 Hh1 Hl1 Hf1 Hip Hw Hk) as (s1 & u & R1 & U1 & K1).
  apply uploads_carries in K1.
  assert (srv_reached cwd dir dl A s1 f) as HR1 by (eapply sr_msg; done).
  destruct (srv_inv _ _ _ _ _ _ Hsr) as (Hre & _ & _).
  destruct (entry_facts _ _ _ _ _ _ _ _ Hre Ha1) as (F1 & F2 & F3 & F4).
  destruct (parse_typed _ _ P1) as [(_ & Hi1 & _) _].
  assert (Z.of_nat (Z.to_nat (a_chunk a1)) < 4294967296)%Z as Hc1 by lia.
  assert (Z.of_nat (N.to_nat i1) < 65536)%Z as Hi1' by (unfold u16 in Hi1; lia).
  assert (sv_uploads s1 !! (ip, u16_of_int (ua_port ra)) = Some u) as Hk1 by (rewrite U1; apply lookup_insert).
  destruct (C53_again_lemma _ _ _ _ _ _ _ _ _ _ _ _ _ _ _ _ _ _ _ HR1 P2 Ha2 Hh2 Hl2 Hf2 Hip Hw Hk1 Hc1 Hi1' K1) as (s2 & u2 & R2 & _).
  exists s1, s2. eexists _, _. split; [exact R1|]. split; [exact R2|].
  cbn [dg_data]. unfold wire, stream. cbn [fst snd]. intros E. apply wire_data_unique in E as [_ E]; [|done|done].
  apply app_inv_head, app_inv_head in E. apply Hne. exact E.
Qed.
(** *** C55, C56 *)
Definition m7 : message := DiscResp ex_own 61696 7 [0; 5]%N.
Lemma m7_arrives D i : d_ds D !! i = None -> dstep D (set_d D i (mkDel 7 m7 DStart)).
Proof.
  intros H. eapply (ds_arrive D i (ex_env []) ex_srv (udp_buffer 1024 (serialize m7)) ex_peer ∅); [done|]. apply deliver_run.
  rewrite buffer_parse; [vm_compute; reflexivity| |vm_compute; tauto|vm_compute; lia].
  unfold m7. cbn. split_and!; [done..|]. repeat constructor.
Qed.
Ltac go := eapply rtc_l; [first [apply m7_arrives; reflexivity]|].
Definition dcall : dstate := set_w d_init 0 (mkWaiter 7 WStart None []).
Definition dreg : dstate := set_rmap (set_w dcall 0 (mkWaiter 7 WWait None [])) (<[(7%N, response_type_disc) := 0]> ∅).
Lemma dreg_reached : d_reached dreg.
Proof.
  eapply rtc_l; [apply (ds_call d_init 0 7); reflexivity|]. apply rtc_once.
  exact (ds_register dcall 0 (mkWaiter 7 WStart None []) eq_refl eq_refl eq_refl).
Qed.
Definition darr1 : dstate := set_d dreg 1 (mkDel 7 m7 DStart).
Definition darr2 : dstate := set_d darr1 2 (mkDel 7 m7 DStart).
Lemma darr1_reached : d_reached darr1.
Proof. eapply rtc_r; [apply dreg_reached|]. apply m7_arrives. reflexivity. Qed.
Lemma darr2_reached : d_reached darr2.
Proof. eapply rtc_r; [apply darr1_reached|]. apply m7_arrives. reflexivity. Qed.
Definition dlock1 : dstate := set_lock (set_d darr2 1 (mkDel 7 m7 (DSend 0))) (Some 1).
Definition dsent1 : dstate := set_lock (set_w (set_d dlock1 1 (mkDel 7 m7 (DDone true))) 0 (mkWaiter 7 WWait (Some (1, m7)) [])) None.
Lemma dsent1_reached : d_reached dsent1.
Proof.
  eapply rtc_r; [eapply rtc_r; [apply darr2_reached|]|].
  - exact (ds_lock darr2 1 (mkDel 7 m7 DStart) 0 eq_refl eq_refl eq_refl eq_refl).
  - exact (ds_send dlock1 1 (mkDel 7 m7 (DSend 0)) 0 (mkWaiter 7 WWait None []) eq_refl eq_refl eq_refl eq_refl).
Qed.
Lemma C55_case_lemma : exists D, d_reached D /\ (exists m, handed D 1 m 0 /\ answers m 7) /\ (exists m, handed D 2 m 0 /\ answers m 7)
  /\ pc_of D 0 = Some WWait.
Proof.
  set (drecv := set_w dsent1 0 (mkWaiter 7 WWait None [(1, m7)])).
  set (dlock2 := set_lock (set_d drecv 2 (mkDel 7 m7 (DSend 0))) (Some 2)).
  set (dsent2 := set_lock (set_w (set_d dlock2 2 (mkDel 7 m7 (DDone true))) 0 (mkWaiter 7 WWait (Some (2, m7)) [(1, m7)])) None).
  exists dsent2. split; [|split; [|split]].
  - eapply rtc_r; [eapply rtc_r; [eapply rtc_r; [apply dsent1_reached|]|]|].
    + exact (ds_recv dsent1 0 (mkWaiter 7 WWait (Some (1, m7)) []) 1 m7 eq_refl eq_refl eq_refl).
    + exact (ds_lock drecv 2 (mkDel 7 m7 DStart) 0 eq_refl eq_refl eq_refl eq_refl).
    + exact (ds_send dlock2 2 (mkDel 7 m7 (DSend 0)) 0 (mkWaiter 7 WWait None [(1, m7)]) eq_refl eq_refl eq_refl eq_refl).
  - exists m7. split; [|by eexists _, _, _]. eexists. split; [reflexivity|]. right. cbn. left.
  - exists m7. split; [|by eexists _, _, _]. eexists. split; [reflexivity|]. left. reflexivity.
  - reflexivity.
Qed.
Lemma responses_le D r : responses D r <= size (d_ds D).
Proof.
  unfold responses. rewrite <- !size_dom. apply subseteq_size. apply subseteq_dom, map_filter_subseteq.
Qed.
Lemma C56_refuted_lemma :
  exists D, d_reached D /\ jammed D /\ pc_of D 0 = Some WUnreg /\ (forall r, responses D r <= 2)
    /\ forall D', rtc dstep D D' -> pc_of D' 0 <> Some WDone.
Proof.
  set (dtime := set_w dsent1 0 (mkWaiter 7 WUnreg (Some (1, m7)) [])).
  set (djam := set_lock (set_d dtime 2 (mkDel 7 m7 (DSend 0))) (Some 2)).
  assert (d_reached djam) as HR.
  { eapply rtc_r; [eapply rtc_r; [apply dsent1_reached|]|].
    - exact (ds_timeout dsent1 0 (mkWaiter 7 WWait (Some (1, m7)) []) eq_refl eq_refl).
    - exact (ds_lock dtime 2 (mkDel 7 m7 DStart) 0 eq_refl eq_refl eq_refl eq_refl). }
  assert (jammed djam) as HJ.
  { exists 2, 0, (mkWaiter 7 WUnreg (Some (1, m7)) []). split_and!; [reflexivity..|done]. }
  assert (pc_of djam 0 = Some WUnreg) as Hp by reflexivity.
  exists djam. split; [done|]. split; [done|]. split; [done|]. split.
  - intros r. etrans; [apply responses_le|]. apply Nat.leb_le. reflexivity.
  - intros D' Hs Hd. destruct (C56_forever_lemma _ _ HR HJ Hs) as (_ & Ha & _). apply Ha in Hd. congruence.
Qed.
Lemma C56_case_lemma : exists D, d_reached D /\ (forall r, responses D r <= 1) /\ pc_of D 0 = Some WUnreg
  /\ exists i, d_lock D = Some i.
Proof.
  set (dtime := set_w darr1 0 (mkWaiter 7 WUnreg None [])).
  set (dl := set_lock (set_d dtime 1 (mkDel 7 m7 (DSend 0))) (Some 1)).
  exists dl. split; [|split; [|split; [reflexivity|by exists 1]]].
  - eapply rtc_r; [eapply rtc_r; [apply darr1_reached|]|].
    + exact (ds_timeout darr1 0 (mkWaiter 7 WWait None []) eq_refl eq_refl).
    + exact (ds_lock dtime 1 (mkDel 7 m7 DStart) 0 eq_refl eq_refl eq_refl eq_refl).
  - intros r. etrans; [apply responses_le|]. apply Nat.leb_le. reflexivity.
Qed.
(** *** C57, C58 *)
Lemma C57_srv_lemma cwd dir dl A s f e ra buffer reqid h qs addrs ip :
  srv_reached cwd dir dl A s f -> en_ifs e = Some addrs -> Forall if_wf addrs -> own_address addrs ip ->
  en_wok e = true -> parse buffer = Ok (DiscReq reqid h (flatten qs)) ->
  exists s' cs, run f (handle_message e s buffer ra) =
      (f, Done (s', [mkDgram (slice_bytes (ua_ip ra)) (sv_port s)
                      (serialize (DiscResp ip (u16_of_int (sv_port s)) reqid cs))], HRet (Ok tt)))
    /\ reported A h qs cs
    /\ (qs <> [] \/ (forall a x, A !! h = Some a -> x ∈ a_held a -> (x < 65536)%N) -> truthful A h qs cs).
Proof.
  intros Hsr H1 H2 H3 H4 H5. destruct (srv_inv _ _ _ _ _ _ Hsr) as (H & _ & _).
  destruct (C57_reported_lemma _ _ _ _ _ _ _ ra _ _ _ _ _ _ H H1 H2 H3 H4 H5) as (s' & cs & G1 & G2 & _).
  exists s', cs. split; [done|]. split; [done|]. intros [Hq|Hs].
  - unfold reported, truthful in *. destruct (A !! h); [|done]. repeat case_decide; done.
  - eapply reported_truthful; [|exact G2]. intros a Ha x. by apply Hs.
Qed.
Lemma separated_one ps n : separated 0 ps -> (0 < n)%N -> (forall x, covered ps x <-> (x < n)%N) -> ps = [(0, n - 1)]%N.
Proof.
  intros Hs Hn Hc. assert (covered ps 0) as (s & e & Hin & H0) by (apply Hc; done).
  destruct ps as [|[s1 e1] ps]; [by apply elem_of_nil in Hin|].
  assert (s1 <= e1)%N as Hse by apply Hs.
  assert (s1 = 0)%N as ->.
  { assert (s1 <= 0)%N; [|lia]. apply (separated_lowest _ _ _ Hs). exists s, e. done. }
  assert (e1 < n)%N as He by (apply Hc; exists 0%N, e1; split; [apply elem_of_list_here|lia]).
  destruct ps as [|[s2 e2] ps].
  - f_equal. f_equal. destruct (decide (e1 = n - 1)%N) as [|Hne]; [done|exfalso].
    assert (covered [(0, e1)%N] (e1 + 1)) as (s' & e' & Hin' & Hx) by (apply Hc; lia).
    apply elem_of_list_singleton in Hin' as [= -> ->]. lia.
  - exfalso. destruct Hs as (_ & _ & H3).
    assert (s2 < n)%N as Hs2.
    { destruct H3 as (_ & H4 & _). apply Hc. exists s2, e2. split; [apply elem_of_list_further, elem_of_list_here|lia]. }
    assert (e1 + 2 <= s2)%N as Hge by apply H3.
    assert (covered ((0, e1)%N :: (s2, e2) :: ps) (e1 + 1)) as (s' & e' & Hin' & Hx) by (apply Hc; lia).
    apply elem_of_cons in Hin' as [[= -> ->]|Hin']; [lia|].
    assert (e1 + 2 <= s')%N; [|lia].
    clear -H3 Hin'. assert (forall lo qs, separated lo qs -> (s', e') ∈ qs -> (lo <= s')%N) as Hg; [|by eapply Hg].
    intros lo qs. revert lo. induction qs as [|[a b] qs IH]; intros lo Hq Hin; [by apply elem_of_nil in Hin|].
    destruct Hq as (Q1 & Q2 & Q3). apply elem_of_cons in Hin as [[= -> ->]|Hin]; [done|]. specialize (IH _ Q3 Hin). lia.
Qed.
Lemma C57_huge_lemma cwd dir dl A s f e ra buffer reqid h a addrs ip :
  srv_reached cwd dir dl A s f -> en_ifs e = Some addrs -> Forall if_wf addrs -> own_address addrs ip ->
  en_wok e = true -> parse buffer = Ok (DiscReq reqid h []) ->
  A !! h = Some a -> h <> blank -> a_held a = all_below (a_count a) -> (65536 < a_count a)%Z ->
  exists s', run f (handle_message e s buffer ra) =
      (f, Done (s', [mkDgram (slice_bytes (ua_ip ra)) (sv_port s)
                      (serialize (DiscResp ip (u16_of_int (sv_port s)) reqid [0; Z.to_N (a_count a - 1) mod 65536]%N))], HRet (Ok tt)))
    /\ ~ truthful A h [] [0; Z.to_N (a_count a - 1) mod 65536]%N.
Proof.
  intros Hsr H1 H2 H3 H4 H5 Ha Hb Hheld Hbig.
  destruct (C57_srv_lemma cwd dir dl A s f e ra buffer reqid h [] addrs ip Hsr H1 H2 H3 H4 H5) as (s' & cs & Hrun & Hrep & _).
  unfold reported in Hrep. rewrite Ha, decide_False, decide_True in Hrep by done. destruct Hrep as (ps & -> & Hsep & Hcov).
  rewrite (separated_one ps (Z.to_N (a_count a))) in Hrun; [|done|lia|].
  2:{ intros x. rewrite Hcov, Hheld, elem_of_all_below. lia. }
  exists s'. split.
  - rewrite Hrun. cbn [map fst snd flatten flat_map app]. rewrite N.mod_small by lia.
    replace (Z.to_N (a_count a) - 1)%N with (Z.to_N (a_count a - 1)) by lia. done.
  - unfold truthful. rewrite Ha, decide_False, decide_True by done. intros (qs & Hqs & Hsq & Hcq).
    destruct qs as [|[s1 e1] [|]]; try done. cbn [flatten flat_map app fst snd] in Hqs. injection Hqs as <- <-.
    assert (Z.to_N (a_count a - 1) ∈ a_held a) as Hin by (rewrite Hheld; apply elem_of_all_below; lia).
    apply Hcq in Hin as (s2 & e2 & Hin & Hx). apply elem_of_list_singleton in Hin as [= -> ->].
    pose proof (N.mod_lt (Z.to_N (a_count a - 1)) 65536). lia.
Qed.
Lemma C58_srv_lemma cwd dir dl A s f e ra buffer reqid h a addrs ip :
  srv_reached cwd dir dl A s f -> en_ifs e = Some addrs -> Forall if_wf addrs -> own_address addrs ip ->
  en_wok e = true -> parse buffer = Ok (DiscReq reqid h []) -> h <> blank -> A !! h = Some a -> (a_count a <= 65536)%Z ->
  exists s' data ps, run f (handle_message e s buffer ra) =
      (f, Done (s', [mkDgram (slice_bytes (ua_ip ra)) (sv_port s) data], HRet (Ok tt)))
    /\ separated 0 ps /\ (forall x, covered ps x <-> x ∈ a_held a) /\ length ps = size (run_starts (a_held a))
    /\ parse (udp_buffer 1024 data) = Ok (DiscResp ip (u16_of_int (sv_port s)) reqid (flatten (take (length ps mod 128) ps))).
Proof.
  intros H1 H2 H3 H4 H5 H6 H7 H8 H9. destruct (C58_lemma _ _ _ _ _ _ _ ra _ _ _ _ _ _ H1 H2 H3 H4 H5 H6 H7 H8 H9) as (s' & data & ps & G1 & G2 & G3 & G4).
  exists s', data, ps. split_and!; try done. by apply runs_count.
Qed.
Lemma C58_partial_lemma cwd dir dl A s f e ra buffer reqid h a addrs ip :
  srv_reached cwd dir dl A s f -> en_ifs e = Some addrs -> Forall if_wf addrs -> own_address addrs ip ->
  en_wok e = true -> parse buffer = Ok (DiscReq reqid h []) -> h <> blank -> A !! h = Some a -> (a_count a <= 65536)%Z ->
  size (run_starts (a_held a)) < 128 -> a_held a <> ∅ ->
  exists s' data cs, run f (handle_message e s buffer ra) =
      (f, Done (s', [mkDgram (slice_bytes (ua_ip ra)) (sv_port s) data], HRet (Ok tt)))
    /\ parse (udp_buffer 1024 data) = Ok (DiscResp ip (u16_of_int (sv_port s)) reqid cs)
    /\ cs <> [] /\ exists ps, cs = flatten ps /\ separated 0 ps /\ forall x, covered ps x <-> x ∈ a_held a.
Proof.
  intros H1 H2 H3 H4 H5 H6 H7 H8 H9 Hlt Hne. destruct (C58_srv_lemma _ _ _ _ _ _ _ ra _ _ _ _ _ _ H1 H2 H3 H4 H5 H6 H7 H8 H9) as (s' & data & ps & G1 & G2 & G3 & G4 & G5).
  rewrite Nat.mod_small, take_ge in G5 by lia. exists s', data, (flatten ps). split; [done|]. split; [done|]. split; [|by exists ps].
  apply set_choose_L in Hne as [x Hx]. apply G3 in Hx. destruct ps as [|[p q] ps]; [|done].
  exfalso. revert Hx. unfold covered. set_solver.
Qed.
Lemma C58_refuted_lemma :
  exists A s f a e ra buffer data s' reqid,
    srv_reached ex_cwd ex_dir ex_dl A s f /\ A !! hnew = Some a /\ size (a_held a) = 128
    /\ parse buffer = Ok (DiscReq reqid hnew [])
    /\ run f (handle_message e s buffer ra) = (f, Done (s', [mkDgram (slice_bytes (ua_ip ra)) (sv_port s) data], HRet (Ok tt)))
    /\ parse (udp_buffer 1024 data) = Ok (DiscResp ex_own (u16_of_int (sv_port s)) reqid []).
Proof.
  destruct ex_frag as (A & c & f & a & Hre & Ha & Hc & Hs & Hr).
  set (buffer := udp_buffer 1024 (serialize (DiscReq 7 hnew []))).
  assert (parse buffer = Ok (DiscReq 7 hnew [])) as Hp.
  { subst buffer. rewrite buffer_parse; [done| |cbn; tauto|]; [split_and!; [done|apply hnew_wf|constructor]|].
    rewrite serialize_length by (split_and!; [done|apply hnew_wf|constructor]). cbn. lia. }
  destruct (C58_srv_lemma ex_cwd ex_dir ex_dl A (new_server 61696 c) f (ex_env []) ex_peer buffer 7 hnew a ex_ifs ex_own)
    as (s' & data & ps & G1 & _ & _ & G4 & G5); [by apply sr_start|done|apply ex_ifs_wf|apply ex_own_address|done|done| |done|lia|].
  { intros E. apply (f_equal (hd x00)) in E. revert E. vm_compute. done. }
  exists A, (new_server 61696 c), f, a, (ex_env []), ex_peer, buffer, data, s', 7%N. split; [by apply sr_start|]. split_and!; try done.
  rewrite G5, G4, Hr. done.
Qed.
Lemma C58_case_lemma : exists A c f a, reached ex_cwd ex_dir ex_dl A c f /\ A !! hnew = Some a /\ a_held a <> ∅
  /\ size (run_starts (a_held a)) < 128 /\ (a_count a <= 65536)%Z.
Proof.
  exists A3, ex3.1.1, ex3.1.2, (hold entry_new 1). split; [apply ex3_reached|]. split; [apply A3_new|].
  split; [|split; [apply Nat.ltb_lt; vm_compute; reflexivity|vm_compute; discriminate]]. intros E.
  apply (f_equal (fun X : gset N => size X)) in E. revert E. vm_compute. done.
Qed.
(** *** C59, C60 *)
Lemma C59_srv_lemma cwd dir dl A s f e ra buffer reqid h :
  srv_reached cwd dir dl A s f -> NoDup (en_order e) -> (forall k, k ∈ en_order e <-> A !! k <> None) ->
  en_wok e = true -> parse buffer = Ok (ListReq reqid h) -> h = blank \/ A !! h <> None ->
  exists s' es, run f (handle_message e s buffer ra) =
      (f, Done (s', [mkDgram (slice_bytes (ua_ip ra)) (ua_port ra) (serialize (ListResp reqid es))], HRet (Ok tt)))
    /\ Forall2 (fun en k => exists a, A !! k = Some a /\ describes en k a) es (if decide (h = blank) then en_order e else [h]).
Proof.
  intros Hsr H1 H2 H3 H4 H5. destruct (srv_inv _ _ _ _ _ _ Hsr) as (H & _ & _).
  destruct (C59_lemma _ _ _ _ _ _ _ ra _ _ _ H H1 H2 H3 H4 H5) as (s' & cs & G1 & G2 & _). eauto.
Qed.
Lemma C59_srv_refuted_lemma cwd dir dl A s f e ra buffer reqid h :
  srv_reached cwd dir dl A s f -> parse buffer = Ok (ListReq reqid h) -> h <> blank -> A !! h = None ->
  exists w, run f (handle_message e s buffer ra) = (f, Died w).
Proof.
  intros Hsr. destruct (srv_inv _ _ _ _ _ _ Hsr) as (H & _ & _). by eapply C59_refuted_lemma.
Qed.
Lemma order_length (A : astate) order : NoDup order -> (forall k, k ∈ order <-> A !! k <> None) -> length order = size A.
Proof.
  intros Hnd Hin. rewrite <- size_dom. assert (dom A = list_to_set order) as ->; [|rewrite size_list_to_set by done; done].
  apply set_eq. intros k. rewrite elem_of_dom, elem_of_list_to_set, Hin. symmetry. apply not_eq_None_Some.
Qed.
Lemma entries_size_high es : entries_size es <= 296 * length es.
Proof. induction es as [|en es IH]; [done|]. cbn [entries_size length]. pose proof (Nat.le_min_l 255 (length (e_name en))). generalize dependent (Nat.min 255 (length (e_name en))). intros. lia. Qed.
Lemma C60_partial_lemma cwd dir dl A s f e ra buffer reqid :
  srv_reached cwd dir dl A s f -> NoDup (en_order e) -> (forall k, k ∈ en_order e <-> A !! k <> None) ->
  en_wok e = true -> parse buffer = Ok (ListReq reqid blank) -> size A <= 3 ->
  exists s' data es, run f (handle_message e s buffer ra) =
      (f, Done (s', [mkDgram (slice_bytes (ua_ip ra)) (ua_port ra) data], HRet (Ok tt)))
    /\ Forall2 (fun en k => exists a, A !! k = Some a /\ describes en k a) es (en_order e)
    /\ listing_received (Some data) = Ok (map cut_name es).
Proof.
  intros Hsr Hnd Hin Hwok Hp Hsz.
  destruct (C60_lemma cwd dir dl A s f e ra buffer reqid Hsr Hnd Hin Hwok Hp ltac:(lia)) as (s' & data & es & Hr & HF & Hd).
  exists s', data, es. split; [done|]. split; [done|]. rewrite decide_True in Hd; [done|].
  pose proof (entries_size_high es). rewrite (Forall2_length _ _ _ HF), (order_length _ _ Hnd Hin) in *. lia.
Qed.
Lemma C60_case_lemma :
  (exists A c f, reached ex_cwd ex_dir ex_dl A c f /\ size A = 25 /\ forall k, A !! k <> None -> k <> blank)
  /\ size A3 <= 3
  /\ match ex_sent ex_srv (ListReq 9 blank) with
     | Some [data] =>
         match listing_received (Some data) with
         | Ok es => bool_decide (map (fun en => (e_size en, e_count en, e_chunk en, e_down en, e_hash en, e_name en)) es
                      = [(5, 2, 3, 1, hnew, bs "new"); (3, 1, 4194304, 1, habc, bs "a")]%N)
         | _ => false
         end
     | _ => false
     end = true.
Proof.
  split; [|split].
  - destruct (ex_many 25 ltac:(lia)) as (A & c & f & H1 & H2 & H3). exists A, c, f. split; [done|]. split; [done|].
    intros k Hk. destruct (H3 k Hk) as (i & _ & ->). intros E. apply (f_equal (hd x00)) in E. revert E. done.
  - rewrite <- (order_length A3 [hnew; habc]); [apply Nat.leb_le; reflexivity|apply ex_order..].
  - vm_compute. reflexivity.
Qed.
(** *** C62 *)
Lemma selected_unique own resps l l' : selected (good own) resps l -> selected (good own) resps l' -> l = l'.
Proof.
  intros H. revert l'. induction H as [|x xs l Hx _ IH|x xs l Hx _ IH]; intros l' H'; inversion H'; subst; try done.
  - f_equal. auto.
  - auto.
Qed.
(** *** C71 *)
Lemma two_peers U h1 h2 : dom (u_hs U) = {[1; 2]} -> u_hs U !! 1 = Some h1 -> u_hs U !! 2 = Some h2 -> uh_key h1 <> uh_key h2 -> distinct_peers U.
Proof.
  intros Hd H1 H2 Hne j j' h h' Hj Hj' Hk.
  assert (j ∈ dom (u_hs U)) as Dj by (apply elem_of_dom; eauto). assert (j' ∈ dom (u_hs U)) as Dj' by (apply elem_of_dom; eauto).
  rewrite Hd in Dj, Dj'. assert (j = 1 \/ j = 2) as [-> | ->] by (clear -Dj; set_solver); assert (j' = 1 \/ j' = 2) as [-> | ->] by (clear -Dj'; set_solver);
    rewrite ?H1, ?H2 in *; congruence.
Qed.
Lemma C71_case_lemma : exists U h1 h2, u_reached U /\ distinct_peers U /\ u_hs U !! 1 = Some h1 /\ u_hs U !! 2 = Some h2
  /\ uh_pc h1 = UEnd (Ok (0%N, sha1 (bs "ab") ++ [x00; x00; x00; x02] ++ bs "ab"))
  /\ uh_pc h2 = UEnd (Ok (0%N, sha1 (bs "c") ++ [x00; x00; x00; x01] ++ bs "c")).
Proof.
  set (key1 := (ex_own, 1%N)). set (key2 := (ex_own, 2%N)).
  assert (key1 <> key2) as Hkk by done.
  destruct (kickstart_at (bs "abc") 2 0 (new_sender (FRegular (bs "abc")) (rd_at (bs "abc") 2 0 0) 1%N) (sha1 (bs "ab")) 2 true ltac:(lia) ltac:(lia)) as (u1 & Hk1 & _).
  { split; [done|]. exists 0. split; [done|]. lia. }
  { apply sha1_length. }
  { lia. }
  destruct (kickstart_at (bs "abc") 2 1 (new_sender (FRegular (bs "abc")) (rd_at (bs "abc") 2 1 0) 1%N) (sha1 (bs "c")) 1 true ltac:(lia) ltac:(lia)) as (u2 & Hk2 & _).
  { split; [done|]. exists 0. split; [done|]. lia. }
  { apply sha1_length. }
  { lia. }
  eexists _, _, _. split.
  - eapply rtc_r; [eapply rtc_r; [eapply rtc_r; [eapply rtc_r; [exact (two_requests key1 key2 (bs "abc") 2 0 1 1%N ltac:(lia) ltac:(lia) ltac:(lia))|]|]|]|].
    + eapply (us_insert _ 1 _ 1); cbn; [rewrite lookup_insert_ne by done; apply lookup_insert|done|apply lookup_empty].
    + eapply (us_insert _ 2 _ 2); cbn; [rewrite lookup_insert_ne by done; apply lookup_insert|done|rewrite lookup_insert_ne by done; apply lookup_empty].
    + eapply (us_kick _ 1); cbn; [rewrite lookup_insert_ne by done; apply lookup_insert|done|rewrite lookup_insert_ne by done; apply lookup_insert|rewrite lookup_insert_ne by done; apply lookup_insert|exact Hk1].
    + eapply (us_kick _ 2); cbn; [rewrite lookup_insert_ne by done; apply lookup_insert|done|apply lookup_insert|rewrite lookup_insert_ne by done; apply lookup_insert|exact Hk2].
  - split; [|split; [cbn; rewrite lookup_insert_ne by done; apply lookup_insert|split; [cbn; apply lookup_insert|split; reflexivity]]].
    eapply two_peers; [cbn [u_hs]; rewrite !dom_insert_L; clear; set_solver|cbn; rewrite lookup_insert_ne by done; apply lookup_insert|cbn; apply lookup_insert|exact Hkk].
Qed.
