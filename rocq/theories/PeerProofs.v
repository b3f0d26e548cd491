(** Proofs about two daemons. *)
From Verif Require Import SysProofs.
From Verif Require Export PeerSpec DownloadProofs4.
From Coq Require Import ZifyBool ZifyNat ZifyN.
Ltac Zify.zify_post_hook ::= Z.div_mod_to_equations.

Lemma first_request cwd dir dl A s f e buffer h a l i ra ip :
  let cs := Z.to_nat (a_chunk a) in let key := (ip, u16_of_int (ua_port ra)) in
  srv_reached cwd dir dl A s f ->
  parse buffer = Ok (OpenReq h i 1024) -> A !! h = Some a -> i ∈ a_held a ->
  file_at f (a_path a) = Some l -> length l < en_fuel e -> from_ipv4 ra ip -> en_wok e = true ->
  sv_uploads s !! key = None ->
  exists s' u p adr port, run f (handle_message e s buffer ra) = (f, Done (s', [mkDgram adr port (wire p)], HRet (Ok tt)))
    /\ sv_uploads s' !! key = Some u
    /\ ystart l cs (N.to_nat i) 1024 (mkSys u [p] 0 (RRun new_recv)).
Proof.
  intros cs key Hsr Hp Ha Hh Hl Hfuel Hip Hw Hk.
  destruct (srv_inv _ _ _ _ _ _ Hsr) as (H & _ & _). destruct (parse_typed _ _ Hp) as [(_ & Hi & _) _].
  destruct (entry_facts _ _ _ _ _ _ _ _ H Ha) as (F1 & F2 & F3 & F4).
  assert (Z.of_nat cs < 4294967296)%Z as Hcs by (subst cs; lia).
  assert (Z.of_nat (N.to_nat i) < 65536)%Z as Hi' by (unfold u16 in Hi; lia).
  set (B := chunk_bytes l cs (N.to_nat i)).
  destruct (start_upload_run cwd dir dl A s f e h a l i 1024 ra ip (new_sender (FRegular l) (rd_at l cs (N.to_nat i) 0) 1024) l cs (N.to_nat i))
    as (s' & u' & Hu & Hup & Hre & _ & _ & Hrun); try done.
  { unfold up_key. fold key. rewrite Hk. done. }
  { split; [done|]. exists 0. split; [done|]. lia. }
  fold cs in Hu, Hrun. fold B in Hu, Hrun. fold key in Hup. unfold handle_message. rewrite Hp. rewrite Hrun, Hw.
  exists s', u', (stream (sha1 B) B 0). do 2 eexists. split; [reflexivity|]. split; [rewrite Hup; apply lookup_insert|].
  destruct (reader_exists l cs (N.to_nat i) Hcs Hi') as [fuel Hf].
  pose proof (kickstart_eq l cs (N.to_nat i) Hcs 1024%N) as Hke.
  change (cr_hash (rd_at l cs (N.to_nat i) 0)) with (sha1 B) in Hke.
  change (cr_size (rd_at l cs (N.to_nat i) 0)) with (Z.of_nat (length B)) in Hke.
  rewrite Hw, Hke in Hu. cbn [fst] in Hu. subst u'. exists fuel. do 3 eexists. split; [exact Hf|]. split; [exact Hke|]. reflexivity.
Qed.
Lemma ack_run e s f ra ip off u : from_ipv4 ra ip -> u32 off -> sv_uploads s !! (ip, u16_of_int (ua_port ra)) = Some u ->
  run f (handle_message e s (udp_buffer 1024 (serialize (Ack off))) ra) =
    (f, Done (set_upload s (ip, u16_of_int (ua_port ra)) (set_acks u (S (sd_acks u))), [], HRet (Ok tt))).
Proof.
  intros (lip & Hra & Hip) Hoff Hu. unfold handle_message. rewrite buffer_parse; [|done|by intros []|vm_compute; lia].
  cbn [wire_view]. unfold continue_upload, on_ret. rewrite Hra. rewrite (proj1 (C66_lemma lip) ip Hip). rewrite Hu. done.
Qed.

Section link.
  Context (cwd dir dl : path) (A : astate) (e : env) (f : fs) (ra : udp_addr) (ip : list byte) (Hip : from_ipv4 ra ip).
  Local Notation key := (ip, u16_of_int (ua_port ra)).
  Context (l : list byte) (cs i : nat) (Hcs : (Z.of_nat cs < 4294967296)%Z) (Hi : (Z.of_nat i < 65536)%Z).
  Notation B := (chunk_bytes l cs i).
  Notation pk := (stream (sha1 (chunk_bytes l cs i)) (chunk_bytes l cs i)).
  Context (HBne : B <> []).
  Local Notation cap := 1024%N.
  Definition ksim (K : link) (Y : sys) : Prop :=
    sv_uploads (k_srv K) !! key = Some (y_sender Y) /\ k_down K = map wire (y_data Y)
    /\ (exists offs, k_up K = map (fun o => serialize (Ack o)) offs /\ length offs = y_ups Y /\ Forall u32 offs)
    /\ k_recv K = y_recv Y /\ exists r, yinv l cs i cap r Y.
  Lemma wire_pk k : parse_data (udp_clipped 1029 (wire (pk k))) = Ok (pk k).
  Proof.
    destruct (pk_typed (sha1 B) B) with (k := k) as [H1 H2]; [apply sha1_length|pose proof (B_len l cs i); lia|].
    unfold wire. rewrite parse_data_ser by (done || lia). rewrite <- surjective_pairing. done.
  Qed.
  Lemma head_pk Y p d : (exists r, yinv l cs i cap r Y) -> y_data Y = p :: d -> exists k, p = pk k.
  Proof. intros (r & m & n & _ & _ & _ & Hd & _) E. rewrite E in Hd. apply (data_cons l cs i cap ltac:(done)) in Hd as (-> & _). eauto. Qed.
  (** the link follows the transfer *)
  Lemma ksim_fwd K K' Y : ksim K Y -> kstep e f ra key K K' -> exists Y', ystep Y Y' /\ ksim K' Y'
    /\ ((exists p, y_data Y = p :: y_data Y' /\ k_down K = wire p :: k_down K')
        \/ (exists ps, y_data Y' = y_data Y ++ ps /\ k_down K' = k_down K ++ map wire ps)).
  Proof.
    intros (Hu & Hd & (offs & Hup & Hlen & Hoffs) & Hr & Hinv) Hs. destruct Y as [y d u x]. cbn [y_sender y_data y_ups y_recv] in *.
    assert (forall Y', ystep (mkSys y d u x) Y' -> exists r, yinv l cs i cap r Y') as Hnext.
    { intros Y' HY. destruct Hinv as (r & Hinv). destruct (ystep_inv l cs i Hcs cap ltac:(done) HBne r _ Y' Hinv HY) as (r' & ? & _). eauto. }
    destruct Hs as [s u0 v u' ps dn up r Hk Hv Hst|s m dn up r s' ds z Hrun|s m p dn up r r' Hp Hrec|s m p dn up r buf ok Hp Hrec|s m dn up r w Hp];
      cbn [k_srv k_down k_up k_recv] in *.
    - rewrite Hu in Hk. simplify_eq. eexists. assert (ystep (mkSys u0 d (length offs) x) (mkSys u' (d ++ ps) (length offs) x)) as HY by (eapply ys_work; done).
      split; [exact HY|]. split.
      + split; [cbn [k_srv set_upload sv_uploads y_sender]; apply lookup_insert|]. cbn [k_down k_up k_recv y_data y_ups y_recv].
        split; [rewrite map_app; done|]. split; [eauto|]. split; [done|]. exact (Hnext _ HY).
      + right. exists ps. done.
    - destruct offs as [|o offs]; [done|]. injection Hup as -> ->. apply Forall_cons in Hoffs as [Ho Hoffs].
      change (ser_ack o) with (serialize (Ack o)) in Hrun. rewrite (ack_run e s f ra ip o y Hip Ho Hu) in Hrun. simplify_eq. cbn [length] in *.
      eexists. assert (ystep (mkSys y d (S (length offs)) x) (mkSys (set_acks y (S (sd_acks y))) d (length offs) x)) as HY by (apply ys_ack; done).
      split; [exact HY|]. split.
      + split; [cbn [k_srv set_upload sv_uploads y_sender]; apply lookup_insert|]. cbn [k_down k_up k_recv y_data y_ups y_recv].
        split; [cbn [map]; rewrite app_nil_r; done|]. split; [eauto|]. split; [done|]. exact (Hnext _ HY).
      + right. exists []. cbn [map y_data]. rewrite !app_nil_r. done.
    - destruct d as [|q d]; [done|]. injection Hd as -> ->. destruct (head_pk _ q d Hinv eq_refl) as (k & ->).
      rewrite wire_pk in Hp. simplify_eq.
      eexists. assert (ystep (mkSys y (pk k :: d) (length offs) (RRun r)) (mkSys y d (S (length offs)) (RRun r'))) as HY by (apply ys_more; done).
      split; [exact HY|]. split.
      + split; [done|]. split; [done|]. split; [|split; [done|exact (Hnext _ HY)]].
        exists (offs ++ [(pk k).1]). rewrite map_app, app_length. cbn [length y_ups]. split; [done|]. split; [lia|]. apply Forall_app. split; [done|].
        constructor; [|constructor]. apply pk_typed; [apply sha1_length|pose proof (B_len l cs i); lia].
      + left. exists (pk k). done.
    - destruct d as [|q d]; [done|]. injection Hd as -> ->. destruct (head_pk _ q d Hinv eq_refl) as (k & ->).
      rewrite wire_pk in Hp. simplify_eq.
      eexists. assert (ystep (mkSys y (pk k :: d) (length offs) (RRun r)) (mkSys y d (length offs) (RDone buf ok))) as HY by (apply ys_save; done).
      split; [exact HY|]. split.
      + split; [done|]. split; [done|]. split; [eauto|split; [done|exact (Hnext _ HY)]].
      + left. exists (pk k). done.
    - destruct d as [|q d]; [done|]. injection Hd as -> ->. destruct (head_pk _ q d Hinv eq_refl) as (k & ->).
      rewrite wire_pk in Hp. cbn [rbind] in Hp. simplify_eq.
      eexists. assert (ystep (mkSys y (pk k :: d) (length offs) (RRun r)) (mkSys y d (length offs) RCrash)) as HY by (eapply ys_crash; done).
      split; [exact HY|]. split.
      + split; [done|]. split; [done|]. split; [eauto|split; [done|exact (Hnext _ HY)]].
      + left. exists (pk k). done.
  Qed.
  Lemma ksim_bwd K Y Y' : ksim K Y -> ystep Y Y' -> exists K', kstep e f ra key K K'.
  Proof.
    intros (Hu & Hd & (offs & Hup & Hlen & Hoffs) & Hr & Hinv) Hs. destruct K as [s dn up x]. cbn [k_srv k_down k_up k_recv] in *.
    destruct Hs as [y v y' ps d n z Hv Hst|y y' d n z Hst|y p d n r r' Hrec|y p d n r buf ok Hrec|y p d n r w Hrec];
      cbn [y_sender y_data y_ups y_recv] in *; subst dn up.
    - eexists. eapply kk_work; done.
    - destruct offs as [|o offs]; [done|]. apply Forall_cons in Hoffs as [Ho _]. eexists. cbn [map]. eapply kk_msg. apply (ack_run e s f ra ip o y Hip Ho Hu).
    - destruct (head_pk _ p d Hinv eq_refl) as (k & ->). subst x. eexists. cbn [map]. eapply kk_more; [apply wire_pk|done].
    - destruct (head_pk _ p d Hinv eq_refl) as (k & ->). subst x. eexists. cbn [map]. eapply kk_save; [apply wire_pk|done].
    - destruct (head_pk _ p d Hinv eq_refl) as (k & ->). subst x. eexists. cbn [map]. eapply kk_crash. rewrite wire_pk. cbn [rbind]. done.
  Qed.
  Lemma ksim_trace K ms K' Y : ksim K Y -> ktrace cwd dir dl A e f ra key K ms K' ->
    exists ps Y', ytrace Y ps Y' /\ ms = map wire ps /\ ksim K' Y'.
  Proof.
    intros HK HT. revert Y HK.
    induction HT as [a|a a' m ms b Hs Hd _ IH|a a' more ms b Hs Hd _ IH|s s' d up r ms b Hsr Hk _ IH]; intros Y HK.
    - exists [], Y. split; [constructor|done].
    - destruct (ksim_fwd a a' Y HK Hs) as (Y' & HY & HK' & [(p & Hp & Hkd)|(ps & Hp & Hkd)]); [|exfalso; eapply not_both; done].
      destruct (IH Y' HK') as (ps & Y2 & HT & -> & HK2). rewrite Hd in Hkd. simplify_eq.
      exists (p :: ps), Y2. split; [eapply yt_take; done|done].
    - destruct (ksim_fwd a a' Y HK Hs) as (Y' & HY & HK' & [(p & Hp & Hkd)|(ps & Hp & Hkd)]); [exfalso; eapply not_both; done|].
      destruct (IH Y' HK') as (qs & Y2 & HT & -> & HK2). exists qs, Y2. split; [eapply yt_other; done|done].
    - apply IH. destruct HK as (Hu & HK). cbn [k_srv] in Hu. split; [cbn [k_srv]; congruence|exact HK].
  Qed.
  (** before the request is handled *)
  Lemma ktrace_open h a s b ms m0 (Ha : A !! h = Some a) (Hch : a_chunk a = Z.of_nat cs) (Hh : N.of_nat i ∈ a_held a)
    (Hl : file_at f (a_path a) = Some l) (Hfuel : length l < en_fuel e) (Hw : en_wok e = true)
    (Hm0 : parse (udp_buffer 1024 m0) = Ok (OpenReq h (N.of_nat i) 1024)) :
    srv_reached cwd dir dl A s f -> sv_uploads s !! key = None ->
    ktrace cwd dir dl A e f ra key (mkLink s [] [m0] (RRun new_recv)) ms b -> (forall c, ~ kstep e f ra key b c) ->
    exists K Y, ystart l cs i cap Y /\ ksim K Y /\ ktrace cwd dir dl A e f ra key K ms b.
  Proof.
    assert (forall s, srv_reached cwd dir dl A s f -> sv_uploads s !! key = None ->
      exists s' u p adr port, run f (handle_message e s (udp_buffer 1024 m0) ra) = (f, Done (s', [mkDgram adr port (wire p)], HRet (Ok tt)))
        /\ sv_uploads s' !! key = Some u /\ ystart l cs i cap (mkSys u [p] 0 (RRun new_recv))) as Hfirst.
    { intros s1 H1 H2. destruct (first_request cwd dir dl A s1 f e _ h a l (N.of_nat i) ra ip H1 Hm0 Ha Hh Hl Hfuel Hip Hw H2)
        as (s' & u & p & adr & port & G1 & G2 & G3). rewrite Hch in G3. do 5 eexists. split; [exact G1|]. split; [exact G2|].
      replace (N.to_nat (N.of_nat i)) with i in G3 by lia. replace (Z.to_nat (Z.of_nat cs)) with cs in G3 by lia. exact G3. }
    intros Hsr Hk HT Hend. remember (mkLink s [] [m0] (RRun new_recv)) as K0 eqn:EK. revert s Hsr Hk EK.
    induction HT as [a0|a0 a' m ms b Hs Hd HT IH|a0 a' more ms b Hs Hd HT IH|s0 s' d up r ms b Hsr0 Hk0 HT IH]; intros s Hsr Hk EK.
    - exfalso. subst a0. destruct (Hfirst s Hsr Hk) as (s' & u & p & adr & port & G1 & _). eapply Hend. eapply kk_msg. exact G1.
    - exfalso. subst a0. cbn [k_down] in Hd. done.
    - subst a0. inversion Hs as [? u v u' ps ? ? ? Hu|? ? ? ? ? s' ds x Hrun| | |]; subst.
      + congruence.
      + destruct (Hfirst s Hsr Hk) as (s2 & u & p & adr & port & G1 & G2 & G3). rewrite G1 in Hrun. simplify_eq.
        eexists _, _. split; [exact G3|]. split; [|exact HT].
        split; [exact G2|]. split; [done|]. split; [exists []; done|]. split; [done|].
        apply (ystart_inv l cs i Hcs Hi cap) in G3 as [G3 _]; [|done]. eauto.
    - simplify_eq. apply (IH Hend s'); [done|congruence|done].
  Qed.
  Lemma ktrace_delivered h a s b ms m0 : A !! h = Some a -> a_chunk a = Z.of_nat cs -> N.of_nat i ∈ a_held a ->
    file_at f (a_path a) = Some l -> length l < en_fuel e -> en_wok e = true ->
    parse (udp_buffer 1024 m0) = Ok (OpenReq h (N.of_nat i) 1024) ->
    srv_reached cwd dir dl A s f -> sv_uploads s !! key = None ->
    ktrace cwd dir dl A e f ra key (mkLink s [] [m0] (RRun new_recv)) ms b -> (forall c, ~ kstep e f ra key b c) ->
    delivered l cs i ms.
  Proof.
    intros Ha Hch Hh Hl Hfuel Hw Hm0 Hsr Hk HT Hend.
    destruct (ktrace_open h a s b ms m0 Ha Hch Hh Hl Hfuel Hw Hm0 Hsr Hk HT Hend) as (K & Y & HY & HK & HT').
    destruct (ksim_trace K ms b Y HK HT') as (ps & Y' & HY' & -> & HK'). exists l, Y, ps, Y'. split; [done|]. split; [done|]. split; [done|]. split; [|done].
    intros c Hc. destruct (ksim_bwd b Y' c HK' Hc) as (K2 & HK2). exact (Hend K2 HK2).
  Qed.
  Lemma ktrace_end n : forall K Y, ksim K Y -> (forall m Y', nsteps ystep m Y Y' -> m <= n) ->
    exists ms b, ktrace cwd dir dl A e f ra key K ms b /\ forall c, ~ kstep e f ra key b c.
  Proof.
    induction n as [|n IH]; intros K Y HK Hn; destruct (ystep_dec Y) as [(Y1 & HY1)|Hno].
    - exfalso. specialize (Hn 1 Y1 (nsteps_once _ _ HY1)). lia.
    - exists [], K. split; [constructor|]. intros c Hc. destruct (ksim_fwd K c Y HK Hc) as (Y' & HY & _). exact (Hno Y' HY).
    - destruct (ksim_bwd K Y Y1 HK HY1) as (K1 & HK1). destruct (ksim_fwd K K1 Y HK HK1) as (Y' & HY & HK' & Hd).
      destruct (IH K1 Y' HK') as (ms & b & HT & Hend).
      { intros m Y2 H2. specialize (Hn (S m) Y2 (nsteps_l _ _ _ _ _ HY H2)). lia. }
      destruct Hd as [(p & _ & Hd)|(ps & _ & Hd)].
      + exists (wire p :: ms), b. split; [eapply kt_take; done|done].
      + exists ms, b. split; [eapply kt_other; done|done].
    - exists [], K. split; [constructor|]. intros c Hc. destruct (ksim_fwd K c Y HK Hc) as (Y' & HY & _). exact (Hno Y' HY).
  Qed.
  Lemma ktrace_exists h a s m0 : A !! h = Some a -> a_chunk a = Z.of_nat cs -> N.of_nat i ∈ a_held a ->
    file_at f (a_path a) = Some l -> length l < en_fuel e -> en_wok e = true ->
    parse (udp_buffer 1024 m0) = Ok (OpenReq h (N.of_nat i) 1024) ->
    srv_reached cwd dir dl A s f -> sv_uploads s !! key = None ->
    exists ms b, ktrace cwd dir dl A e f ra key (mkLink s [] [m0] (RRun new_recv)) ms b /\ forall c, ~ kstep e f ra key b c.
  Proof.
    intros Ha Hch Hh Hl Hfuel Hw Hm0 Hsr Hk.
    destruct (first_request cwd dir dl A s f e _ h a l (N.of_nat i) ra ip Hsr Hm0 Ha Hh Hl Hfuel Hip Hw Hk)
        as (s' & u & p & adr & port & G1 & G2 & G3). rewrite Hch in G3.
    replace (N.to_nat (N.of_nat i)) with i in G3 by lia. replace (Z.to_nat (Z.of_nat cs)) with cs in G3 by lia.
    assert (ksim (mkLink s' [wire p] [] (RRun new_recv)) (mkSys u [p] 0 (RRun new_recv))) as HK.
    { split; [exact G2|]. split; [done|]. split; [exists []; done|]. split; [done|].
      pose proof (ystart_inv l cs i Hcs Hi cap) as Hx. apply Hx in G3 as [G3 _]; [|done]. eauto. }
    destruct (ktrace_end (3 * first_empty B + 4) _ _ HK) as (ms & b & HT & Hend).
    { intros m Y' Hm. exact (bounded_lemma l cs i Hcs Hi cap ltac:(done) HBne _ Y' _ G3 Hm). }
    exists ms, b. split; [|done]. eapply kt_other; [eapply kk_msg; exact G1| |exact HT]. done.
  Qed.
End link.

Lemma ceil_div_nat n cs : 0 < cs -> ceil_div (Z.of_nat n) (Z.of_nat cs) = Z.of_nat ((n + cs - 1) / cs).
Proof. intros H. unfold ceil_div. rewrite Nat2Z.inj_div. f_equal. lia. Qed.
Lemma run_starts_below n : size (run_starts (all_below n)) <= 1.
Proof.
  assert (run_starts (all_below n) ⊆ {[0%N]}) as H.
  { intros x Hx. unfold run_starts in Hx. apply elem_of_filter in Hx as [[->|Hx] Hin]; [set_solver|].
    exfalso. apply Hx. apply elem_of_all_below. apply elem_of_all_below in Hin. lia. }
  apply subseteq_size in H. rewrite size_singleton in H. exact H.
Qed.

Lemma parse_open h i : hash_wf h -> u16 i -> parse (udp_buffer 1024 (serialize (OpenReq h i 1024))) = Ok (OpenReq h i 1024).
Proof.
  intros Hwf Hi. assert (msg_typed (OpenReq h i 1024)) as Ht by (split; [done|]; split; [done|unfold u16; lia]).
  rewrite buffer_parse; [done|done|by intros []|]. rewrite serialize_length by done. cbn [wire_size]. lia.
Qed.
Lemma parse_disc_req r h : hash_wf h -> u16 r -> parse (udp_buffer 1024 (serialize (DiscReq r h []))) = Ok (DiscReq r h []).
Proof.
  intros Hwf Hi. assert (msg_typed (DiscReq r h [])) as Ht by (split; [done|]; split; [done|constructor]).
  rewrite buffer_parse; [done|done|by intros []|]. rewrite serialize_length by done. cbn [wire_size length]. lia.
Qed.
Lemma parse_list_req r h : hash_wf h -> u16 r -> parse (udp_buffer 1024 (serialize (ListReq r h))) = Ok (ListReq r h).
Proof.
  intros Hwf Hi. assert (msg_typed (ListReq r h)) as Ht by (split; done).
  rewrite buffer_parse; [done|done|by intros []|]. rewrite serialize_length by done. cbn [wire_size]. lia.
Qed.

Section peer.
  Context (h : hash) (content : list byte) (cs : nat) (name host : list byte) (port : N).
  Context (Hport : u16 port) (Hne : content <> []) (Hblank : h <> blank).
  Notation count := ((length content + cs - 1) / cs).
  Context (Hmax : (Z.of_nat count <= 65536)%Z).

  Lemma shares_facts M s : shares M h content cs name host -> is_up M s port ->
    hash_wf h /\ (0 < Z.of_nat cs < 4294967296)%Z /\ (Z.of_nat (length content) < 9223372036854775808)%Z.
  Proof.
    intros (d & addrs & Ha & _) [Hsr _]. destruct (srv_inv _ _ _ _ _ _ Hsr) as (Hre & _).
    destruct (entry_facts _ _ _ _ _ _ _ _ Hre Ha) as (F1 & F2 & F3 & F4). cbn [full_entry a_size a_chunk] in *. split; [done|]. split; [done|]. lia.
  Qed.
  Lemma fetched_delivered M i ds : shares M h content cs name host -> (Z.of_N i < Z.of_nat count)%Z -> fetched M port h i ds ->
    delivered content cs (N.to_nat i) ds.
  Proof.
    intros HM Hi (s & ra & ip & b & Hrun & Hip & Hk & HT & Hend). destruct (shares_facts M s HM Hrun) as (Hwf & Hcs & _).
    destruct HM as (d & addrs & Ha & Hsl & Hf & Hfuel & _ & _ & _ & Hw & _). destruct Hrun as [Hsr _].
    eapply (ktrace_delivered (rm_cwd M) (rm_dir M) (rm_dl M) (rm_A M) (rm_env M) (rm_fs M) ra ip Hip content cs (N.to_nat i));
      [lia|lia| |exact Ha|done| |exact Hf|exact Hfuel|exact Hw| |exact Hsr|exact Hk|exact HT|exact Hend].
    - apply chunk_nonempty; lia.
    - cbn [full_entry a_held]. apply elem_of_all_below. rewrite ceil_div_nat by lia. lia.
    - rewrite N2Nat.id. apply parse_open; [done|unfold u16; lia].
  Qed.
  Lemma fetched_exists M s i ra ip : shares M h content cs name host -> is_up M s port -> from_ipv4 ra ip ->
    sv_uploads s !! (ip, u16_of_int (ua_port ra)) = None -> (Z.of_N i < Z.of_nat count)%Z -> exists ds, fetched M port h i ds.
  Proof.
    intros HM Hrun Hip Hk Hi. destruct (shares_facts M s HM Hrun) as (Hwf & Hcs & _).
    destruct HM as (d & addrs & Ha & Hsl & Hf & Hfuel & _ & _ & _ & Hw & _). pose proof Hrun as [Hsr _].
    destruct (ktrace_exists (rm_cwd M) (rm_dir M) (rm_dl M) (rm_A M) (rm_env M) (rm_fs M) ra ip Hip content cs (N.to_nat i)
      ltac:(lia) ltac:(lia) (chunk_nonempty content cs (N.to_nat i) ltac:(lia) ltac:(lia)) h _ s (serialize (OpenReq h i 1024)) Ha) as (ms & b & HT & Hend).
    - done.
    - cbn [full_entry a_held]. apply elem_of_all_below. rewrite ceil_div_nat by lia. lia.
    - exact Hf.
    - exact Hfuel.
    - exact Hw.
    - rewrite N2Nat.id. apply parse_open; [done|unfold u16; lia].
    - exact Hsr.
    - exact Hk.
    - exists ms, s, ra, ip, b. done.
  Qed.
  Lemma search_reply M s reqid ra : shares M h content cs name host -> is_up M s port -> u16 reqid ->
    exists data chunks, replies M s (serialize (DiscReq reqid h [])) ra data
      /\ parse (udp_buffer 1024 data) = Ok (DiscResp host port reqid chunks) /\ chunks <> [].
  Proof.
    intros HM Hrun Hq. destruct (shares_facts M s HM Hrun) as (Hwf & Hcs & _).
    destruct HM as (d & addrs & Ha & Hsl & Hf & Hfuel & Hifs & Hifw & Hown & Hw & Hnd & Hin). pose proof Hrun as [Hsr Hp].
    destruct (C58_partial_lemma _ _ _ _ s _ (rm_env M) ra (udp_buffer 1024 (serialize (DiscReq reqid h []))) reqid h (full_entry (d ++ slash :: name) (Z.of_nat (length content)) (Z.of_nat cs)) addrs host Hsr Hifs Hifw Hown Hw) as (s' & data & chunks & Hr & Hpar & Hcne & _).
    - by apply parse_disc_req.
    - done.
    - exact Ha.
    - cbn [full_entry a_count]. rewrite ceil_div_nat by lia. done.
    - cbn [full_entry a_held]. pose proof (run_starts_below (ceil_div (Z.of_nat (length content)) (Z.of_nat cs))). lia.
    - cbn [full_entry a_held]. intros E. assert (0%N ∈ all_below (ceil_div (Z.of_nat (length content)) (Z.of_nat cs))) as H0; [|set_solver].
      apply elem_of_all_below. rewrite ceil_div_nat by lia. destruct content; [done|]. cbn [length].
      assert (1 <= (S (length l) + cs - 1) / cs); [|lia]. apply Nat.div_le_lower_bound; lia.
    - exists data, chunks. split; [|split; [|exact Hcne]].
      + exists s'. do 2 eexists. exact Hr.
      + rewrite Hpar. do 2 f_equal. rewrite Hp. unfold u16_of_int, u16 in *. lia.
  Qed.
  Lemma found_good M own r resps : host <> own -> shares M h content cs name host -> found M port h r ->
    selected (fun x => h_addr x <> own) resps [r] -> selected (good own) resps [r] /\ h_addr r = host /\ h_port r = port.
  Proof.
    intros Hho HM (s & ra & data & Hrun & Hq & (s' & adr & p & Hrep) & Hpar) Hsel.
    destruct (search_reply M s (h_reqid r) ra HM Hrun Hq) as (data' & chunks & (s2 & adr2 & p2 & Hrep') & Hpar' & Hcne).
    rewrite Hrep' in Hrep. simplify_eq. rewrite Hpar' in Hpar. simplify_eq.
    split; [|done]. clear -Hsel Hcne Hho. 
    assert (forall x, x ∈ [r] -> h_chunks x <> []) as Hall.
    { intros x Hx. apply elem_of_list_singleton in Hx as ->. congruence. }
    clear Hcne. induction Hsel as [|x xs l Hx _ IH|x xs l Hx _ IH].
    - apply sel_nil.
    - apply sel_take; [split; [apply Hall; set_solver|done]|]. apply IH. set_solver.
    - apply sel_skip; [|apply IH; done]. intros [_ Hg]. exact (Hx Hg).
  Qed.
  Lemma described_entry M data : shares M h content cs name host -> described M port h data ->
    exists reqid en, u16 reqid /\ data = serialize (ListResp reqid [en]) /\ entry_typed en /\ e_hash en = h
      /\ Z.of_N (e_size en) = Z.of_nat (length content) /\ Z.of_N (e_chunk en) = Z.of_nat cs /\ e_name en = name.
  Proof.
    intros HM (s & ra & reqid & Hrun & Hq & s' & adr & p & Hrep). destruct (shares_facts M s HM Hrun) as (Hwf & Hcs & Hlen).
    destruct HM as (d & addrs & Ha & Hsl & Hf & Hfuel & Hifs & Hifw & Hown & Hw & Hnd & Hin). destruct Hrun as [Hsr _].
    destruct (C59_srv_lemma _ _ _ _ s _ (rm_env M) ra _ reqid h Hsr Hnd Hin Hw (parse_list_req reqid h Hwf Hq)) as (s2 & es & Hr & Hes).
    { right. rewrite Ha. done. }
    rewrite decide_False in Hes by done. rewrite Hr in Hrep. simplify_eq.
    inversion Hes as [|en k es' ks' (a & Ha' & D1 & D2 & D3 & D4 & D5 & D6 & d' & D7) Hrest]; subst.
    inversion Hrest; subst. rewrite Ha in Ha'. injection Ha' as <-. cbn [full_entry a_size a_chunk a_path] in *.
    exists reqid, en. split; [done|]. split; [done|]. split; [|split; [done|split; [done|split; [done|]]]].
    - unfold entry_typed, u64, u32. split; [lia|]. split; [|split; [lia|split; [|done]]].
      + pose proof (Z.mod_pos_bound (a_count (full_entry (d ++ slash :: name) (Z.of_nat (length content)) (Z.of_nat cs))) 4294967296 ltac:(lia)). lia.
      + pose proof (Z.mod_pos_bound (Z.of_nat (size (a_held (full_entry (d ++ slash :: name) (Z.of_nat (length content)) (Z.of_nat cs))))) 4294967296 ltac:(lia)). lia.
    - assert (forall (x y : list byte) u v, slash ∉ u -> slash ∉ v -> x ++ slash :: u = y ++ slash :: v -> v = u) as Hun.
      { clear. induction x as [|c x IH]; intros y u v Hu Hv E; destruct y as [|c' y]; cbn [app] in E; simplify_eq; [done| | |by eapply IH].
        - exfalso. apply Hu. set_solver.
        - exfalso. apply Hv. set_solver. }
      symmetry. exact (Hun _ _ _ _ D6 Hsl (eq_sym D7)) || exact (Hun _ _ _ _ Hsl D6 D7).
  Qed.
  Lemma one_peer_honest own (Hho : host <> own) pc resps dg : (forall i x hs, pc = LChunk i (x :: hs) -> (Z.of_N i < Z.of_nat count)%Z) ->
    one_peer own h content cs name host port pc resps dg -> honest own host port content cs pc resps dg.
  Proof.
    intros Hi. destruct pc as [| |i|i [|x hs]|]; cbn [one_peer honest]; try done.
    - intros (M & r & HM & Hfo & Hsel). exists r. exact (found_good M own r resps Hho HM Hfo Hsel).
    - intros (M & ds & HM & Hfe & ->). exists ds. split; [done|]. apply (fetched_delivered M); [done| |done]. by eapply Hi.
  Qed.

  Section loop.
    Context (dir own : path) (a0 : aentry) (old : list byte) (Hho : host <> own) (Hcs : 0 < cs).
    Context (Hcount : a_count a0 = Z.of_nat count) (Hpar : parent (a_path a0) <> dir).
    Context (Hfit : forall i, ~ ragged cs (chunk_bytes content cs i) \/ first_empty (chunk_bytes content cs i) <= 1024).
    Notation net := (one_peer own h content cs name host port).
    Notation inv := (hinv dir h host port content cs a0 old).

    Lemma peer_hinv n sent b resps dg : inv n sent b -> net (l_pc b) resps dg -> honest own host port content cs (l_pc b) resps dg.
    Proof.
      intros Hb. apply one_peer_honest; [done|]. intros i x hs E. destruct Hb as (A & a & _ & _ & _ & _ & _ & Hn & _ & _ & _ & _ & Hpc).
      rewrite E in Hpc. destruct hs; [|done]. destruct Hpc as (_ & (Hf & _) & _). lia.
    Qed.
    Lemma peer_step n sent b resps dg : inv n sent b -> l_pc b <> LDone -> net (l_pc b) resps dg ->
      exists c out, lstep own h resps dg b = Some (c, map (request host port h) out) /\ inv (S n) (sent ++ out) c.
    Proof.
      intros Hb Hnd Hnet. pose proof (peer_hinv _ _ _ _ _ Hb Hnet) as Hn.
      exact (hinv_step dir h own host port content cs a0 old Hcs Hcount ltac:(lia) Hpar (fit_bounded _ _ _ Hfit) n sent b resps dg Hb Hnd Hn).
    Qed.
    Lemma peer_exec a n out b : inv 0 [] a -> lexec own h net a n out b -> exists sent, out = map (request host port h) sent /\ inv n sent b.
    Proof.
      intros Ha. induction 1 as [a|a n out b resps dg out' c H IH Hnd Hnet Hst].
      - exists []. done.
      - destruct (IH Ha) as (sent & -> & Hb). destruct (peer_step n sent b resps dg Hb Hnd Hnet) as (c2 & out2 & E & Hc).
        rewrite Hst in E. simplify_eq. exists (sent ++ out2). split; [rewrite map_app; done|done].
    Qed.
    Lemma peer_possible M r s ra ip n sent b : shares M h content cs name host -> found M port h r -> is_up M s port -> from_ipv4 ra ip ->
      sv_uploads s !! (ip, u16_of_int (ua_port ra)) = None -> inv n sent b -> exists resps dg, net (l_pc b) resps dg.
    Proof.
      intros HM Hfo Hup Hip Hk Hb. destruct (l_pc b) as [| |i|i [|x hs]|] eqn:E; try (exists [], None; done).
      - exists [r], None. exists M, r. split; [done|]. split; [done|]. apply sel_take; [|apply sel_nil].
        destruct Hfo as (s0 & ra0 & data & Hrun & Hq & (s' & adr & p & Hrep) & Hpar').
        destruct (search_reply M s0 (h_reqid r) ra0 HM Hrun Hq) as (data' & chunks & (s2 & adr2 & p2 & Hrep') & Hpar2 & _).
        rewrite Hrep' in Hrep. simplify_eq. rewrite Hpar2 in Hpar'. simplify_eq. congruence.
      - destruct Hb as (A & a & _ & _ & _ & _ & _ & Hn & _ & _ & _ & _ & Hpc). rewrite E in Hpc. destruct hs; [|done].
        destruct Hpc as (_ & (Hf & _) & _). destruct (fetched_exists M s i ra ip HM Hup Hip Hk) as (ds & Hds); [lia|].
        exists [], (Some ds). exists M, ds. done.
    Qed.
    Lemma peer_completes M r s ra ip a : shares M h content cs name host -> found M port h r -> is_up M s port -> from_ipv4 ra ip ->
      sv_uploads s !! (ip, u16_of_int (ua_port ra)) = None -> inv 0 [] a -> exists n out b, lexec own h net a n out b /\ l_pc b = LDone.
    Proof.
      intros HM Hfo Hup Hip Hk Ha.
      assert (forall k, (exists n out b, lexec own h net a n out b /\ l_pc b = LDone) \/ exists out b, lexec own h net a k out b) as Hk2.
      { induction k as [|k [IH|(out & b & Hb)]]; [right; do 2 eexists; constructor|by left|].
        assert (l_pc b = LDone \/ l_pc b <> LDone) as [E|E] by (destruct (l_pc b); (by left) || (by right)); [left; eauto|]. destruct (peer_exec _ _ _ _ Ha Hb) as (sent & -> & Hi).
        destruct (peer_possible M r s ra ip k sent b HM Hfo Hup Hip Hk Hi) as (resps & dg & Hnet).
        destruct (peer_step _ _ _ _ _ Hi E Hnet) as (c & out' & Hst & _). right. do 2 eexists. eapply le_step; done. }
      destruct (Hk2 (5 * length (todo a0) + 2)) as [Hd|(out & b & Hb)]; [done|]. exfalso.
      destruct (peer_exec _ _ _ _ Ha Hb) as (sent & _ & Hi).
      destruct (hinv_bound dir h host port content cs a0 old Hcs Hcount (fit_bounded _ _ _ Hfit) _ _ _ Hi) as [Hle _]. lia.
    Qed.
  End loop.
End peer.

(** *** C87: one daemon downloads a file that another shares *)
Lemma C87_lemma cwd dir dl A c f h content cs name own host port ifs resps r M data :
  let p := join2 dl (take 255 name) in
  reached cwd dir dl A c f -> A !! h = None -> no_spare ifs -> own_address ifs own -> host <> own ->
  content <> [] -> h <> blank -> (length content + cs - 1) / cs <= N.to_nat 65536 -> u16 port ->
  normal_name (take 255 name) -> can_write f p -> parent dl <> dir ->
  (forall i, ~ ragged cs (chunk_bytes content cs i) \/ first_empty (chunk_bytes content cs i) <= 1024) ->
  shares M h content cs name host -> found M port h r -> selected (fun x => h_addr x <> own) resps [r] -> described M port h data ->
  let net := one_peer own h content cs name host port in
  exists c' f', run f (start_download (Some ifs) c h resps (Some data)) = (f', Done (c', Ok own))
    /\ (forall n out b, lexec own h net (mkL LCheck c' f' ∅) n out b ->
          n <= 5 * ((length content + cs - 1) / cs) + 1
          /\ (forall resps dg, l_pc b <> LDone -> net (l_pc b) resps dg -> is_Some (lstep own h resps dg b))
          /\ (l_pc b = LDone -> default [] (file_at (l_fs b) p) = content ++ drop (length content) (default [] (file_at f p))))
    /\ (forall s ra ip, is_up M s port -> from_ipv4 ra ip -> sv_uploads s !! (ip, u16_of_int (ua_port ra)) = None ->
          exists n out b, lexec own h net (mkL LCheck c' f' ∅) n out b /\ l_pc b = LDone).
Proof.
  intros p H Ha Hns Hown Hho Hne Hbl Hmax Hport Hname Hw Hdl Hfit HM Hfo Hsel Hdesc net.
  assert (Z.of_nat ((length content + cs - 1) / cs) <= 65536)%Z as Hmaxz by lia. clear Hmax.
  assert (exists s0, is_up M s0 port) as [s0 Hup0] by (destruct Hfo as (s0 & _ & _ & Hup & _); eauto).
  destruct (shares_facts h content cs name host port Hmaxz M s0 HM Hup0) as (Hwf & Hcs & Hlen).
  destruct (found_good h content cs name host port Hport Hne Hbl Hmaxz M own r resps Hho HM Hfo Hsel) as (Hgood & _).
  destruct (described_entry h content cs name host port Hbl Hmaxz M data HM Hdesc) as (reqid & en & Hq & -> & Ht & Hh & Hsz & Hch & Hnm).
  destruct (start_new_lemma cwd dir dl A c f h ifs own resps r [] reqid en H Ha Hns Hown Hgood Hq Ht Hh) as (c' & f' & Hrun & Hre & Hsu).
  { lia. }
  { lia. }
  { rewrite Hnm. done. }
  rewrite Hnm, Hsz, Hch in Hre. fold p in Hre.
  set (a := new_entry p (Z.of_nat (length content)) (Z.of_nat cs)) in *.
  pose proof (reached_synced _ _ _ _ _ _ H) as (_ & Hs0 & Hd0 & Hdl0).
  pose proof (reached_synced _ _ _ _ _ _ Hre) as (_ & Hs & Hd & _).
  assert (parent p = dl) as Hpp by (apply inside_normal; [rewrite <- Hdl0; apply (sy_dl _ _ _ Hs0)|done]).
  assert (parent p <> dir) as Hpar by (rewrite Hpp, <- Hd0, <- Hdl0; apply (sy_ne _ _ _ Hs0)).
  assert (f' !! p = f !! p) as Hfp by (apply Hsu; done).
  assert (can_write f' p) as Hw'.
  { destruct Hw as [G1 G2]. split; [|rewrite Hfp; done]. rewrite Hpp in *. rewrite Hsu by done. done. }
  assert (a_count a = Z.of_nat ((length content + cs - 1) / cs)) as Hcount by (apply ceil_div_nat; lia).
  assert (hinv dir h host port content cs a (default [] (file_at f' p)) 0 [] (mkL LCheck c' f' ∅)) as Hinv.
  { apply (hinv_start dir h host port content cs a _ _ c' f' Hs Hd (lookup_insert _ _ _)); [done|done| |done].
    intros k _ Hk. cbn [a new_entry a_held] in Hk. set_solver. }
  assert (length (todo a) <= (length content + cs - 1) / cs) as Htodo.
  { unfold todo. etransitivity; [apply filter_length|]. rewrite map_length, seq_length, Hcount. lia. }
  exists c', f'. split; [done|]. split.
  - intros n out b Hex.
    destruct (peer_exec h content cs name host port Hport Hne Hbl Hmaxz dir own a _ Hho ltac:(lia) Hcount Hpar Hfit _ _ _ _ Hinv Hex) as (sent & -> & Hb).
    split; [|split].
    + destruct (hinv_bound dir h host port content cs a _ ltac:(lia) Hcount (fit_bounded _ _ _ Hfit) _ _ _ Hb) as [Hle _]. lia.
    + intros rs dg Hnd Hnet.
      destruct (peer_step h content cs name host port Hport Hne Hbl Hmaxz dir own a _ Hho ltac:(lia) Hcount Hpar Hfit _ _ _ _ _ Hb Hnd Hnet) as (c2 & o & -> & _). eauto.
    + intros Hdone. destruct (hinv_done dir h host port content cs a _ ltac:(lia) Hcount (fit_bounded _ _ _ Hfit) _ _ _ Hb Hdone) as [_ Hf].
      unfold file_at in *. rewrite <- Hfp. exact Hf.
  - intros s ra ip Hup Hip Hk.
    exact (peer_completes h content cs name host port Hport Hne Hbl Hmaxz dir own a _ Hho ltac:(lia) Hcount Hpar Hfit M r s ra ip _ HM Hfo Hup Hip Hk Hinv).
Qed.
