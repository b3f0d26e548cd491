(** Proofs about what is kept while the daemon is used (C124). *)
From Verif Require Export StaySpec EndProofs.
From Verif Require Import DialProofs CliProofs CliProofs2 CliProofs3 CleanProofs PeerProofs ManyProofs CatalogueDownload
  CatalogueInv CatalogueInv2 CatalogueReach PathProofs ServerProofs2 ServerProofs4.
From Coq Require Import ZifyBool ZifyNat ZifyN.
Ltac Zify.zify_post_hook ::= Z.div_mod_to_equations.

Definition keeps (A A' : astate) : Prop := forall h a, A !! h = Some a -> A' !! h = Some a.
Lemma keeps_refl A : keeps A A.
Proof. intros h a H. exact H. Qed.
Local Hint Resolve keeps_refl : core.
Lemma set_cat_id s : set_cat s (sv_cat s) = s.
Proof. destruct s; done. Qed.
Lemma srv_call_id cwd dir dl A s f q : srv_reached cwd dir dl A s f -> allowed cwd dir dl A f q ->
  exists c' f' A' ans, crun cwd (sv_cat s) f q = Some (c', f', ans) /\ aspec cwd dir dl A f q A' f' ans
    /\ srv_reached cwd dir dl A' (set_cat s c') f'.
Proof. intros H Hal. rewrite <- (set_cat_id s) in H. exact (srv_call _ _ _ _ _ _ _ _ H Hal). Qed.
Lemma parse_share argv p : client_parse argv = PSend (RqShare p) -> argv = [str "share"; p].
Proof.
  destruct argv as [|cmd args]; [done|]. cbn [client_parse]. destruct (decide (cmd = str "share")) as [->|_].
  - unfold arg_count. case_decide as E; [|done]. destruct args as [|x [|y args]]; [done| |done]. intros [= ->]. done.
  - destruct (decide _); [unfold arg_count; case_decide; done|]. destruct (decide _).
    { cbn zeta. destruct args as [|a rest]; [done|]. destruct (parse_ip a); [|done]. destruct rest as [|x rest]; [done|].
      unfold arg_hash. destruct (from_string_safe _ x) as [h' [w|]]; done. }
    destruct (decide _).
    { destruct args as [|x rest]; [done|]. unfold arg_hash. destruct (from_string_safe _ x) as [h' [w|]]; [done|].
      unfold arg_count. case_decide; done. }
    destruct (decide _); [|done]. destruct args as [|x rest]; [done|]. unfold arg_hash. destruct (from_string_safe _ x) as [h' [w|]]; done.
Qed.
Lemma parse_clean argv : client_parse argv = PSend RqClean -> argv = [str "clean"].
Proof.
  destruct argv as [|cmd args]; [done|]. cbn [client_parse]. destruct (decide (cmd = str "share")) as [->|_].
  - unfold arg_count. case_decide as E; [|done]. destruct args as [|x [|y args]]; done.
  - destruct (decide (cmd = str "clean")) as [->|_]; [unfold arg_count; case_decide as E; [|done]; destruct args; done|]. destruct (decide _).
    { cbn zeta. destruct args as [|a rest]; [done|]. destruct (parse_ip a); [|done]. destruct rest as [|x rest]; [done|].
      unfold arg_hash. destruct (from_string_safe _ x) as [h' [w|]]; done. }
    destruct (decide _).
    { destruct args as [|x rest]; [done|]. unfold arg_hash. destruct (from_string_safe _ x) as [h' [w|]]; [done|].
      unfold arg_count. case_decide; done. }
    destruct (decide _); [|done]. destruct args as [|x rest]; [done|]. unfold arg_hash. destruct (from_string_safe _ x) as [h' [w|]]; done.
Qed.
Lemma session_parts e s f argv s' f' ds o : session true e s f argv = (f', Some s', ds, o) ->
  (f' = f /\ s' = s) \/ exists q, client_parse argv = PSend q /\
    ((exists r, run f (serve e s q) = (f', Done (s', ds, r))) \/ (run f (serve e s q) = (f', Hangs) /\ s' = s)).
Proof.
  unfold session. destruct argv as [|x argv]; [intros [= <- <- _ _]; by left|].
  destruct (client_parse (x :: argv)) as [q|code|]; [|intros [= <- <- _ _]; by left|intros [= <- <- _ _]; by left].
  intros H. right. exists q. split; [done|]. destruct (run f (serve e s q)) as [f1 [[[s1 d1] r]|w|]]; [|done|].
  - left. exists r. destruct r; injection H as <- <- <- _; done.
  - right. injection H as <- <- _ _. done.
Qed.

(** ** One command *)
Lemma command_keeps cwd dir dl A s f e argv s' f' ds o :
  srv_reached cwd dir dl A s f -> ordinary cwd A f e argv -> argv <> [str "clean"] ->
  session true e s f argv = (f', Some s', ds, o) ->
  exists A', srv_reached cwd dir dl A' s' f' /\ keeps A A'.
Proof.
  intros Hsr (Hcw & Hnd & Hin & Hsm & Hmeta) Hnc Hs.
  destruct (session_parts _ _ _ _ _ _ _ _ Hs) as [[-> ->]|(q & Hq & Hrun)]; [exists A; done|].
  destruct q as [p| |ip h|h|h].
  - (* share *)
    destruct (srv_call_id _ _ _ _ _ _ (CShare p) Hsr) as (c1 & f1 & A1 & ans & Hr & Hsp & Hsr1).
    { intros l Hl. apply (Hsm p); [apply parse_share; done|done]. }
    cbn [crun] in Hr. cbn [serve] in Hrun. rewrite run_bind, Hcw in Hrun.
    assert (keeps A A1) as Hk.
    { cbn [aspec] in Hsp. destruct Hsp as [_ Hsp]. destruct (file_at f (abs cwd p)) as [l|]; [|destruct Hsp as [-> _]; done].
      destruct (A !! sha1 l) as [x|] eqn:E; destruct Hsp as [-> _]; [done|].
      intros k a Ha. rewrite lookup_insert_ne; [done|]. intros E2. rewrite E2 in E. congruence. }
    destruct (run f (share_file cwd (sv_cat s) p)) as [f2 [[c2 r]|w|]]; cbn [finish fst snd] in Hr; [|done|done].
    injection Hr as -> -> _. exists A1. split; [|done].
    destruct r as [x|w|w]; cbn [on_call run] in Hrun; destruct Hrun as [[r Hrun]|[Hrun _]]; try done.
    + injection Hrun as <- <- _ _. done.
    + injection Hrun as <- <- _ _. done.
  - destruct Hnc. apply parse_clean. done.
  - (* list *)
    cbn [serve] in Hrun. destruct (gob_bytes ip) as [ip'|].
    + destruct (to4 ip') as [addr|]; [|destruct Hrun as [[? ?]|[? ?]]; done].
      destruct (let! a := sl_index addr 0 in _) as [ip4| |]; [|destruct Hrun as [[? ?]|[? ?]]; done|destruct Hrun as [[? ?]|[? ?]]; done].
      exists A. split; [|done]. pose proof (sr_request _ _ _ _ _ _ Hsr) as Hsr1.
      destruct (generate_request_id s) as [reqid s1]. cbn [snd] in Hsr1.
      destruct (listing_received (ce_listing e)) as [x|w|w]; cbn [on_call run] in Hrun; destruct Hrun as [[r Hrun]|[Hrun _]]; try done.
      * injection Hrun as <- <- _ _. done.
      * injection Hrun as <- <- _ _. done.
    + destruct (srv_call_id _ _ _ _ _ _ (CList (ce_order e)) Hsr (conj Hnd Hin)) as (c1 & f1 & A1 & ans & Hr & Hsp & Hsr1).
      cbn [crun] in Hr. rewrite run_bind in Hrun. cbn [aspec] in Hsp. destruct Hsp as (_ & -> & _).
      destruct (run f (list_files (sv_cat s) (ce_order e))) as [f2 [[c2 r]|w|]]; cbn [finish fst snd] in Hr; [|done|done].
      injection Hr as -> -> _. exists A. split; [|done].
      destruct r as [x|w|w]; cbn [on_call run] in Hrun; destruct Hrun as [[r Hrun]|[Hrun _]]; try done.
      * injection Hrun as <- <- _ _. done.
      * injection Hrun as <- <- _ _. done.
  - (* get *)
    cbn [serve] in Hrun. rewrite run_bind in Hrun. unfold start_download in Hrun. rewrite run_bind in Hrun.
    destruct (srv_call_id _ _ _ _ _ _ (CContains h) Hsr I) as (c1 & f1 & A1 & ans & Hr & Hsp & Hsr1).
    cbn [crun] in Hr. cbn [aspec] in Hsp. destruct Hsp as (_ & -> & _).
    destruct (run f (contains (sv_cat s) h)) as [f2 [[c2 r]|w|]]; cbn [finish fst snd] in Hr; [|done|done].
    injection Hr as -> -> _.
    assert (forall r0 : res (list byte), (exists r1, run f1 (on_call (set_cat s c1) [] r0 (fun _ => Ret (set_cat s c1, [], Ok RsGet))) = (f', Done (s', ds, r1)))
      \/ (run f1 (on_call (set_cat s c1) [] r0 (fun _ => Ret (set_cat s c1, [], Ok RsGet))) = (f', Hangs) /\ s' = s) ->
      exists A', srv_reached cwd dir dl A' s' f' /\ keeps A A') as Hend.
    { intros r0 G. exists A. split; [|done]. destruct r0; cbn [on_call run] in G; destruct G as [[? G]|[G _]]; try done; injection G as <- <- _ _; done. }
    assert (forall X : Prop, forall w, (exists r1, (f1, @Died served w) = (f', Done (s', ds, r1))) \/ ((f1, @Died served w) = (f', Hangs) /\ s' = s) -> X) as Hdie.
    { intros X w [[? ?]|[? ?]]; done. }
    destruct (local_ip (ce_ifs e)) as [[ip|]|w|w]; try (cbn [run] in Hrun; exact (Hdie _ _ Hrun)).
    destruct (new_ipv4 ip) as [own|w|w]; [|exact (Hend (Err w) Hrun)|cbn [run] in Hrun; exact (Hdie _ _ Hrun)].
    destruct (good_hosts own (ce_resps e)) as [[|g gs]|w|w]; [exact (Hend (Err _) Hrun)| |cbn [run] in Hrun; exact (Hdie _ _ Hrun)|cbn [run] in Hrun; exact (Hdie _ _ Hrun)].
    destruct r as [x|w0|w0]; [exact (Hend (Ok own) Hrun)| |].
    all: unfold download_meta in Hrun; destruct (listing_received (ce_listing e)) as [es|w|w] eqn:Hrec;
      [|exact (Hend (Err _) Hrun)|cbn [run] in Hrun; exact (Hdie _ _ Hrun)].
    all: destruct es as [|en [|en2 es]]; [exact (Hend (Err _) Hrun)| |exact (Hend (Err _) Hrun)].
    all: destruct (decide (e_hash en = h)) as [Eh|Eh]; [|exact (Hend (Err _) Hrun)].
    all: specialize (Hmeta _ eq_refl); apply Forall_singleton in Hmeta as (M1 & M2 & M3).
    all: pose proof (received_typed _ _ Hrec) as Hty; apply Forall_inv in Hty.
    all: destruct (srv_call_id _ _ _ _ _ _ (CRegister (e_size en) (e_count en) (e_chunk en) (e_hash en) (e_name en)) Hsr1) as (c3 & f3 & A3 & ans3 & Hr3 & Hsp3 & Hsr3);
      [unfold entry_typed, u32, u64 in Hty; cbn [allowed]; split; [exact M1|]; split; [split; [exact M2|apply Hty]|]; split; [apply Hty|exact M3]|].
    all: cbn [crun set_cat sv_cat] in Hr3; rewrite run_bind in Hrun.
    all: destruct (run f1 (register_download c1 _ _ _ _ _)) as [f4 [[c4 r4]|w4|]]; cbn [finish fst snd] in Hr3; [|done|done].
    all: injection Hr3 as -> -> _; cbn [run] in Hrun.
    all: exists A3; split; [destruct r4 as [y|w4|w4]; cbn [on_call run] in Hrun; destruct Hrun as [[? G]|[G _]]; try done; injection G as <- <- _ _; done|].
    all: cbn [aspec] in Hsp3; destruct Hsp3 as [_ Hsp3]; destruct (A !! e_hash en) as [z|] eqn:Ez; destruct Hsp3 as [-> _]; [done|].
    all: intros k a Ha; rewrite lookup_insert_ne; [done|intros E2; rewrite E2 in Ez; congruence].
  - (* chims *)
    cbn [serve] in Hrun. exists A. split; [|done]. pose proof (sr_request _ _ _ _ _ _ Hsr) as Hsr1.
    destruct (generate_request_id s) as [reqid s1]. cbn [snd] in Hsr1. cbn [run] in Hrun.
    destruct Hrun as [[r Hrun]|[Hrun _]]; [|done]. injection Hrun as <- <- _ _. done.
Qed.

(** ** The course of time *)
Lemma onward_keeps cwd dir dl h p l a s0 f0 s f : onward cwd dir dl h p l s0 f0 s f -> a_path a = p -> sha1 l = h -> forall A0,
  srv_reached cwd dir dl A0 s0 f0 -> A0 !! h = Some a -> exists A, srv_reached cwd dir dl A s f /\ A !! h = Some a.
Proof.
  intros Hon Hp Hh. induction Hon as [s f|s0 f0 A s f e argv s' f' ds o _ IH Hsr Hor Hcl Hs|s0 f0 A s f e buffer ra s' f' ds r _ IH Hsr Hnd Hin Hrun
    |s0 f0 s f k u v u' ps _ IH Hu Hst|s0 f0 A s f own k b0 pc D resps dg b out _ IH Hsr Hkh Hk Hpar Hcnt Hpc Hnd Hst|s0 f0 s f f' _ IH H1 H2|s0 f0 A s f pid now port f' c' _ IH Hsr Hv1 Hv2 Hrun]; intros A0 H0 Ha0.
  1: by eauto.
  all: destruct (IH A0 H0 Ha0) as (B & HB & Ha).
  all: try (assert (B = A) as -> by (eapply synced_unique; [apply (reached_synced _ _ _ _ _ _ (proj1 (srv_inv _ _ _ _ _ _ HB)))|apply (reached_synced _ _ _ _ _ _ (proj1 (srv_inv _ _ _ _ _ _ Hsr)))])).
  - destruct (decide (argv = [str "clean"])) as [->|Hn].
    + destruct (Hcl eq_refl) as [Hf Hpar]. destruct Hor as (_ & Hnd & Hin & _).
      destruct (C83_lemma _ _ _ _ _ _ _ Hsr Hnd Hin Hpar) as (s1 & f1 & A1 & Hsr1 & _ & HA1 & why & E).
      rewrite Hs in E. injection E as -> -> _ _. exists A1. split; [done|]. apply HA1. split; [exact Ha|].
      exists l. rewrite Hp. done.
    + destruct (command_keeps _ _ _ _ _ _ _ _ _ _ _ _ Hsr Hor Hn Hs) as (A1 & H1 & Hk). exists A1. split; [done|]. apply Hk. done.
  - exists A. split; [|done]. exact (sr_msg _ _ _ _ _ _ _ _ _ _ _ _ _ Hsr Hnd Hin Hrun).
  - exists B. split; [|done]. exact (sr_work _ _ _ _ _ _ _ _ _ _ _ HB Hu Hst).
  - assert (EndProofs.sinv cwd dir dl k A b0 s (mkL pc (sv_cat s) f D)) as Hsi.
    { exists b0. cbn [l_pc l_cat l_fs]. rewrite set_cat_id, (insert_id A k b0 Hk). split_and!; done. }
    destruct (EndProofs.sinv_step cwd dir dl k A b0 s own resps dg _ b _ Hpar Hcnt Hsi Hst) as (a' & Hsr' & _).
    exists (<[k := a']> A). split; [done|]. rewrite lookup_insert_ne by done. done.
  - exists B. split; [|done]. exact (sr_outside _ _ _ _ _ _ _ HB H1 H2).
  - pose proof (proj1 (srv_inv _ _ _ _ _ _ Hsr)) as Hre. pose proof (reached_synced _ _ _ _ _ _ Hre) as (_ & _ & Hd & Hdl).
    assert (crun cwd (sv_cat s) f (CRestart pid now) = Some (c', f', AOk)) as Hr by (cbn [crun]; rewrite Hd, Hdl, Hrun; done).
    destruct (reached_call _ _ _ _ _ _ (CRestart pid now) Hre (conj Hv1 Hv2)) as (c2 & f2 & A2 & ans & Hr2 & Hsp & Hre2).
    rewrite Hr in Hr2. injection Hr2 as <- <- <-. cbn [aspec] in Hsp. destruct Hsp as (_ & -> & _).
    exists A. split; [|done]. apply sr_start. done.
Qed.
Lemma list_has cwd dir dl A s f e h a : srv_reached cwd dir dl A s f -> A !! h = Some a ->
  NoDup (ce_order e) -> (forall k, k ∈ ce_order e <-> A !! k <> None) -> (forall k b, A !! k = Some b -> a_count b <> 0%Z) ->
  exists s' x y, session true e s f [str "list"] = (f, Some s', [], Shown (x ++ entry_text h a ++ y)).
Proof.
  intros Hsr Ha Hnd Hin Hc. destruct (C68_list_lemma _ _ _ _ _ _ _ Hsr Hnd Hin) as (s' & _ & [[_ ->]|[(k & b & Hk & _ & Hz) _]]); [|destruct (Hc _ _ Hk Hz)].
  assert (h ∈ ce_order e) as Hh by (apply Hin; congruence). apply elem_of_list_split in Hh as (o1 & o2 & ->).
  unfold listing. rewrite map_app, concat_app. cbn [map concat]. rewrite Ha. eauto.
Qed.
Lemma stay_lemma cwd dir dl A s f e q s1 f1 ds t :
  srv_reached cwd dir dl A s f -> ordinary cwd A f e [str "share"; q] ->
  session true e s f [str "share"; q] = (f1, Some s1, ds, Shown t) ->
  exists l, file_at f (abs cwd q) = Some l /\ let a := full_entry (abs cwd q) (Z.of_nat (length l)) 4194304 in
    t = entry_text (sha1 l) a /\
    forall s2 f2, onward cwd dir dl (sha1 l) (abs cwd q) l s1 f1 s2 f2 ->
      exists A2, srv_reached cwd dir dl A2 s2 f2 /\ A2 !! sha1 l = Some a
        /\ forall e2, NoDup (ce_order e2) -> (forall k, k ∈ ce_order e2 <-> A2 !! k <> None) -> (forall k b, A2 !! k = Some b -> a_count b <> 0%Z) ->
             exists s3 x y, session true e2 s2 f2 [str "list"] = (f2, Some s3, [], Shown (x ++ t ++ y)).
Proof.
  intros Hsr (Hcw & _ & _ & Hsm & _) Hs. destruct (file_at f (abs cwd q)) as [l|] eqn:Hf.
  2: { rewrite (C68_share_fails_lemma _ _ _ _ _ _ e q Hsr Hcw (or_introl Hf)) in Hs. done. }
  exists l. split; [done|]. cbn zeta. destruct (A !! sha1 l) as [b|] eqn:Ha.
  { rewrite (C68_share_fails_lemma _ _ _ _ _ _ e q Hsr Hcw) in Hs; [done|]. right. exists l. rewrite Ha. done. }
  destruct (C68_share_lemma _ _ _ _ _ _ e q l Hsr Hcw Hf (Hsm q l eq_refl Hf) Ha) as (s1' & f1' & Hsr1 & _ & E).
  rewrite E in Hs. case_decide as Hl; [done|]. injection Hs as -> -> _ <-. split; [done|].
  intros s2 f2 Hon. destruct (onward_keeps _ _ _ _ _ _ (full_entry (abs cwd q) (Z.of_nat (length l)) 4194304) _ _ _ _ Hon eq_refl eq_refl _ Hsr1 (lookup_insert _ _ _)) as (A2 & H2 & HA2).
  exists A2. split; [done|]. split; [done|]. intros e2 Hnd Hin Hc. exact (list_has _ _ _ _ _ _ _ _ _ H2 HA2 Hnd Hin Hc).
Qed.
