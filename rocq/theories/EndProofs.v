(** From share to get to list: proofs. *)
From Verif Require Export CliSpec PeerSpec.
From Verif Require Import DialProofs CliProofs CliProofs2 CliProofs3 PeerProofs PeerProofs2 DownloadProofs2 DownloadProofs3 DownloadProofs4 CatalogueDownload
  CatalogueInv CatalogueInv2 CatalogueReach HashProofs PathProofs ServerProofs2 ServerProofs4.
From Coq Require Import ZifyBool ZifyNat ZifyN.
Ltac Zify.zify_post_hook ::= Z.div_mod_to_equations.

(** ** The text of a hash *)
Lemma digit_hex n : (n < 16)%N -> digit_value (hex_digit n) = Some n.
Proof.
  intros H. unfold digit_value, hex_digit. destruct (n <? 10)%N eqn:E.
  - rewrite bN_Nb, N.mod_small by lia. replace ((48 <=? 48 + n) && (48 + n <=? 57))%N with true by lia. cbv iota. f_equal. lia.
  - rewrite bN_Nb, N.mod_small by lia. replace ((48 <=? 87 + n) && (87 + n <=? 57))%N with false by lia.
    replace ((97 <=? 87 + n) && (87 + n <=? 102))%N with true by lia. cbn [andb]. cbv iota. f_equal. lia.
Qed.
Lemma numeral_hex l : forall acc, numeral 16 acc (hex_encode l) = Some (foldl (fun acc b => acc * 256 + bN b)%N acc l).
Proof.
  induction l as [|b l IH]; intros acc; [done|]. cbn [hex_encode numeral foldl]. pose proof (bN_lt b) as Hb.
  rewrite !digit_hex by lia. replace (bN b / 16 <? 16)%N with true by lia. replace (bN b mod 16 <? 16)%N with true by lia.
  rewrite IH. f_equal. f_equal. lia.
Qed.
Lemma hash_text_string h : length h = 20 -> hash_text (hash_string h) h.
Proof.
  intros H. unfold hash_text, hash_string. rewrite hex_encode_length, H. split; [done|]. split; [done|]. apply numeral_hex.
Qed.

(** ** The daemon while a download runs *)
Definition sinv (cwd dir dl : path) (h : hash) (A0 : astate) (a0 : aentry) (s : server) (b : lworld) : Prop :=
  exists a, srv_reached cwd dir dl (<[h := a]> A0) (set_cat s (l_cat b)) (l_fs b)
    /\ a_path a = a_path a0 /\ a_size a = a_size a0 /\ a_chunk a = a_chunk a0 /\ a_count a = a_count a0
    /\ match l_pc b with LHosts i | LChunk i _ => (Z.of_N i < a_count a0)%Z | _ => True end
    /\ (l_pc b = LDone -> all_below (a_count a) ⊆ a_held a).
Lemma srv_call cwd dir dl A s c f q : srv_reached cwd dir dl A (set_cat s c) f -> allowed cwd dir dl A f q ->
  exists c' f' A' ans, crun cwd c f q = Some (c', f', ans) /\ aspec cwd dir dl A f q A' f' ans
    /\ srv_reached cwd dir dl A' (set_cat s c') f'.
Proof.
  intros H Hal. pose proof (proj1 (srv_inv _ _ _ _ _ _ H)) as Hre. cbn [set_cat sv_cat] in Hre.
  destruct (reached_call _ _ _ _ _ _ _ Hre Hal) as (c' & f' & A' & ans & Hr & Hs & _).
  exists c', f', A', ans. split; [done|]. split; [done|]. exact (sr_call _ _ _ _ _ _ _ _ _ _ _ H Hal Hr Hs).
Qed.
Lemma sinv_step cwd dir dl h A0 a0 s own resps dg b c out : parent (a_path a0) <> dir -> (a_count a0 <= 65536)%Z ->
  sinv cwd dir dl h A0 a0 s b -> lstep own h resps dg b = Some (c, out) -> sinv cwd dir dl h A0 a0 s c.
Proof.
  intros Hpar Hmax (a & Hsr & Hp & Hz & Hc & Hn & Hpc & Hdone).
  destruct b as [pc ca f D]. unfold lstep. cbn [l_pc l_cat l_fs l_active] in *.
  assert ((<[h := a]> A0 : astate) !! h = Some a) as Ha by apply lookup_insert.
  pose proof (proj1 (srv_inv _ _ _ _ _ _ Hsr)) as Hre. cbn [set_cat sv_cat] in Hre.
  pose proof (reached_synced _ _ _ _ _ _ Hre) as (_ & Hs & _).
  destruct pc as [| |i|i hs|]; cbn [loop_step].
  - destruct (file_complete_ok ca f _ h a Hs Ha) as (c' & Hrun & _). rewrite run_bind, Hrun. cbn [run].
    intros [= <- <-]. destruct (srv_call _ _ _ _ _ _ _ (CComplete h) Hsr) as (c2 & f2 & A2 & ans & Hr & Hsp & Hsr'); [cbn [allowed]; rewrite Ha; done|].
    cbn [crun] in Hr. rewrite Hrun in Hr. cbn [finish fst snd] in Hr. injection Hr as <- <- <-.
    cbn [aspec] in Hsp. destruct Hsp as (_ & -> & _). exists a. cbn [l_pc l_cat l_fs l_active].
    split_and!; try done; case_bool_decide; done.
  - destruct (missing_step ca f _ h a Hs Ha ltac:(lia)) as (c' & rs & Hrun & _ & _ & Hrs).
    rewrite run_bind, Hrun. destruct rs as [|r0 rs]; cbn [run]; [done|]. intros [= <- <-].
    destruct (srv_call _ _ _ _ _ _ _ (CContains h) Hsr I) as (c2 & f2 & A2 & ans & Hr & Hsp & Hsr').
    cbn [aspec] in Hsp. destruct Hsp as (_ & -> & _).
    destruct (get_record_ok ca f _ h a Hs Ha) as (r & b & Hg & _).
    cbn [crun] in Hr. unfold contains in Hr. rewrite run_bind, Hg in Hr. cbn [on_ok run finish fst snd] in Hr.
    unfold missing_chunks in Hrun. rewrite run_bind, Hg in Hrun. cbn [snd p_bits] in Hrun.
    destruct (bunfilled_ranges b) as [rs'|w|w]; cbn [run] in Hrun; [|done|done]. injection Hrun as <- _. injection Hr as <- <- _.
    exists a. cbn [l_pc l_cat l_fs l_active]. split_and!; try done. destruct Hrs as [Hlt _]. lia.
  - destruct (good_hosts own resps) as [hs|w|w]; cbn [run]; [|done|done]. intros [= <- <-].
    exists a. cbn [l_pc l_cat l_fs l_active]. split_and!; done.
  - destruct hs as [|r hs]; cbn [run].
    { intros [= <- <-]. exists a. cbn [l_pc l_cat l_fs l_active]. split_and!; done. }
    destruct (decide _) as [Hin|Hin]; cbn [run].
    { intros [= <- <-]. exists a. cbn [l_pc l_cat l_fs l_active]. split_and!; done. }
    unfold download_chunk. destruct dg as [ds|]; [|done]. rewrite run_bind.
    destruct (recv_datagrams ds) as [[rc|buf ok]|w|w]; cbn [run]; [| |done|done].
    { intros [= <- <-]. exists a. cbn [l_pc l_cat l_fs l_active]. split_and!; done. }
    rewrite run_bind.
    destruct (srv_call _ _ _ _ _ _ _ (CSave h i buf) Hsr) as (c2 & f2 & A2 & ans & Hr & Hsp & Hsr').
    { cbn [allowed]. split; [lia|]. exists a. rewrite Hp. done. }
    cbn [crun] in Hr. revert Hr. destruct (run f (save_chunk ca h i buf)) as [f3 [[c3 [y|w|w]]|w|]]; cbn [finish ans_of fst snd run]; try done.
    intros [= -> -> <-] [= <- <-]. cbn [aspec] in Hsp. rewrite Ha in Hsp.
    destruct Hsp as [(_ & _ & -> & _)|(_ & ? & _)]; [|done]. rewrite insert_insert in Hsr'.
    exists (hold a i). cbn [l_pc l_cat l_fs l_active hold a_path a_size a_chunk a_count]. split_and!; try done. lia.
  - cbn [run]. intros [= <- <-]. exists a. cbn [l_pc l_cat l_fs l_active]. split_and!; auto.
Qed.
Lemma sinv_exec cwd dir dl h A0 a0 s own net a n out b : parent (a_path a0) <> dir -> (a_count a0 <= 65536)%Z ->
  sinv cwd dir dl h A0 a0 s a -> lexec own h net a n out b -> sinv cwd dir dl h A0 a0 s b.
Proof.
  intros Hpar Hmax Ha Hx. induction Hx as [a|a n out b resps dg out' c H IH Hnd Hnet Hst]; [done|].
  eapply sinv_step; [done|done|exact (IH Ha)|exact Hst].
Qed.

(** ** From one command line to the other *)
Lemma count_bound n cs : Z.of_nat cs = 4194304%Z -> (Z.of_nat n <= 274877906944)%Z -> (n + cs - 1) / cs <= N.to_nat 65536.
Proof. intros Hcs Hn. apply Nat2Z.inj_le. rewrite Nat2Z.inj_div. lia. Qed.
Lemma share_keeps e s f p f' s' ds o : session true e s f [str "share"; p] = (f', Some s', ds, o) ->
  sv_port s' = sv_port s /\ sv_uploads s' = sv_uploads s.
Proof.
  rewrite (session_cases _ _ _ _ _ (asks_parse _ _ (ask_share p))). cbn [serve]. rewrite run_bind.
  destruct (run f (share_file (ce_cwd e) (sv_cat s) p)) as [f1 [[c r]|w|]]; [|done|intros [= <- <- _ _]; done].
  destruct r as [y|w|w]; cbn [on_call run]; intros H; try done; injection H as _ <- _ _; done.
Qed.
Lemma shared_lemma cwd dir dl A s f e p l cs ifs host port env :
  Z.of_nat cs = 4194304%Z ->
  srv_reached cwd dir dl A s f -> sv_port s = Z.of_N port -> ce_cwd e = cwd -> parent (abs cwd p) <> dir ->
  file_at f (abs cwd p) = Some l -> l <> [] -> small l -> A !! sha1 l = None ->
  length l < en_fuel env -> en_ifs env = Some ifs -> Forall if_wf ifs -> own_address ifs host -> en_wok env = true ->
  NoDup (en_order env) -> (forall k, k ∈ en_order env <-> k = sha1 l \/ A !! k <> None) ->
  exists s' f', session true e s f [str "share"; p]
        = (f', Some s', [], Shown (entry_text (sha1 l) (full_entry (abs cwd p) (Z.of_nat (length l)) 4194304)))
    /\ let M := mkRemote cwd dir dl (<[sha1 l := full_entry (abs cwd p) (Z.of_nat (length l)) 4194304]> A) f' env in
       shares M (sha1 l) l cs (name_of (abs cwd p)) host /\ is_up M s' port /\ sv_uploads s' = sv_uploads s.
Proof.
  intros Hcs Hsr Hport Hcw Hpar Hf Hne Hsm Hn Hfuel Hifs Hwf Hown Hwok Hnd Hin.
  destruct (C68_share_lemma _ _ _ _ _ _ e p l Hsr Hcw Hf Hsm Hn) as (s' & f' & Hsr' & Hsu & Hses).
  rewrite decide_False in Hses by done. exists s', f'. split; [exact Hses|]. cbv zeta.
  pose proof (proj1 (srv_inv _ _ _ _ _ _ Hsr')) as Hre.
  destruct (entry_facts _ _ _ _ _ _ (sha1 l) _ Hre (lookup_insert _ _ _)) as (_ & Hcl & _). cbn [full_entry a_path] in Hcl.
  destruct (base_name_split _ Hcl) as [d Hd]. rewrite <- name_of_base in Hd. split.
  - exists d, ifs. cbv zeta. cbn [rm_A rm_fs rm_env]. rewrite <- Hd. split; [rewrite Hcs; apply lookup_insert|].
    split; [rewrite name_of_base; apply base_name_no_slash|]. split.
    { unfold file_at in *. rewrite Hsu by done. done. }
    split_and!; try done. intros k. rewrite Hin. destruct (decide (k = sha1 l)) as [->|N].
    + rewrite lookup_insert. split; [done|]. by left.
    + rewrite lookup_insert_ne by congruence. split; [intros [?|?]; done|]. by right.
  - destruct (share_keeps _ _ _ _ _ _ _ _ Hses) as [Hsp Hup]. split; [|exact Hup]. split; [exact Hsr'|]. congruence.
Qed.
Lemma start_reached cwd dir dl A s f h content cs name own host port ifs resps r M data c' f' :
  let p := join2 dl (take 255 name) in
  srv_reached cwd dir dl A s f -> A !! h = None -> no_spare ifs -> own_address ifs own -> host <> own ->
  content <> [] -> h <> blank -> (Z.of_nat ((length content + cs - 1) / cs) <= 65536)%Z -> u16 port -> normal_name (take 255 name) ->
  shares M h content cs name host -> found M port h r -> described M port h data -> selected (fun x => h_addr x <> own) resps [r] ->
  run f (start_download (Some ifs) (sv_cat s) h resps (Some data)) = (f', Done (c', Ok own)) ->
  srv_reached cwd dir dl (<[h := new_entry p (Z.of_nat (length content)) (Z.of_nat cs)]> A) (set_cat s c') f'
  /\ (forall q, parent q <> dir -> f' !! q = f !! q).
Proof.
  intros p Hsr Ha Hns Hown Hho Hne Hbl Hmaxz Hport Hname HM Hfo Hdesc Hsel Hrun.
  pose proof (proj1 (srv_inv _ _ _ _ _ _ Hsr)) as H.
  assert (exists s0, is_up M s0 port) as [s0 Hup0] by (destruct Hfo as (s0 & _ & _ & Hup & _); eauto).
  destruct (shares_facts h content cs name host port Hmaxz M s0 HM Hup0) as (Hwf & Hcs & Hlen).
  destruct (found_good h content cs name host port Hport Hne Hbl Hmaxz M own r _ Hho HM Hfo Hsel) as (Hgood & _).
  destruct (described_entry h content cs name host port Hbl Hmaxz M data HM Hdesc) as (reqid & en & Hq & -> & Ht & Hh & Hsz & Hch & Hnm).
  destruct (start_new_lemma cwd dir dl A (sv_cat s) f h ifs own resps r [] reqid en H Ha Hns Hown Hgood Hq Ht Hh) as (c3 & f3 & Hrun' & _ & Hsu);
    [lia|lia|rewrite Hnm; done|].
  rewrite Hrun' in Hrun. injection Hrun as -> ->. split; [|exact Hsu]. rename Hrun' into Hrun.
  assert (allowed cwd dir dl A f (CRegister (e_size en) (e_count en) (e_chunk en) h (take 255 (e_name en)))) as Hal.
    { destruct Ht as (_ & _ & Ht & _). unfold u32 in Ht. cbn [allowed]. split; [lia|]. split; [lia|]. split; [done|]. rewrite Hnm. done. }
    destruct (reached_call _ _ _ _ _ _ _ H Hal) as (c2 & f2 & A2 & ans & Hr2 & Hsp & _).
    pose proof (sr_call _ _ _ _ _ _ _ _ _ _ _ Hsr Hal Hr2 Hsp) as Hsr2.
    cbn [aspec] in Hsp. rewrite Ha in Hsp. destruct Hsp as (_ & -> & x & -> & _). rewrite Hnm, Hsz, Hch in Hsr2.
    enough (c2 = c' /\ f2 = f') as [<- <-] by exact Hsr2. clear Hsr2.
    destruct (C66_own_lemma ifs own Hns Hown) as (ip & Hip & Hnew).
    destruct (C62_lemma own resps) as (k & Hgh & Hsel'). assert (k = [r]) as -> by (eapply selected_unique; done).
    revert Hrun. unfold start_download. rewrite run_bind, (contains_unknown _ _ _ _ _ _ _ H Ha), Hip, Hnew, Hgh.
    pose proof (C60_received_lemma reqid [en] Hq ltac:(repeat constructor; apply Ht) ltac:(cbn; lia)) as Hrec.
    rewrite decide_True in Hrec by (cbn [entries_size]; lia). unfold download_meta. rewrite Hrec. cbn [map].
    rewrite decide_True by done. unfold cut_name. cbn [e_size e_count e_chunk e_hash e_name].
    rewrite run_bind, Hh. cbn [crun] in Hr2. revert Hr2.
    destruct (run f (register_download (sv_cat s) _ _ _ h _)) as [f3 [[c3 [y|w|w]]|w|]]; cbn [finish ans_of fst snd]; try done.
    intros [= -> -> _]. cbn [run]. intros [= -> ->]. done.
Qed.
Lemma get_lemma cwd dir dl A s f e h content cs name own host port ifs r M data :
  let p := join2 dl (take 255 name) in
  srv_reached cwd dir dl A s f -> A !! h = None -> no_spare ifs -> own_address ifs own -> host <> own ->
  content <> [] -> h <> blank -> (length content + cs - 1) / cs <= N.to_nat 65536 -> u16 port ->
  normal_name (take 255 name) -> can_write f p -> parent dl <> dir ->
  (forall i, ~ ragged cs (chunk_bytes content cs i) \/ first_empty (chunk_bytes content cs i) <= 1024) ->
  shares M h content cs name host -> found M port h r -> described M port h data ->
  ce_ifs e = Some ifs -> selected (fun x => h_addr x <> own) (ce_resps e) [r] -> ce_listing e = Some data ->
  let net := one_peer own h content cs name host port in
  exists s' f', session true e s f [str "get"; hash_string h] = (f', Some s', [], Shown (str "Flu transfer initiated" ++ nl))
    /\ (forall n out b, lexec own h net (mkL LCheck (sv_cat s') f' ∅) n out b ->
          n <= 5 * ((length content + cs - 1) / cs) + 1
          /\ (forall resps dg, l_pc b <> LDone -> net (l_pc b) resps dg -> is_Some (lstep own h resps dg b))
          /\ (l_pc b = LDone ->
                default [] (file_at (l_fs b) p) = content ++ drop (length content) (default [] (file_at f p))
                /\ srv_reached cwd dir dl (<[h := full_entry p (Z.of_nat (length content)) (Z.of_nat cs)]> A) (set_cat s' (l_cat b)) (l_fs b)))
    /\ (forall sM ra ip, is_up M sM port -> from_ipv4 ra ip -> sv_uploads sM !! (ip, u16_of_int (ua_port ra)) = None ->
          exists n out b, lexec own h net (mkL LCheck (sv_cat s') f' ∅) n out b /\ l_pc b = LDone).
Proof.
  intros p Hsr Ha Hns Hown Hho Hne Hbl Hmax Hport Hname Hw Hdl Hfit HM Hfo Hdesc Hifs Hsel Hlis net.
  pose proof (proj1 (srv_inv _ _ _ _ _ _ Hsr)) as H.
  destruct (C87_lemma _ _ _ _ _ _ _ _ _ _ _ _ _ _ _ _ _ _ H Ha Hns Hown Hho Hne Hbl Hmax Hport Hname Hw Hdl Hfit HM Hfo Hsel Hdesc)
    as (c' & f' & Hrun & Hall & Hex).
  assert (Z.of_nat ((length content + cs - 1) / cs) <= 65536)%Z as Hmaxz by lia.
  assert (exists s0, is_up M s0 port) as [s0 Hup0] by (destruct Hfo as (s0 & _ & _ & Hup & _); eauto).
  destruct (shares_facts h content cs name host port Hmaxz M s0 HM Hup0) as (Hwf & Hcs & Hlen).
  destruct (found_good h content cs name host port Hport Hne Hbl Hmaxz M own r _ Hho HM Hfo Hsel) as (Hgood & _).
  destruct (described_entry h content cs name host port Hbl Hmaxz M data HM Hdesc) as (reqid & en & Hq & -> & Ht & Hh & Hsz & Hch & Hnm).
  destruct (start_reached _ _ _ _ _ _ _ _ _ _ _ _ _ _ _ _ _ _ _ _ Hsr Ha Hns Hown Hho Hne Hbl Hmaxz Hport Hname HM Hfo Hdesc Hsel Hrun) as [Hsr' _]. fold p in Hsr'.
  exists (set_cat s c'), f'. cbn [set_cat sv_cat]. split; [|split; [|exact Hex]].
  - rewrite (session_cases _ _ _ _ _ (asks_parse _ _ (ask_get _ h (hash_text_string h Hwf)))). cbn [serve].
    rewrite run_bind, Hifs, Hlis, Hrun. done.
  - intros n out b Hb. destruct (Hall n out b Hb) as (H1 & H2 & H3). split; [exact H1|]. split; [exact H2|].
    intros Hd. split; [exact (H3 Hd)|].
    set (a0 := new_entry p (Z.of_nat (length content)) (Z.of_nat cs)) in *.
    assert (sinv cwd dir dl h A a0 (set_cat s c') (mkL LCheck c' f' ∅)) as Hi.
    { exists a0. cbn [l_pc l_cat l_fs]. split_and!; done. }
    assert (parent (a_path a0) <> dir) as Hpar.
    { pose proof (reached_synced _ _ _ _ _ _ H) as (_ & Hs0 & Hd0 & Hdl0).
      cbn [a0 new_entry a_path]. destruct (inside_normal dl (take 255 name)) as [_ E]; [rewrite <- Hdl0; apply (sy_dl _ _ _ Hs0)|done|].
      fold p in E. rewrite E, <- Hd0, <- Hdl0. apply (sy_ne _ _ _ Hs0). }
    assert (a_count a0 <= 65536)%Z as Hc0 by (cbn [a0 new_entry a_count]; rewrite ceil_div_nat by lia; lia).
    destruct (sinv_exec _ _ _ _ _ _ _ _ _ _ _ _ _ Hpar Hc0 Hi Hb) as (a & Hfin & E1 & E2 & E3 & E4 & _ & E5).
    pose proof (proj1 (srv_inv _ _ _ _ _ _ Hfin)) as Hrf.
    pose proof (count_facts _ _ _ _ _ _ h a Hrf (lookup_insert _ _ _)) as [Hsub _].
    assert (a = full_entry p (Z.of_nat (length content)) (Z.of_nat cs)) as ->; [|exact Hfin].
    destruct a as [ap az ak an ah]. cbn [a_path a_size a_chunk a_count a_held] in *. unfold full_entry.
    cbn [a0 new_entry a_path a_size a_chunk a_count] in *. subst. f_equal.
    apply set_eq. intros k. split; [apply Hsub|apply (E5 Hd)].
Qed.
Lemma C122_lemma cwd1 dir1 dl1 A1 s1 f1 e1 p1 l cs port env ifs1 host cwd2 dir2 dl2 A2 s2 f2 ifs own :
  let h := sha1 l in
  let name := name_of (abs cwd1 p1) in
  let p := join2 dl2 (take 255 name) in
  Z.of_nat cs = 4194304%Z ->
  srv_reached cwd1 dir1 dl1 A1 s1 f1 -> sv_port s1 = Z.of_N port -> u16 port -> ce_cwd e1 = cwd1 ->
  parent (abs cwd1 p1) <> dir1 -> file_at f1 (abs cwd1 p1) = Some l -> l <> [] -> (Z.of_nat (length l) <= 274877906944)%Z ->
  A1 !! h = None -> h <> blank ->
  length l < en_fuel env -> en_ifs env = Some ifs1 -> Forall if_wf ifs1 -> own_address ifs1 host -> en_wok env = true ->
  NoDup (en_order env) -> (forall k, k ∈ en_order env <-> k = h \/ A1 !! k <> None) ->
  srv_reached cwd2 dir2 dl2 A2 s2 f2 -> A2 !! h = None -> (forall k a, A2 !! k = Some a -> a_count a <> 0%Z) ->
  no_spare ifs -> own_address ifs own -> host <> own ->
  normal_name (take 255 name) -> f2 !! dl2 = Some NDir -> f2 !! p = None -> parent dl2 <> dir2 ->
  (forall i, ~ ragged cs (chunk_bytes l cs i) \/ first_empty (chunk_bytes l cs i) <= 1024) ->
  exists s1' f1',
    session true e1 s1 f1 [str "share"; p1] = (f1', Some s1', [], Shown (entry_text h (full_entry (abs cwd1 p1) (Z.of_nat (length l)) 4194304)))
    /\ let M := mkRemote cwd1 dir1 dl1 (<[h := full_entry (abs cwd1 p1) (Z.of_nat (length l)) 4194304]> A1) f1' env in
       let net := one_peer own h l cs name host port in
       is_up M s1' port /\ sv_uploads s1' = sv_uploads s1
       /\ (exists r data, found M port h r /\ h_addr r = host /\ described M port h data)
       /\ forall e2 r data, found M port h r -> described M port h data ->
            ce_ifs e2 = Some ifs -> selected (fun x => h_addr x <> own) (ce_resps e2) [r] -> ce_listing e2 = Some data ->
            exists s2' f2',
              session true e2 s2 f2 [str "get"; hash_string h] = (f2', Some s2', [], Shown (str "Flu transfer initiated" ++ nl))
              /\ (forall n out b, lexec own h net (mkL LCheck (sv_cat s2') f2' ∅) n out b ->
                    n <= 5 * ((length l + cs - 1) / cs) + 1
                    /\ (forall resps dg, l_pc b <> LDone -> net (l_pc b) resps dg -> is_Some (lstep own h resps dg b))
                    /\ (l_pc b = LDone ->
                          file_at (l_fs b) p = Some l
                          /\ forall e3, NoDup (ce_order e3) -> (forall k, k ∈ ce_order e3 <-> k = h \/ A2 !! k <> None) ->
                               exists s3, session true e3 (set_cat s2' (l_cat b)) (l_fs b) [str "list"]
                                 = (l_fs b, Some s3, [], Shown (listing (<[h := full_entry p (Z.of_nat (length l)) 4194304]> A2) (ce_order e3)))))
              /\ (forall ra ip, from_ipv4 ra ip -> sv_uploads s1 !! (ip, u16_of_int (ua_port ra)) = None ->
                    exists n out b, lexec own h net (mkL LCheck (sv_cat s2') f2' ∅) n out b /\ l_pc b = LDone).
Proof.
  intros h name p Hcs Hsr1 Hport Hp16 Hcw Hpar Hf Hne Hlen Hn Hbl Hfuel Hifs1 Hwf1 Hown1 Hwok Hnd Hin Hsr2 Hn2 Hcnt Hns Hown Hho Hname Hdir Hfree Hdl Hfit.
  assert (small l) as Hsm by (unfold small; lia).
  destruct (shared_lemma cwd1 dir1 dl1 A1 s1 f1 e1 p1 l cs ifs1 host port env Hcs Hsr1 Hport Hcw Hpar Hf Hne Hsm Hn Hfuel Hifs1 Hwf1 Hown1 Hwok Hnd Hin)
    as (s1' & f1' & Hses & HM & Hup & Hups).
  pose proof (count_bound (length l) cs Hcs Hlen) as Hmax.
  assert (can_write f2 p) as Hw.
  { pose proof (proj1 (srv_inv _ _ _ _ _ _ Hsr2)) as H2. pose proof (reached_synced _ _ _ _ _ _ H2) as (_ & Hs0 & _ & Hdl0).
    destruct (inside_normal dl2 (take 255 name)) as [_ E]; [rewrite <- Hdl0; apply (sy_dl _ _ _ Hs0)|done|].
    fold p in E. split; [rewrite E; done|rewrite Hfree; done]. }
  exists s1', f1'. split; [exact Hses|]. cbv zeta.
  set (M := mkRemote cwd1 dir1 dl1 _ f1' env) in *. fold h name in HM.
  split; [exact Hup|]. split; [exact Hups|]. split.
  { destruct (C87_answers_lemma M s1' h l cs name host port Hne Hbl Hmax Hp16 HM Hup) as ((r & Hr & Hra & _) & data & Hd). eauto. }
  intros e2 r data Hfo Hdesc Hifs Hsel Hlis.
  destruct (get_lemma cwd2 dir2 dl2 A2 s2 f2 e2 h l cs name own host port ifs r M data Hsr2 Hn2 Hns Hown Hho Hne Hbl Hmax Hp16 Hname Hw Hdl Hfit HM Hfo Hdesc Hifs Hsel Hlis)
    as (s2' & f2' & Hg & Hall & Hex).
  exists s2', f2'. split; [exact Hg|]. split.
  - intros n out b Hb. destruct (Hall n out b Hb) as (H1 & H2 & H3). split; [exact H1|]. split; [exact H2|].
    intros Hd. destruct (H3 Hd) as [H4 H5]. fold p in H4, H5. split.
    + unfold file_at in H4 at 2. rewrite Hfree in H4. cbn [default from_option id] in H4. rewrite drop_nil, app_nil_r in H4.
      destruct (file_at (l_fs b) p) as [l'|]; cbn [from_option id] in H4; [congruence|]. symmetry in H4. destruct (Hne H4).
    + rewrite Hcs in H5. intros e3 Hnd3 Hin3.
      destruct (C68_list_lemma _ _ _ _ _ _ e3 H5 Hnd3) as (s3 & _ & Hcase).
      { intros k. rewrite Hin3. destruct (decide (k = h)) as [->|N].
        - rewrite lookup_insert. split; [done|]. by left.
        - rewrite lookup_insert_ne by congruence. split; [intros [?|?]; done|]. by right. }
      exists s3. destruct Hcase as [[_ E]|[(k & a & Hk & Hz & Hc) _]]; [exact E|]. exfalso.
      apply lookup_insert_Some in Hk as [[<- <-]|[N Hk]]; [|exact (Hcnt _ _ Hk Hc)].
      cbn [full_entry a_size] in Hz. apply Hne, nil_length_inv. clear -Hz. lia.
  - intros ra ip Hip Hk. apply (Hex s1' ra ip Hup Hip). rewrite Hups. exact Hk.
Qed.
