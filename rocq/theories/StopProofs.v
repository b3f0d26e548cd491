(** Proofs about the commands that end the daemon (C128). *)
From Verif Require Export StopSpec.
From Verif Require Import DialProofs StartProofs CliProofs2 CliProofs3 DownloadProofs2 DownloadProofs4 ServerProofs ServerProofs2 ServerProofs5 CatalogueReach CatalogueProofs CatalogueFaults.

Lemma received_panic d : is_panic (listing_received d) <-> unparsable d.
Proof.
  unfold listing_received, unparsable. destruct d as [d|]; [|split; [intros [w Hw]; done|intros (d & Hd & _); done]].
  destruct (parse (udp_buffer 1024 d)) as [m|w|w] eqn:Ep; cbn [rbind]; split.
  - destruct m; intros [w Hw]; done.
  - intros (d' & [= <-] & [w Hw]). rewrite Ep in Hw. done.
  - intros [w' Hw]; done.
  - intros (d' & [= <-] & [w' Hw]). rewrite Ep in Hw. done.
  - intros _. exists d. split; [done|]. rewrite Ep. by eexists.
  - intros _. by eexists.
Qed.
Lemma no_address ifs : no_spare ifs -> (forall own, ~ own_address ifs own) -> local_ip (Some ifs) = Ok None.
Proof.
  intros Hns Hn. cbn [local_ip]. pose proof (first_ipv4_spec ifs (no_spare_wf _ Hns)) as H. destruct (first_ipv4 ifs) as [r|]; [|done].
  destruct H as [H _]. destruct (Hn _ H).
Qed.
Lemma has_address ifs : no_spare ifs -> (exists own, own_address ifs own) \/ forall own, ~ own_address ifs own.
Proof.
  intros Hns. pose proof (first_ipv4_spec ifs (no_spare_wf _ Hns)) as H. destruct (first_ipv4 ifs) as [r|].
  - left. eexists. apply H.
  - right. intros own (pre & i & post & -> & Hc & _). apply Forall_app in H as [_ H]. inversion H as [|? ? Hx _]; subst. apply (Hx _ Hc).
Qed.
Lemma register_result c size count chunk h name f f' c' w : run f (register_download c size count chunk h name) <> (f', Done (c', Panic w)).
Proof.
  unfold register_download. rewrite run_bind. destruct (run f (add_record c _)) as [f1 [[c1 [u|w1|w1]]|w1|]]; cbn [on_ok run]; try done.
  destruct (new_progress _ _) as [pr|w1|w1]; cbn [run]; try done. rewrite run_bind. destruct (run f1 (save_prog pr)) as [f2 [a|w1|]]; done.
Qed.
Lemma described_typed d h en : describes_one d h en -> (e_size en < 18446744073709551616)%N /\ (e_chunk en < 4294967296)%N.
Proof.
  intros (b & reqid & _ & Hp & _). apply parse_typed in Hp as [[_ Hp] _]. inversion Hp as [|? ? (H1 & H2 & H3 & H4 & H5) _]; subst. unfold u32, u64 in *. lia.
Qed.
#[local] Instance bad_dec size chunk : Decision (bad_metadata size chunk).
Proof. unfold bad_metadata. apply _. Defined.
Lemma ends_get A e h ifs own : no_spare ifs -> ce_ifs e = Some ifs -> own_address ifs own -> ends_daemon A e (RqGet h) ->
  A !! h = None /\ exists r hs, selected (good own) (ce_resps e) (r :: hs)
    /\ (unparsable (ce_listing e) \/ exists en, describes_one (ce_listing e) h en /\ bad_metadata (e_size en) (e_chunk en)).
Proof.
  intros Hns Hi Hown Hd. remember (RqGet h) as q eqn:Eq.
  assert (forall ifs' own', ce_ifs e = Some ifs' -> own_address ifs' own' -> own' = own) as Hu.
  { intros ifs' own' E H'. rewrite Hi in E. injection E as <-. destruct (C66_own_lemma ifs own' Hns H') as (ip' & Hip' & Hnew').
    destruct (C66_own_lemma ifs own Hns Hown) as (ip & Hip & Hnew). congruence. }
  destruct Hd as [| |h0 Hn|h0 ifs' own' r hs E1 E2 E3 E4 E5|h0 ifs' own' r hs en E1 E2 E3 E4 E5 E6]; try done.
  - destruct (Hn _ _ Hi Hown).
  - injection Eq as ->. rewrite (Hu _ _ E1 E2) in E4. split; [done|]. exists r, hs. auto.
  - injection Eq as ->. rewrite (Hu _ _ E1 E2) in E4. split; [done|]. exists r, hs. split; [done|]. right. by exists en.
Qed.
Lemma get_ends cwd dir dl A s f e h : reached cwd dir dl A (sv_cat s) f -> plain_ifs e ->
  (ends_daemon A e (RqGet h) /\ exists f' w, run f (serve e s (RqGet h)) = (f', Died w))
  \/ (~ ends_daemon A e (RqGet h) /\ exists f' r, run f (serve e s (RqGet h)) = (f', Done r)).
Proof.
  intros H Hpl. cbn [serve]. rewrite run_bind. unfold start_download.
  destruct (ce_ifs e) as [ifs|] eqn:Hi.
  2:{ left. split; [apply ed_homeless; congruence|]. rewrite run_bind. destruct (A !! h) as [a|] eqn:Ha.
      - destruct (contains_known _ _ _ _ _ _ _ _ H Ha) as (c' & x & -> & _). by eexists _, _.
      - rewrite (contains_unknown _ _ _ _ _ _ _ H Ha). by eexists _, _. }
  pose proof (Hpl _ Hi) as Hns. destruct (has_address _ Hns) as [[own Hown]|Hn].
  2:{ left. split; [apply ed_homeless; intros i o E; rewrite Hi in E; injection E as <-; apply Hn|]. rewrite run_bind, (no_address _ Hns Hn). destruct (A !! h) as [a|] eqn:Ha.
      - destruct (contains_known _ _ _ _ _ _ _ _ H Ha) as (c' & x & -> & _). by eexists _, _.
      - rewrite (contains_unknown _ _ _ _ _ _ _ H Ha). by eexists _, _. }
  destruct (C66_own_lemma ifs own Hns Hown) as (ip & Hip & Hnew). destruct (C62_lemma own (ce_resps e)) as (l & Hgh & Hsel).
  pose proof (ends_get A e h ifs own Hns Hi Hown) as Hinv.
  rewrite run_bind, Hip. destruct (A !! h) as [a|] eqn:Ha.
  - right. split; [intros Hx; destruct (Hinv Hx); congruence|].
    destruct (contains_known _ _ _ _ _ _ _ _ H Ha) as (c' & x & -> & _). rewrite Hnew, Hgh. destruct l; cbn [run on_call]; by eexists _, _.
  - rewrite (contains_unknown _ _ _ _ _ _ _ H Ha), Hnew, Hgh. destruct l as [|r hs].
    { right. split; [|by eexists _, _]. intros Hx. destruct (Hinv Hx) as (_ & r & hs & Hs & _). assert ([] = r :: hs) by (eapply selected_unique; done). done. }
    destruct (download_meta_cases h (ce_listing e)) as [(en & He & ->)|[(Hno & Hp & w & ->)|(_ & Hp & w & ->)]].
    + destruct (described_typed _ _ _ He) as [Ht1 Ht2]. rewrite run_bind.
      assert (e_hash en = h) as Heh by (destruct He as (? & ? & _ & _ & ?); done). rewrite Heh.
      destruct (decide (bad_metadata (e_size en) (e_chunk en))) as [Hb|Hb].
      * left. split; [by eapply ed_sizes|]. destruct (C41_dies_lemma _ _ _ _ _ _ _ (e_count en) _ h (e_name en) H Ha Ht1 Ht2 Hb) as (f' & w & ->). by eexists _, _.
      * right. split.
        { intros Hx. destruct (Hinv Hx) as (_ & _ & _ & _ & [(d' & Ed' & [w Hw])|(en' & He' & Hb')]); destruct He as (d & rq & Ed & Ep & _); [congruence|].
          destruct He' as (d' & rq' & Ed' & Ep' & _). assert (en' = en) by congruence. congruence. }
        destruct (run f (register_download (sv_cat s) (e_size en) (e_count en) (e_chunk en) h (e_name en))) as [f' out] eqn:Er.
        destruct (C41_ok_lemma _ _ _ _ _ _ _ _ _ Ht1 Ht2 Hb (run_execs _ _ _ _ Er)) as [[c' r'] ->].
        destruct r' as [x|w|w]; cbn [run on_call]; [by eexists _, _..|]. destruct (register_result _ _ _ _ _ _ _ _ _ _ Er).
    + right. split; [|by eexists _, _]. intros Hx. destruct (Hinv Hx) as (_ & _ & _ & _ & [?|(en & He & _)]); [done|]. apply Hno. by exists en.
    + left. split; [by eapply ed_meta|]. by eexists _, _.
Qed.

(** ** Every command *)
Lemma serve_ends cwd dir dl A s f e argv q :
  srv_reached cwd dir dl A s f -> plain_ifs e -> ce_cwd e = cwd -> NoDup (ce_order e) -> (forall h, h ∈ ce_order e <-> A !! h <> None) ->
  (forall h a, A !! h = Some a -> parent (a_path a) <> dir) -> (forall p l, q = RqShare p -> file_at f (abs cwd p) = Some l -> small l) ->
  asks argv q -> (session true e s f argv).1.1.2 = None <-> ends_daemon A e q.
Proof.
  intros Hsr Hpl <- Hnd Hin Hpar Hsm Hask. pose proof (proj1 (srv_inv _ _ _ _ _ _ Hsr)) as Hre.
  assert (forall a ip h, address a ip -> list_args a h argv -> q = RqList ip h -> (session true e s f argv).1.1.2 = None <-> ends_daemon A e q) as Hlist.
  { intros a ip h Ha Hl ->. rewrite (C69_iff_lemma _ _ _ _ _ _ e _ _ _ _ Hsr Ha Hl), received_panic.
    assert (ip <> []) as Hne by (intros ->; apply address_length in Ha; done). split.
    - intros [Hn|Hn]; [by apply ed_address|by apply ed_answer].
    - inversion 1; subst; auto. }
  inversion Hask; subst.
  - split; [|inversion 1]. rewrite (session_cases _ _ _ _ _ (asks_parse _ _ Hask)). cbn [serve]. rewrite run_bind.
    destruct (f !! abs (ce_cwd e) p) as [[l|]|] eqn:E.
    + assert (file_at f (abs (ce_cwd e) p) = Some l) as Hf by (unfold file_at; rewrite E; done).
      destruct (A !! sha1 l) as [a|] eqn:Ha.
      * destruct (run f (share_file (ce_cwd e) (sv_cat s) p)) as [f' out] eqn:Er.
        destruct (C27_lemma (ce_cwd e) (sv_cat s) p l f f' out Hf) as (-> & w & ->); [|by apply run_execs|done].
        pose proof (reached_synced _ _ _ _ _ _ Hre) as (_ & Hs & _). pose proof (sy_ent _ _ _ Hs (sha1 l)) as He. rewrite Ha in He.
        destruct (c_index (sv_cat s) !! sha1 l); done.
      * pose proof (reached_synced _ _ _ _ _ _ Hre) as (Hc & Hs & _).
        destruct (share_ok (ce_cwd e) (sv_cat s) f A p l Hc Hs Hf (Hsm _ _ eq_refl Hf) Ha) as (r & pr & f' & -> & _). done.
    + unfold share_file. rewrite run_bind. unfold generate_record. cbn [run do_op]. rewrite E. rewrite run_bind. unfold hash_path. cbn [run do_op].
      rewrite E. done.
    + unfold share_file. rewrite run_bind. unfold generate_record. cbn [run do_op]. rewrite E. done.
  - split; [|inversion 1]. destruct (C83_lemma _ _ _ _ _ _ e Hsr Hnd Hin Hpar) as (s' & f' & A' & _ & _ & _ & why & ->). done.
  - split; [|inversion 1; done]. destruct (C68_list_lemma _ _ _ _ _ _ e Hsr Hnd Hin) as (s' & _ & [[_ ->]|[_ ->]]); done.
  - eapply Hlist; [done|by left|done].
  - eapply Hlist; [done|right; by eexists|done].
  - rewrite (session_cases _ _ _ _ _ (asks_parse _ _ Hask)).
    destruct (get_ends _ _ _ _ s f e h Hre Hpl) as [(Hd & f' & w & ->)|(Hd & f' & [[s' ds] r] & ->)]; [done|]. split; [destruct r; done|done].
  - split; [|inversion 1]. rewrite (session_cases _ _ _ _ _ (asks_parse _ _ Hask)). cbn [serve]. destruct (generate_request_id s) as [rq s']. done.
  - split; [|inversion 1]. rewrite (session_cases _ _ _ _ _ (asks_parse _ _ Hask)). cbn [serve]. destruct (generate_request_id s) as [rq s']. done.
Qed.
Lemma wants_dec A e q (d : routes) argv : asks argv q -> plain_ifs e ->
  (exists ip, wants A e q ip /\ d ip = false) \/ forall ip, wants A e q ip -> d ip = true.
Proof.
  intros Hask Hpl.
  assert (forall ip h, length ip = 16 -> q = RqList ip h -> (exists ip, wants A e q ip /\ d ip = false) \/ forall ip, wants A e q ip -> d ip = true) as Hlist.
  { intros ip h Hl ->. destruct (is_mapped_dec ip Hl) as [(q4 & Hq & ->)|Hn].
    - destruct (d q4) eqn:Ed; [right|left; exists q4; split; [by constructor|done]]. inversion 1; subst. done.
    - right. inversion 1; subst. by edestruct Hn. }
  assert (forall h, q = RqChims h -> (exists ip, wants A e q ip /\ d ip = false) \/ forall ip, wants A e q ip -> d ip = true) as Hch.
  { intros h ->. destruct (d [xff; xff; xff; xff]) eqn:Ed; [right|left; eexists; split; [apply wa_chims|done]]. inversion 1; subst; done. }
  inversion Hask; subst; try (right; inversion 1; fail).
  - eapply Hlist; [by eapply address_length|done].
  - eapply Hlist; [by eapply address_length|done].
  - destruct (ce_ifs e) as [ifs|] eqn:Hi.
    2:{ right. intros ip Hw. remember (RqGet h) as q. destruct Hw; congruence. }
    destruct (has_address _ (Hpl _ Hi)) as [[own Hown]|Hn].
    2:{ right. intros ip Hw. remember (RqGet h) as q. destruct Hw as [| |? ifs' own' E1 E2|? ifs' own' r hs E1 E2 E3 E4]; try done; destruct (Hn own'); congruence. }
    destruct (d [xff; xff; xff; xff]) eqn:Ed; [|left; eexists; split; [by eapply wa_get|done]].
    destruct (C62_lemma own (ce_resps e)) as (l & _ & Hsel).
    assert (forall ip, wants A e (RqGet h) ip -> d ip = true \/ A !! h = None /\ exists r hs, l = r :: hs /\ ip = h_addr r) as Hw.
    { intros ip Hw. remember (RqGet h) as q. destruct Hw as [| |? ifs' own' E1 E2|? ifs' own' r hs E1 E2 E3 E4]; try done; [by left|]. right.
      split; [congruence|]. exists r, hs. split; [|done]. rewrite Hi in E1. injection E1 as <-.
      destruct (C66_own_lemma ifs own' (Hpl _ Hi) E2) as (i1 & I1 & N1). destruct (C66_own_lemma ifs own (Hpl _ Hi) Hown) as (i2 & I2 & N2).
      assert (own' = own) as -> by congruence. eapply selected_unique; done. }
    destruct (A !! h) as [a|] eqn:Ha.
    { right. intros ip H1. destruct (Hw ip H1) as [?|[? _]]; done. }
    destruct l as [|r hs]; [right; intros ip H1; destruct (Hw ip H1) as [?|(_ & r & hs & ? & _)]; done|].
    destruct (d (h_addr r)) eqn:Er; [|left; eexists; split; [by eapply wa_meta|done]].
    right. intros ip H1. destruct (Hw ip H1) as [?|(_ & r' & hs' & [= <- <-] & ->)]; done.
  - by eapply Hch.
  - by eapply Hch.
Qed.
Lemma few_arguments cwd dir dl A s f d e argv :
  srv_reached cwd dir dl A s f -> plain_ifs e -> ce_cwd e = cwd -> NoDup (ce_order e) -> (forall h, h ∈ ce_order e <-> A !! h <> None) ->
  (forall h a, A !! h = Some a -> parent (a_path a) <> dir) -> (forall p l, argv = [str "share"; p] -> file_at f (abs cwd p) = Some l -> small l) ->
  ~ too_many argv ->
  (session_on d true e s f argv).1.1.2 = None
  <-> exists q, asks argv q /\ (ends_daemon A e q \/ exists ip, wants A e q ip /\ d ip = false).
Proof.
  intros Hsr Hpl Hcw Hnd Hin Hpar Hsm Hmany. pose proof (proj1 (srv_inv _ _ _ _ _ _ Hsr)) as Hre.
  assert ((forall q, client_parse argv <> PSend q) -> (session_on d true e s f argv).1.1.2 <> None) as Hno.
  { intros Hn. unfold session_on. destruct argv as [|x l]; [done|]. destruct (client_parse (x :: l)) as [q| |]; [by destruct (Hn q)|done|done]. }
  destruct (decide (argv = [str "get"])) as [->|Hg].
  { split; [intros Hx; destruct Hno; done|]. intros (q & Hq & _). inversion Hq. }
  destruct (C72_lemma argv Hmany Hg) as [(q & Hq & _)|(Hn & code & Hp)].
  2:{ split; [intros Hx; destruct Hno; [congruence|done]|]. intros (q & Hq & _). destruct (Hn _ Hq). }
  destruct (wants_dec A e q d argv Hq Hpl) as [(ip & Hw & Hd)|Hall].
  - rewrite (C120_dies_lemma _ _ _ _ _ _ _ _ _ _ _ Hre Hpl Hq Hw Hd). split; [|done]. intros _. exists q. split; [done|]. right. by exists ip.
  - rewrite (C120_same_lemma _ _ _ _ _ _ _ _ _ _ Hre Hpl Hq Hall).
    rewrite (serve_ends cwd dir dl A s f e argv q); try done.
    2:{ intros p l ->. apply Hsm. inversion Hq. done. }
    split; [intros Hd; exists q; auto|]. intros (q' & Hq' & Hd). assert (q' = q) as -> by (eapply asks_unique; done).
    destruct Hd as [Hd|(ip & Hw & Hd)]; [done|]. rewrite (Hall _ Hw) in Hd. done.
Qed.
Lemma meant_parse argv : client_parse (meant argv) = client_parse argv.
Proof.
  destruct argv as [|cmd args]; [done|]. cbn [meant]. destruct (decide (cmd = str "list")) as [->|H1].
  - destruct args as [|a [|x rest]]; done.
  - destruct (decide (cmd = str "chims")) as [->|H2]; [destruct args; done|done].
Qed.
Lemma meant_few argv : ~ too_many (meant argv).
Proof.
  destruct argv as [|cmd args]; [intros []|]. cbn [meant too_many]. intros [[-> H]|[-> H]].
  - rewrite decide_True in H by done. rewrite take_length in H. lia.
  - rewrite decide_False, decide_True in H by done. rewrite take_length in H. lia.
Qed.
Lemma meant_session d e s f argv : session_on d true e s f (meant argv) = session_on d true e s f argv.
Proof.
  unfold session_on. rewrite meant_parse. destruct argv as [|cmd args]; done.
Qed.
Lemma C128_lemma cwd dir dl A s f d e argv :
  srv_reached cwd dir dl A s f -> plain_ifs e -> ce_cwd e = cwd -> NoDup (ce_order e) -> (forall h, h ∈ ce_order e <-> A !! h <> None) ->
  (forall h a, A !! h = Some a -> parent (a_path a) <> dir) -> (forall p l, argv = [str "share"; p] -> file_at f (abs cwd p) = Some l -> small l) ->
  (session_on d true e s f argv).1.1.2 = None
  <-> exists q, asks (meant argv) q /\ (ends_daemon A e q \/ exists ip, wants A e q ip /\ d ip = false).
Proof.
  intros Hsr Hpl Hcw Hnd Hin Hpar Hsm. rewrite <- meant_session. eapply few_arguments; try done; [|apply meant_few].
  intros p l E. apply Hsm. destruct argv as [|cmd args]; [done|]. cbn [meant] in E. injection E as -> E.
  rewrite !decide_False in E by done. by rewrite E.
Qed.

(** ** The client *)
Lemma item_texts es : Forall entry_typed es ->
  (Exists (fun en => e_count en = 0%N) es -> is_panic (texts item_text (map item_of_entry es)))
  /\ (~ Exists (fun en => e_count en = 0%N) es -> exists t, texts item_text (map item_of_entry es) = Ok t).
Proof.
  intros Hty. split.
  - intros Hex. apply texts_panic.
    + apply Forall_map, (Forall_impl _ _ _ Hty). intros en (T1 & T2 & T3 & T4 & T5). unfold item_of_entry, u32 in *.
      destruct (decide (e_count en = 0)%N) as [->|]; [left; apply item_text_zero|right; rewrite item_text_ok by lia; eauto].
    + apply Exists_exists in Hex as (en & Hm & E). apply Exists_exists. eexists. split; [apply elem_of_list_fmap_1; exact Hm|].
      unfold item_of_entry. rewrite E. apply item_text_zero.
  - intros Hn. eexists. rewrite (texts_ok _ (fun li => file_text (li_path li) (li_size li) (li_hash li) (li_count li) (li_done li) (li_chunk li))); [done|].
    apply Forall_map, Forall_forall. intros en Hm. rewrite Forall_forall in Hty. destruct (Hty _ Hm) as (T1 & T2 & T3 & T4 & T5).
    unfold item_of_entry, u32 in *. assert (e_count en <> 0%N) by (intros E; apply Hn, Exists_exists; eauto).
    rewrite item_text_ok by lia. done.
Qed.
Lemma received_listing d es : listing_received d = Ok es <-> exists b reqid, d = Some b /\ parse (udp_buffer 1024 b) = Ok (ListResp reqid es).
Proof.
  unfold listing_received. destruct d as [d|]; [|split; [done|intros (b & r & ? & _); done]].
  destruct (parse (udp_buffer 1024 d)) as [m|w|w] eqn:Ep; cbn [rbind].
  - split; [destruct m; try done; intros [= <-]; eauto|]. intros (b & r & [= <-] & E). rewrite Ep in E. injection E as ->. done.
  - split; [done|]. intros (b & r & [= <-] & E). congruence.
  - split; [done|]. intros (b & r & [= <-] & E). congruence.
Qed.
Definition fine (x : cend) : Prop := x <> Crashed /\ x <> Waits.
Lemma client_ends cwd dir dl A s f e argv q :
  srv_reached cwd dir dl A s f -> plain_ifs e -> ce_cwd e = cwd -> NoDup (ce_order e) -> (forall h, h ∈ ce_order e <-> A !! h <> None) ->
  (forall h a, A !! h = Some a -> parent (a_path a) <> dir) -> (forall p l, q = RqShare p -> file_at f (abs cwd p) = Some l -> small l) ->
  Forall (fun r => length (h_addr r) = 4) (ce_resps e) -> asks argv q ->
  (client_crashes cwd A f e q /\ (session true e s f argv).2 = Crashed) \/ (~ client_crashes cwd A f e q /\ fine (session true e s f argv).2).
Proof.
  intros Hsr Hpl Hcw Hnd Hin Hpar Hsm Hrs Hask. pose proof (proj1 (srv_inv _ _ _ _ _ _ Hsr)) as Hre.
  assert (forall a ip h, address a ip -> list_args a h argv -> q = RqList ip h ->
    (client_crashes cwd A f e q /\ (session true e s f argv).2 = Crashed) \/ (~ client_crashes cwd A f e q /\ fine (session true e s f argv).2)) as Hlist.
  { intros a ip h Ha Hl ->. destruct (C69_lemma _ _ _ _ _ _ e _ _ _ _ Hsr Ha Hl) as [H1 _]. pose proof (address_length _ _ Ha) as Hlen.
    destruct (is_mapped_dec ip Hlen) as [(q4 & Hq & ->)|Hn].
    2:{ right. rewrite (H1 Hn). split; [|done]. intros Hx. remember (RqList ip h) as q0 eqn:Eq. destruct Hx; try done; injection Eq as <- _; [done|]. eapply Hn; done. }
    clear H1. rewrite (session_cases _ _ _ _ _ (list_args_parse _ _ _ _ Ha Hl)). destruct (srv_inv _ _ _ _ _ _ Hsr) as (_ & Hr & _).
    rewrite (remote_run e s f q4 h Hq Hr).
    assert (client_crashes cwd A f e (RqList (mapped q4) h) <-> exists es, listing_received (ce_listing e) = Ok es /\ Exists (fun en => e_count en = 0%N) es) as Hcc.
    { split.
      - intros Hx. remember (RqList (mapped q4) h) as q0 eqn:Eq. destruct Hx; try done. exists es. split; [|done].
        apply received_listing. eauto.
      - intros (es & He & Hex). apply received_listing in He as (b & reqid & E1 & E2). eapply cc_host; done. }
    destruct (listing_received (ce_listing e)) as [es|w|w] eqn:El.
    - destruct (item_texts es (received_typed _ _ El)) as [I1 I2]. cbn [response_text].
      destruct (decide (Exists (fun en => e_count en = 0%N) es)) as [Hex|Hex].
      + left. split; [apply Hcc; eauto|]. destruct (I1 Hex) as [w ->]. done.
      + right. split; [|destruct (I2 Hex) as [t ->]; done]. rewrite Hcc. intros (es' & [= <-] & ?). done.
    - right. split; [|done]. rewrite Hcc. intros (es' & ? & _). done.
    - right. split; [|done]. rewrite Hcc. intros (es' & ? & _). done. }
  assert (forall h, q = RqChims h ->
    (client_crashes cwd A f e q /\ (session true e s f argv).2 = Crashed) \/ (~ client_crashes cwd A f e q /\ fine (session true e s f argv).2)) as Hch.
  { intros h ->. destruct (C81_lemma _ _ _ _ _ _ e _ _ Hsr Hask Hrs) as (s' & _ & ->). cbn [snd]. case_decide as Hev.
    - right. split; [|done]. inversion 1 as [| | |? Hx]; subst. apply Exists_exists in Hx as (r & Hm & Hx). rewrite Forall_forall in Hev.
      rewrite (Hev _ Hm) in Hx. done.
    - left. split; [|done]. constructor. apply not_Forall_Exists in Hev; [|intros r; apply _]. apply (Exists_impl _ _ _ Hev). intros r Hr.
      cbn in Hr. destruct (Nat.even _); done. }
  inversion Hask; subst q argv.
  - destruct (file_at f (abs cwd p)) as [l|] eqn:Hf.
    + destruct (A !! sha1 l) as [a|] eqn:Ha.
      * right. rewrite (C68_share_fails_lemma _ _ _ _ _ _ e p Hsr Hcw) by (right; exists l; split; [done|congruence]). split; [|done].
        inversion 1; subst. congruence.
      * destruct (C68_share_lemma _ _ _ _ _ _ e p l Hsr Hcw Hf (Hsm _ _ eq_refl Hf) Ha) as (s' & f' & _ & _ & ->). cbn [snd]. case_decide as Hl.
        -- subst l. left. split; [by constructor|done].
        -- right. split; [|done]. inversion 1; subst. congruence.
    + right. rewrite (C68_share_fails_lemma _ _ _ _ _ _ e p Hsr Hcw) by (left; done). split; [|done]. inversion 1; subst. congruence.
  - right. destruct (C83_lemma _ _ _ _ _ _ e Hsr Hnd Hin Hpar) as (s' & f' & A' & _ & _ & _ & why & ->). split; [inversion 1|done].
  - destruct (C68_list_lemma _ _ _ _ _ _ e Hsr Hnd Hin) as (s' & _ & [[Hc ->]|[(k & a & Hk & _ & Hc) ->]]).
    + right. split; [|done]. inversion 1; subst. by eapply Hc.
    + left. split; [by eapply cc_list|done].
  - eapply Hlist; [done|by left|done].
  - eapply Hlist; [done|right; by eexists|done].
  - right. split; [inversion 1|]. rewrite (session_cases _ _ _ _ _ (asks_parse _ _ Hask)).
    destruct (run f (serve e s (RqGet h))) as [f1 out1] eqn:Er.
    destruct (get_ends _ _ _ _ s f e h Hre Hpl) as [(Hd & f' & w & E)|(Hd & f' & [[s' ds] r] & E)]; rewrite Er in E; injection E as -> ->; [done|].
    cbn [serve] in Er. rewrite run_bind in Er. destruct (run f (start_download _ _ _ _ _)) as [f2 [[c2 [x2|w|w]]|w|]]; cbn in Er; try done; injection Er as <- <- <- <-; done.
  - by eapply Hch.
  - by eapply Hch.
Qed.
Lemma C129_lemma cwd dir dl A s f d e argv :
  srv_reached cwd dir dl A s f -> plain_ifs e -> ce_cwd e = cwd -> NoDup (ce_order e) -> (forall h, h ∈ ce_order e <-> A !! h <> None) ->
  (forall h a, A !! h = Some a -> parent (a_path a) <> dir) -> (forall p l, argv = [str "share"; p] -> file_at f (abs cwd p) = Some l -> small l) ->
  Forall (fun r => length (h_addr r) = 4) (ce_resps e) ->
  (session_on d true e s f argv).2 <> Waits
  /\ ((session_on d true e s f argv).2 = Crashed
      <-> argv = [str "get"]
          \/ exists q, asks (meant argv) q /\ client_crashes cwd A f e q /\ forall ip, wants A e q ip -> d ip = true).
Proof.
  intros Hsr Hpl Hcw Hnd Hin Hpar Hsm Hrs. pose proof (proj1 (srv_inv _ _ _ _ _ _ Hsr)) as Hre.
  assert (meant argv = [str "get"] <-> argv = [str "get"]) as Hget.
  { destruct argv as [|cmd args]; [done|]. cbn [meant]. split; intros E; injection E as -> E; rewrite !decide_False in * by done; by rewrite E. }
  rewrite <- Hget, <- (meant_session d). pose proof (meant_few argv) as Hmany.
  assert (forall p l, meant argv = [str "share"; p] -> file_at f (abs cwd p) = Some l -> small l) as Hsm'.
  { intros p l E. apply Hsm. destruct argv as [|cmd args]; [done|]. cbn [meant] in E. injection E as -> E.
    rewrite !decide_False in E by done. by rewrite E. }
  clear Hget Hsm. revert Hmany Hsm'. generalize (meant argv). clear argv. intros argv Hmany Hsm.
  destruct (decide (argv = [str "get"])) as [->|Hg]; [split; [done|]; split; [by left|done]|].
  destruct (C72_lemma argv Hmany Hg) as [(q & Hq & _)|(Hn & code & Hp)].
  2:{ assert ((session_on d true e s f argv).2 = Refused code \/ (session_on d true e s f argv).2 = Refused 0) as Hx.
      { unfold session_on. destruct argv as [|x l]; [by right|]. rewrite Hp. by left. }
      split; [destruct Hx as [-> | ->]; done|]. split; [destruct Hx as [-> | ->]; done|]. intros [?|(q & Hq & _)]; [done|]. destruct (Hn _ Hq). }
  destruct (wants_dec A e q d argv Hq Hpl) as [(ip & Hw & Hd)|Hall].
  - rewrite (C120_dies_lemma _ _ _ _ _ _ _ _ _ _ _ Hre Hpl Hq Hw Hd). split; [done|]. split; [done|]. intros [?|(q' & Hq' & _ & Hall)]; [done|].
    assert (q' = q) as -> by (eapply asks_unique; done). rewrite (Hall _ Hw) in Hd. done.
  - rewrite (C120_same_lemma _ _ _ _ _ _ _ _ _ _ Hre Hpl Hq Hall).
    destruct (client_ends cwd dir dl A s f e argv q Hsr Hpl Hcw Hnd Hin Hpar) as [[Hc ->]|[Hc [F1 F2]]]; [|done|done|..].
    + intros p l ->. apply Hsm. inversion Hq. done.
    + split; [done|]. split; [|done]. intros _. right. eauto.
    + split; [done|]. split; [done|]. intros [?|(q' & Hq' & Hc' & _)]; [done|]. assert (q' = q) as -> by (eapply asks_unique; done). done.
Qed.
