(** Lemmas for the parts of C44, C52, C85 and C88 that do hold. *)
From Verif Require Import CleanProofs CatalogueReach SwarmProofs PeerProofs RecvProofs.
From Coq Require Import ZifyBool ZifyNat ZifyN.

(** *** C44: a download of which a chunk has arrived stays *)
Lemma save_then_clean cwd dir dl A c f h a i data order :
  reached cwd dir dl A c f -> A !! h = Some a -> can_write f (a_path a) -> (i < 65536)%N ->
  (forall h a, A !! h = Some a -> parent (a_path a) <> dir) -> NoDup order -> (forall h, h ∈ order <-> A !! h <> None) ->
  exists c1 f1, crun cwd c f (CSave h i data) = Some (c1, f1, AOk)
    /\ (~ complete (hold a i) -> exists c2 f2 A2 items, run f1 (clean_index c1 order) = (f2, Done (c2, Ok items))
         /\ reached cwd dir dl A2 c2 f2 /\ A2 !! h = Some (hold a i)).
Proof.
  intros H Ha Hw Hi Hout Hnd Hor. pose proof (reached_synced _ _ _ _ _ _ H) as (_ & Hs & Hd & _).
  destruct (save_ok c f A h a i data Hs Ha Hw Hi ltac:(rewrite Hd; eauto)) as (r & new & f1 & Hrun & Hov & Hs1 & Hf1 & Hu).
  assert (crun cwd c f (CSave h i data) = Some (set_index c (<[h:=r]> (c_index c)), f1, AOk)) as Hcr.
  { unfold crun. rewrite Hrun. done. }
  exists (set_index c (<[h:=r]> (c_index c))), f1. split; [done|]. intros Hnc.
  assert (reached cwd dir dl (<[h := hold a i]> A) (set_index c (<[h:=r]> (c_index c))) f1) as H1.
  { eapply re_call; [exact H| |exact Hcr|].
    - split; [done|]. exists a. split; [done|]. eauto.
    - cbn. rewrite Ha. left. split; [done|]. split; [done|]. split; [done|]. exists new. rewrite <- Hd. done. }
  destruct (C44_lemma cwd dir dl _ _ _ order H1) as (c2 & f2 & A2 & items & E1 & E2 & E3).
  - split; [done|]. intros x. rewrite Hor. destruct (decide (x = h)) as [->|N].
    + rewrite lookup_insert, Ha. done.
    + rewrite lookup_insert_ne by done. done.
  - intros x b Hb. destruct (decide (x = h)) as [->|N].
    + rewrite lookup_insert in Hb. injection Hb as <-. exact (Hout _ _ Ha).
    + rewrite lookup_insert_ne in Hb by done. eauto.
  - exists c2, f2, A2, items. split; [done|]. split; [done|]. apply E3; [apply lookup_insert|done|].
    exists new. unfold file_at. cbn [hold a_path]. rewrite Hf1. done.
Qed.

(** *** C52: the packets of our own sender *)
Lemma stream_S_pos h bytes k : bytes <> [] -> (stream h bytes (S k)).1 <> 0%N.
Proof. intros Hne. unfold stream, stream_pos. cbn [fst]. destruct bytes; [done|]. cbn [length]. lia. Qed.
Lemma stream_announced h bytes ks : bytes <> [] -> hash_wf h -> (Z.of_nat (length bytes) < 4294967296)%Z ->
  0 ∈ ks -> announced (map (stream h bytes) ks) = Some (N.of_nat (length bytes)).
Proof.
  intros Hne Hh Hl. assert ((stream h bytes 0).1 = 0%N /\ unbe (take 4 (drop 20 (stream h bytes 0).2)) = N.of_nat (length bytes)) as [E1 E2].
  { split; [done|]. unfold stream. cbn [snd]. rewrite drop_app_alt by (symmetry; exact Hh). rewrite take_app_alt by (rewrite be_length; done).
    rewrite unbe_be. apply N.mod_small. cbn. lia. }
  induction ks as [|k ks IH]; [set_solver|]. intros H0. cbn [map announced].
  destruct (decide (0 ∈ ks)) as [Hin|Hin]; [rewrite (IH Hin); done|].
  assert (announced (map (stream h bytes) ks) = None) as ->.
  { clear IH H0. induction ks as [|j ks IH]; [done|]. cbn [map announced]. rewrite IH by set_solver.
    rewrite decide_False; [done|]. destruct j; [set_solver|]. apply stream_S_pos; done. }
  assert (k = 0) as -> by set_solver. rewrite decide_True by exact E1. rewrite E2. done.
Qed.
Lemma header_length h bytes : hash_wf h -> 24 <= length (stream h bytes 0).2.
Proof. intros Hh. unfold stream. cbn [snd]. rewrite !app_length, be_length, Hh. lia. Qed.
Lemma own_packets h bytes ks : hash_wf h -> (Z.of_nat (length bytes) < 4294967296)%Z -> bytes <> [] ->
  (is_panic (recv_datagrams (map wire (map (stream h bytes) ks))) <-> exists k rest, ks = k :: rest /\ k <> 0).
Proof.
  intros Hh Hl Hne. unfold recv_datagrams. rewrite (wire_ok h bytes Hh Hl ks). cbn [rbind]. rewrite C52_lemma. split.
  - intros (pre & p & post & E & _ & Hb). destruct ks as [|k ks]; [destruct pre; done|]. exists k, ks. split; [done|]. intros ->.
    cbn [map] in E. remember (stream h bytes 0) as s0 eqn:Es0. destruct pre as [|q pre].
    + injection E as <- _. subst s0. cbn [announced] in Hb. unfold bad in Hb. rewrite decide_True in Hb by done.
      pose proof (header_length h bytes Hh) as G. apply (Nat.lt_irrefl 24), (Nat.le_lt_trans _ _ _ G Hb).
    + injection E as <- E. subst s0. assert (exists k2, p = stream h bytes k2 /\ exists ks2, pre = map (stream h bytes) ks2) as (k2 & -> & ks2 & ->).
      { clear Hb. revert ks E. induction pre as [|q pre IH]; intros [|k ks] E; try done.
        - injection E as <- _. exists k. split; [done|]. exists []. done.
        - injection E as <- E. destruct (IH _ E) as (k2 & -> & ks2 & ->). exists k2. split; [done|]. exists (k :: ks2). done. }
      change (stream h bytes 0 :: map (stream h bytes) ks2) with (map (stream h bytes) (0 :: ks2)) in Hb.
      rewrite stream_announced in Hb by (first [done|set_solver]). unfold bad in Hb. destruct k2 as [|k2].
      * rewrite decide_True in Hb by done. pose proof (header_length h bytes Hh) as G. apply (Nat.lt_irrefl 24), (Nat.le_lt_trans _ _ _ G Hb).
      * rewrite decide_False in Hb by (apply stream_S_pos; done). destruct Hb as [_ Hb]. unfold stream, stream_pos in Hb. cbn [fst] in Hb. lia.
  - intros (k & rest & -> & Hk). destruct k as [|k]; [done|]. exists [], (stream h bytes (S k)), (map (stream h bytes) rest).
    split; [done|]. split; [done|]. unfold bad. rewrite decide_False by (apply stream_S_pos; done). done.
Qed.

(** *** C85: no host is asked for a chunk twice *)
Lemma NoDup_todo a : NoDup (todo a).
Proof. unfold todo. apply NoDup_filter. apply NoDup_fmap_2; [intros x y; lia|]. apply NoDup_seq. Qed.
Lemma elem_todo a i : (0 <= a_count a)%Z -> (i ∈ todo a <-> (Z.of_N i < a_count a)%Z /\ i ∉ a_held a).
Proof.
  intros Hn. unfold todo. rewrite elem_of_list_filter, elem_of_list_fmap. split.
  - intros [Hi (k & -> & Hk)]. apply elem_of_seq in Hk. split; [lia|done].
  - intros [Hi Hh]. split; [done|]. exists (N.to_nat i). split; [lia|]. apply elem_of_seq. lia.
Qed.
Lemma request_inj h i j : hash_wf h -> u16 i -> u16 j -> serialize (OpenReq h i 1024) = serialize (OpenReq h j 1024) -> i = j.
Proof. intros Hh Hi Hj E. pose proof (PeerProofs.parse_open h i Hh Hi) as E1. rewrite E, PeerProofs.parse_open in E1 by done. congruence. Qed.
Lemma elem_concat {X} (x : X) ls : x ∈ concat ls <-> exists l, x ∈ l /\ l ∈ ls.
Proof.
  rewrite elem_of_list_In, in_concat. split; intros (l & H1 & H2); exists l.
  - rewrite !elem_of_list_In. done.
  - rewrite !elem_of_list_In in *. done.
Qed.
Lemma requests_once h is rounds : hash_wf h -> Forall u16 is -> NoDup is -> Forall (fun hs => NoDup (map h_addr hs)) rounds ->
  NoDup (map (fun d => (dg_ip d, dg_data d)) (requests h is rounds)).
Proof.
  intros Hh. revert rounds. induction is as [|i is IH]; intros [|hs rounds] Hu Hn HR; try (cbn; constructor).
  apply Forall_cons in Hu as [Hi Hu]. apply NoDup_cons in Hn as [Hi2 Hn]. apply Forall_cons in HR as [H1 HR].
  unfold requests. cbn [zip_with concat]. rewrite map_app. apply NoDup_app. split; [|split].
  - unfold ask_all. rewrite map_map. unfold request. cbn [dg_ip dg_data].
    clear -H1. induction hs as [|r hs IH]; [constructor|]. cbn [map] in *. apply NoDup_cons in H1 as [H2 H1]. constructor; [|apply IH; done].
    intros Hin. apply H2. apply elem_of_list_fmap in Hin as (r2 & E & Hin). apply elem_of_list_fmap. exists r2. split; [congruence|done].
  - intros x Hx Hy. apply elem_of_list_fmap in Hx as (d & -> & Hd). apply elem_of_list_fmap in Hd as (r & -> & Hr).
    apply elem_of_list_fmap in Hy as (d2 & E & Hd2). apply elem_concat in Hd2 as (l & Hd2 & Hl).
    apply elem_of_lookup_zip_with in Hl as (k & j & hs2 & -> & Hj & _). apply elem_of_list_fmap in Hd2 as (r2 & -> & _).
    unfold request in E. cbn [dg_ip dg_data] in E. assert (i = j) as ->.
    { apply (request_inj h); [done|done| |congruence]. rewrite Forall_forall in Hu. apply Hu. eapply elem_of_list_lookup_2; done. }
    apply Hi2. eapply elem_of_list_lookup_2; done.
  - apply IH; done.
Qed.
Lemma once_lemma cwd dir dl A c f h a cs content own (has : list byte -> N -> Prop) (R : list hostresp -> Prop) n out b :
  reached cwd dir dl A c f -> A !! h = Some a ->
  0 < cs -> a_chunk a = Z.of_nat cs -> a_count a = Z.of_nat ((length content + cs - 1) / cs) -> (a_count a <= 65536)%Z ->
  can_write f (a_path a) -> parent (a_path a) <> dir -> right_so_far content cs f a ->
  (forall i, ~ ragged cs (chunk_bytes content cs i) \/ first_empty (chunk_bytes content cs i) <= 1024) ->
  (forall hs, R hs -> NoDup (map h_addr hs)) ->
  lexec own h (swarm own has R content cs) (mkL LCheck c f ∅) n out b -> l_pc b = LDone ->
  NoDup (map (fun d => (dg_ip d, dg_data d)) out)
  /\ (forall d, d ∈ out -> exists host port i, d = request host port h i /\ (Z.of_N i < a_count a)%Z /\ i ∉ a_held a)
  /\ (forall i, (Z.of_N i < a_count a)%Z -> i ∉ a_held a -> exists host port, request host port h i ∈ out)
  /\ ((forall hs, R hs -> length hs = 1) -> Forall2 (fun i d => exists host port, d = request host port h i) (todo a) out).
Proof.
  intros H Ha Hcs Hc Hn Hmax Hw Hpar Hr Hfit HR Hex Hdone.
  pose proof (reached_synced _ _ _ _ _ _ H) as (_ & Hs & Hd & _).
  pose proof (sinv_start dir h has R content cs a (default [] (file_at f (a_path a))) A c f Hs Hd Ha Hc Hw Hr eq_refl) as H0.
  pose proof (sinv_exec dir h own has R content cs a _ Hcs Hn Hmax Hpar (fit_bounded _ _ _ Hfit) _ n out b H0 Hex) as Hb.
  assert (exists rounds, Forall2 (fun i hs => R hs /\ someone_has has i hs) (todo a) rounds /\ out = requests h (todo a) rounds) as (rounds & Hall & ->).
  { eapply (sinv_done dir h has R content cs a); [..|exact Hb|exact Hdone]; first [exact Hmax|exact (fit_bounded _ _ _ Hfit)|done]. }
  assert (hash_wf h) as Hh by (eapply entries_wf; [exact (sy_ent _ _ _ Hs)|rewrite Ha; done]).
  assert (Forall u16 (todo a)) as Hu.
  { apply Forall_forall. intros i Hi. apply elem_todo in Hi as [? _]; [unfold u16; lia|lia]. }
  split; [|split; [|split]].
  - apply requests_once; [done|done|apply NoDup_todo|]. apply Forall_forall. intros hs Hin.
    apply elem_of_list_lookup in Hin as (k & Hk). destruct (Forall2_lookup_r _ _ _ _ _ Hall Hk) as (i & _ & HRh & _). auto.
  - intros d Hin. apply elem_concat in Hin as (l & Hd2 & Hl).
    apply elem_of_lookup_zip_with in Hl as (k & j & hs2 & -> & Hj & _). apply elem_of_list_fmap in Hd2 as (r2 & -> & _).
    exists (h_addr r2), (h_port r2), j. split; [done|]. apply elem_todo; [lia|]. eapply elem_of_list_lookup_2; done.
  - intros i Hi Hni. assert (i ∈ todo a) as Hin by (apply elem_todo; [lia|done]). apply elem_of_list_lookup in Hin as (k & Hk).
    destruct (Forall2_lookup_l _ _ _ _ _ Hall Hk) as (hs & Hhs & _ & Hsome). apply Exists_exists in Hsome as (r & Hr2 & _).
    exists (h_addr r), (h_port r). apply elem_concat. exists (ask_all h i hs). split.
    + apply elem_of_list_fmap. exists r. done.
    + apply elem_of_lookup_zip_with. exists k, i, hs. done.
  - intros H1. clear -Hall H1. unfold requests. induction Hall as [|i hs is rounds [HRh _] _ IH]; [constructor|].
    cbn [zip_with concat]. pose proof (H1 _ HRh) as Hl. destruct hs as [|r [|]]; try done. cbn. constructor; [eauto|exact IH].
Qed.

(** *** C88: files that are not empty *)
Lemma accepted cwd dir dl A c f h content cs name own host port ifs resps r M data :
  reached cwd dir dl A c f -> A !! h = None -> no_spare ifs -> own_address ifs own -> host <> own ->
  content <> [] -> h <> blank -> (length content + cs - 1) / cs <= N.to_nat 65536 -> u16 port -> normal_name (take 255 name) ->
  shares M h content cs name host -> found M port h r -> selected (fun x => h_addr x <> own) resps [r] -> described M port h data ->
  exists c' f', run f (start_download (Some ifs) c h resps (Some data)) = (f', Done (c', Ok own))
    /\ reached cwd dir dl (<[h := new_entry (join2 dl (take 255 name)) (Z.of_nat (length content)) (Z.of_nat cs)]> A) c' f'
    /\ same_user dir f f'.
Proof.
  intros H Ha Hns Hown Hho Hne Hbl Hmax Hport Hname HM Hfo Hsel Hdesc.
  assert (Z.of_nat ((length content + cs - 1) / cs) <= 65536)%Z as Hmaxz by lia. clear Hmax.
  assert (exists s0, is_up M s0 port) as [s0 Hup0] by (destruct Hfo as (s0 & _ & _ & Hup & _); eauto).
  destruct (shares_facts h content cs name host port Hmaxz M s0 HM Hup0) as (Hwf & Hcs & Hlen).
  destruct (found_good h content cs name host port Hport Hne Hbl Hmaxz M own r resps Hho HM Hfo Hsel) as (Hgood & _).
  destruct (described_entry h content cs name host port Hbl Hmaxz M data HM Hdesc) as (reqid & en & Hq & -> & Ht & Hh & Hsz & Hch & Hnm).
  destruct (start_new_lemma cwd dir dl A c f h ifs own resps r [] reqid en H Ha Hns Hown Hgood Hq Ht Hh) as (c' & f' & Hrun & Hre & Hsu).
  { lia. }
  { lia. }
  { rewrite Hnm. done. }
  rewrite Hnm, Hsz, Hch in Hre. eauto.
Qed.
