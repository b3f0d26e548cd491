(** Proofs about concurrent uploads. *)
From Verif Require Export UploadsSpec ServerProofs5.
From Coq Require Import ZifyBool ZifyNat ZifyN.

Record uinv (U : ustate) : Prop := {
  ui_rd : forall j h, u_hs U !! j = Some h -> (Z.of_nat (uh_cs h) < 4294967296)%Z /\ (Z.of_nat (uh_i h) < 65536)%Z
            /\ exists fuel, new_chunk_reader fuel (FRegular (uh_l h)) (chunk_section (Z.of_nat (uh_i h)) (Z.of_nat (uh_cs h))) = Some (uh_rd h);
  ui_heap : forall k n, u_map U !! k = Some n -> exists u j h, u_heap U !! n = Some u /\ u_hs U !! j = Some h /\ uh_key h = k
            /\ carries (uh_l h) (uh_cs h) (uh_i h) u;
  ui_inj : forall k k' n, u_map U !! k = Some n -> u_map U !! k' = Some n -> k = k';
  ui_kick : forall j h, u_hs U !! j = Some h -> (uh_pc h = UKick \/ exists r, uh_pc h = UEnd r) -> exists n, u_map U !! uh_key h = Some n;
  ui_end : forall j h r, u_hs U !! j = Some h -> uh_pc h = UEnd r -> exists j' h', u_hs U !! j' = Some h' /\ uh_key h' = uh_key h /\
            r = if uh_wok h then Ok (0%N, sha1 (asked h) ++ be 4 (N.of_nat (length (asked h))) ++ take 1000 (asked h')) else Err "write error"
}.
Definition same_req (h h' : uhandler) : Prop :=
  uh_key h' = uh_key h /\ uh_l h' = uh_l h /\ uh_cs h' = uh_cs h /\ uh_i h' = uh_i h.
Lemma ustep_keeps U U' j h : ustep U U' -> u_hs U !! j = Some h -> exists h', u_hs U' !! j = Some h' /\ same_req h h'.
Proof.
  intros Hs Hj. assert (same_req h h) as Hsame by done.
  destruct Hs as [U j' key l cs i rd cap wok fuel Hn Hc Hi Hr|U j' h' Hj' Hp|U j' h' n Hj' Hp Hn|U j' h' n u u' r Hj' Hp Hm Hh Hk|U j' h' Hj' Hp Hm|U n u v u' ps Hu Hv];
  cbn [u_set u_hs]; try (by exists h);
  (destruct (decide (j' = j)) as [->|]; [rewrite lookup_insert|rewrite lookup_insert_ne by done; by exists h]); try congruence;
  rewrite Hj in Hj'; injection Hj' as <-; eexists; (split; [done|]); done.
Qed.
Lemma kick_packet h u j' h' U : uinv U -> u_hs U !! j' = Some h' -> sends_at (uh_l h') (uh_cs h') (uh_i h') u ->
  (Z.of_nat (uh_cs h) < 4294967296)%Z -> (Z.of_nat (uh_i h) < 65536)%Z -> uh_rd h = rd_at (uh_l h) (uh_cs h) (uh_i h) 0 ->
  exists u', kickstart (cr_hash (uh_rd h)) (cr_size (uh_rd h)) u (uh_wok h) =
    (u', if uh_wok h then Ok (0%N, sha1 (asked h) ++ be 4 (N.of_nat (length (asked h))) ++ take 1000 (asked h')) else Err "write error")
    /\ sends_at (uh_l h') (uh_cs h') (uh_i h') u'.
Proof.
  intros HI Hj Hs Hc Hi Hr. destruct (ui_rd _ HI _ _ Hj) as (G1 & G2 & _).
  rewrite Hr. change (cr_hash (rd_at (uh_l h) (uh_cs h) (uh_i h) 0)) with (sha1 (asked h)).
  change (cr_size (rd_at (uh_l h) (uh_cs h) (uh_i h) 0)) with (Z.of_nat (length (asked h))).
  destruct (kickstart_at _ _ _ u (sha1 (asked h)) (Z.of_nat (length (asked h))) (uh_wok h) G1 G2 Hs) as (u' & -> & Hs').
  - apply sha1_length.
  - destruct (d_len (uh_l h) (uh_cs h) (uh_i h) 0 0 ltac:(lia)) as [_ ?]. unfold asked. lia.
  - exists u'. split; [|done]. unfold asked. replace (Z.to_N (Z.of_nat (length (chunk_bytes (uh_l h) (uh_cs h) (uh_i h))))) with (N.of_nat (length (chunk_bytes (uh_l h) (uh_cs h) (uh_i h)))) by lia. done.
Qed.
Lemma uinv_init : uinv u_init.
Proof. constructor; cbn; intros; rewrite ?lookup_empty in *; done. Qed.
Lemma set_upc_same h p : same_req h (set_upc h p).
Proof. done. Qed.
(** handlers that only move on *)
Lemma uinv_move U j h p : uinv U -> u_hs U !! j = Some h ->
  (p = UKick \/ (exists r, p = UEnd r) -> exists n, u_map U !! uh_key h = Some n) ->
  (forall r, p = UEnd r -> exists j' h', u_hs U !! j' = Some h' /\ uh_key h' = uh_key h /\
            r = if uh_wok h then Ok (0%N, sha1 (asked h) ++ be 4 (N.of_nat (length (asked h))) ++ take 1000 (asked h')) else Err "write error") ->
  uinv (u_set U j (set_upc h p)).
Proof.
  intros [I1 I2 I3 I4 I5] Hj Hk He.
  assert (forall j' h', u_hs U !! j' = Some h' -> exists h2, u_hs (u_set U j (set_upc h p)) !! j' = Some h2 /\ same_req h' h2) as Hold.
  { intros j' h' H. cbn. destruct (decide (j = j')) as [->|]; [rewrite lookup_insert; rewrite Hj in H; injection H as <-; by eexists|].
    rewrite lookup_insert_ne by done. exists h'. done. }
  constructor; cbn [u_set u_map u_heap u_hs].
  - intros j' h' H. destruct (decide (j = j')) as [->|]; [|rewrite lookup_insert_ne in H by done; eauto].
    rewrite lookup_insert in H. injection H as <-. apply (I1 _ _ Hj).
  - intros k n H. destruct (I2 _ _ H) as (u & j' & h' & G1 & G2 & G3 & G4). destruct (Hold _ _ G2) as (h2 & K1 & K2 & K3 & K4 & K5).
    exists u, j', h2. split; [done|]. split; [done|]. rewrite K2, K3, K4, K5. done.
  - done.
  - intros j' h' H. destruct (decide (j = j')) as [->|]; [|rewrite lookup_insert_ne in H by done; eauto].
    rewrite lookup_insert in H. injection H as <-. exact Hk.
  - intros j' h' r H Hp.
    assert (exists j2 h2, u_hs U !! j2 = Some h2 /\ uh_key h2 = uh_key h' /\
      r = if uh_wok h' then Ok (0%N, sha1 (asked h') ++ be 4 (N.of_nat (length (asked h'))) ++ take 1000 (asked h2)) else Err "write error") as (j2 & h2 & G1 & G2 & G3).
    { destruct (decide (j = j')) as [->|]; [|rewrite lookup_insert_ne in H by done; eauto].
      rewrite lookup_insert in H. injection H as <-. exact (He _ Hp). }
    destruct (Hold _ _ G1) as (h3 & K1 & K2 & K3 & K4 & K5). exists j2, h3. split; [done|]. rewrite K2. split; [done|].
    unfold asked at 3. rewrite K3, K4, K5. done.
Qed.
Lemma uinv_heap U n u u' : uinv U -> u_heap U !! n = Some u -> (forall l cs i, carries l cs i u -> carries l cs i u') ->
  uinv (mkU (u_map U) (<[n := u']> (u_heap U)) (u_hs U)).
Proof.
  intros [I1 I2 I3 I4 I5] Hn Hu. constructor; cbn; try done.
  intros k n' H. destruct (I2 _ _ H) as (v & j & h & G1 & G2 & G3 & G4). destruct (decide (n = n')) as [->|].
  - exists u', j, h. rewrite lookup_insert. rewrite Hn in G1. injection G1 as <-. auto.
  - exists v, j, h. rewrite lookup_insert_ne by done. done.
Qed.
Lemma uinv_step U U' : uinv U -> ustep U U' -> uinv U'.
Proof.
  intros HI Hs. destruct Hs as [U j key l cs i rd cap wok fuel Hn Hc Hi Hr|U j h Hj Hp|U j h n Hj Hp Hn|U j h n u u' r Hj Hp Hm Hh Hk|U j h Hj Hp Hm|U n u v u' ps Hu Hv].
  - destruct HI as [I1 I2 I3 I4 I5]. constructor; cbn [u_set u_map u_heap u_hs].
    + intros j' h' H. destruct (decide (j = j')) as [->|]; [|rewrite lookup_insert_ne in H by done; eauto].
      rewrite lookup_insert in H. injection H as <-. cbn. split; [done|]. split; [done|]. by exists fuel.
    + intros k n H. destruct (I2 _ _ H) as (u & j' & h' & G1 & G2 & G3). exists u, j', h'. rewrite lookup_insert_ne by congruence. done.
    + done.
    + intros j' h' H. destruct (decide (j = j')) as [->|]; [|rewrite lookup_insert_ne in H by done; eauto].
      rewrite lookup_insert in H. injection H as <-. cbn. intros [?|[? ?]]; done.
    + intros j' h' r H. destruct (decide (j = j')) as [->|]; [rewrite lookup_insert in H; injection H as <-; done|].
      rewrite lookup_insert_ne in H by done. intros Hp. destruct (I5 _ _ _ H Hp) as (j2 & h2 & G1 & G2). exists j2, h2.
      rewrite lookup_insert_ne by congruence. done.
  - apply uinv_move; [done..| |].
    + destruct (u_map U !! uh_key h) as [n|]; [eauto|]. intros [?|[? ?]]; done.
    + intros r. destruct (u_map U !! uh_key h); done.
  - destruct HI as [I1 I2 I3 I4 I5].
    assert (u_hs U !! j = Some h) as Hj' by done.
    assert (uinv (mkU (<[uh_key h := n]> (u_map U)) (<[n := new_sender (FRegular (uh_l h)) (uh_rd h) (uh_cap h)]> (u_heap U)) (u_hs U))) as HI2.
    { assert (forall k m, u_map U !! k = Some m -> m <> n) as Hfresh.
      { intros k m H ->. destruct (I2 _ _ H) as (u & _ & _ & G & _). congruence. }
      destruct (I1 _ _ Hj) as (B1 & B2 & fuel & B3). constructor; cbn; try done.
      - intros k m H. destruct (decide (uh_key h = k)) as [<-|].
        + rewrite lookup_insert in H. injection H as <-. exists (new_sender (FRegular (uh_l h)) (uh_rd h) (uh_cap h)), j, h. rewrite lookup_insert. split_and!; [done..|].
          by eapply ca_new.
        + rewrite lookup_insert_ne in H by done. destruct (I2 _ _ H) as (u & j' & h' & G1 & G2). exists u, j', h'.
          rewrite lookup_insert_ne by (apply not_eq_sym; eauto). done.
      - intros k k' m H1 H2. destruct (decide (uh_key h = k)) as [<-|], (decide (uh_key h = k')) as [<-|]; rewrite ?lookup_insert in *; try done.
        + rewrite lookup_insert_ne in H2 by done. injection H1 as <-. exfalso. by eapply Hfresh.
        + rewrite lookup_insert_ne in H1 by done. injection H2 as <-. exfalso. by eapply Hfresh.
        + rewrite lookup_insert_ne in H1, H2 by done. eauto.
      - intros j' h' H Hp'. destruct (decide (uh_key h = uh_key h')) as [<-|]; [rewrite lookup_insert; eauto|]. rewrite lookup_insert_ne by done. eauto. }
    refine (uinv_move _ j h UKick HI2 Hj _ _); [|done]. intros _. cbn. rewrite lookup_insert. eauto.
  - destruct (ui_heap _ HI _ _ Hm) as (u2 & j' & h' & G1 & G2 & G3 & G4). rewrite Hh in G1. injection G1 as <-.
    destruct (ui_rd _ HI _ _ Hj) as (B1 & B2 & fuel & B3). destruct (ui_rd _ HI _ _ G2) as (B1' & B2' & _).
    destruct (kick_packet h u j' h' U HI G2 (carries_at _ _ _ _ B1' B2' G4) B1 B2 (reader_at _ _ _ _ _ B1 B2 B3)) as (u3 & Hk3 & _). rewrite Hk in Hk3. injection Hk3 as <- ->.
    assert (uinv (mkU (u_map U) (<[n := u']> (u_heap U)) (u_hs U))) as HI2.
    { eapply uinv_heap; [done..|]. intros l cs i K1. by eapply ca_request. }
    refine (uinv_move _ j h (UEnd _) HI2 Hj _ _); [eauto|]. intros r [= <-]. eauto.
  - destruct (ui_kick _ HI _ _ Hj (or_introl Hp)) as [n ?]. congruence.
  - eapply uinv_heap; [done..|]. intros l cs i K1. by eapply ca_step.
Qed.
Lemma u_reached_inv U : u_reached U -> uinv U.
Proof. apply rtc_ind_r; [apply uinv_init|]. intros. by eapply uinv_step. Qed.
Lemma C71_mixed_lemma U j h r : u_reached U -> u_hs U !! j = Some h -> uh_pc h = UEnd r -> 
  exists j' h', u_hs U !! j' = Some h' /\ uh_key h' = uh_key h /\
    if uh_wok h then r = Ok (0%N, sha1 (asked h) ++ be 4 (N.of_nat (length (asked h))) ++ take 1000 (asked h')) else is_err r.
Proof.
  intros HU Hj Hp. destruct (ui_end _ (u_reached_inv _ HU) _ _ _ Hj Hp) as (j' & h' & G1 & G2 & ->). exists j', h'. split; [done|]. split; [done|].
  destruct (uh_wok h); [done|]. by eexists.
Qed.
Lemma C71_partial_lemma U j h r : u_reached U -> distinct_peers U -> u_hs U !! j = Some h -> uh_pc h = UEnd r ->
  (if uh_wok h then r = Ok (stream (sha1 (asked h)) (asked h) 0) else is_err r) /\
  exists n u, u_map U !! uh_key h = Some n /\ u_heap U !! n = Some u /\ carries (uh_l h) (uh_cs h) (uh_i h) u.
Proof.
  intros HU Hd Hj Hp. split.
  - destruct (C71_mixed_lemma _ _ _ _ HU Hj Hp) as (j' & h' & G1 & G2 & G3). rewrite (Hd _ _ _ _ G1 Hj G2) in G1. rewrite Hj in G1. injection G1 as <-. exact G3.
  - pose proof (u_reached_inv _ HU) as HI. destruct (ui_kick _ HI _ _ Hj) as [n Hn]; [eauto|].
    destruct (ui_heap _ HI _ _ Hn) as (u & j' & h' & G1 & G2 & G3 & G4). exists n, u. split; [done|]. split; [done|].
    rewrite (Hd _ _ _ _ G2 Hj G3) in G2. rewrite Hj in G2. injection G2 as <-. done.
Qed.
(** two requests for different chunks from one peer, handled at the same time *)
Lemma two_requests key1 key2 l cs i1 i2 cap : (Z.of_nat cs < 4294967296)%Z -> (Z.of_nat i1 < 65536)%Z -> (Z.of_nat i2 < 65536)%Z ->
  let h1 := mkUh key1 l cs i1 (rd_at l cs i1 0) cap true UInsert in
  let h2 := mkUh key2 l cs i2 (rd_at l cs i2 0) cap true UInsert in
  u_reached (mkU ∅ ∅ (<[2 := h2]> (<[1 := h1]> ∅))).
Proof.
  intros Hc H1 H2 h1 h2. destruct (reader_exists l cs i1 Hc H1) as [fuel1 F1]. destruct (reader_exists l cs i2 Hc H2) as [fuel2 F2].
  eapply rtc_l; [eapply (us_arrive _ 1 key1 l cs i1 _ cap true fuel1); [apply lookup_empty|done|done|exact F1]|].
  eapply rtc_l; [eapply (us_check _ 1); [apply lookup_insert|done]|].
  eapply rtc_l; [eapply (us_arrive _ 2 key2 l cs i2 _ cap true fuel2); [by cbn; rewrite insert_insert, lookup_insert_ne, lookup_empty|done|done|exact F2]|].
  apply rtc_once.
  match goal with |- ustep ?U0 ?U1 => assert (U1 = u_set U0 2 (set_upc (mkUh key2 l cs i2 (rd_at l cs i2 0) cap true UCheck)
     (match u_map U0 !! key2 with Some _ => UKick | None => UInsert end))) as -> end.
  { cbn. unfold u_set. cbn. rewrite !lookup_empty, !insert_insert. done. }
  apply us_check; [apply lookup_insert|done].
Qed.
Lemma C71_race_lemma key1 key2 l cs i1 i2 : (Z.of_nat cs < 4294967296)%Z -> (Z.of_nat i1 < 65536)%Z -> (Z.of_nat i2 < 65536)%Z ->
  exists U h1 h2, u_reached U /\ u_hs U !! 1 = Some h1 /\ u_hs U !! 2 = Some h2 /\ dom (u_hs U) = {[1; 2]} /\ uh_key h1 = key1 /\ uh_key h2 = key2
    /\ asked h1 = chunk_bytes l cs i1 /\ asked h2 = chunk_bytes l cs i2 /\ map_race U 1 2.
Proof.
  intros Hc H1 H2. eexists _, _, _. split; [exact (two_requests key1 key2 l cs i1 i2 1%N Hc H1 H2)|]. cbn.
  split; [rewrite lookup_insert_ne, lookup_insert by done; done|]. split; [apply lookup_insert|]. split; [set_solver|].
  split; [done|]. split; [done|]. split; [done|]. split; [done|].
  unfold map_race. cbn. split; [done|]. rewrite lookup_insert, lookup_insert_ne, lookup_insert by done. done.
Qed.
Lemma C71_same_lemma (key : list byte * N) l cs i1 i2 : (Z.of_nat cs < 4294967296)%Z -> (Z.of_nat i1 < 65536)%Z -> (Z.of_nat i2 < 65536)%Z ->
  exists U h1, u_reached U /\ u_hs U !! 1 = Some h1 /\ asked h1 = chunk_bytes l cs i1 /\
    uh_pc h1 = UEnd (Ok (0%N, sha1 (asked h1) ++ be 4 (N.of_nat (length (asked h1))) ++ take 1000 (chunk_bytes l cs i2))).
Proof.
  intros Hc H1 H2. set (B := chunk_bytes l cs i1).
  destruct (kickstart_at l cs i2 (new_sender (FRegular l) (rd_at l cs i2 0) 1%N) (sha1 B) (Z.of_nat (length B)) true Hc H2) as (u' & Hk & _).
  { split; [done|]. exists 0. split; [done|]. lia. }
  { apply sha1_length. }
  { destruct (d_len l cs i1 0 0 ltac:(lia)) as [_ ?]. subst B. lia. }
  eexists _, _. split.
  - eapply rtc_r; [eapply rtc_r; [eapply rtc_r; [exact (two_requests key key l cs i1 i2 1%N Hc H1 H2)|]|]|].
    + eapply (us_insert _ 1 _ 1); cbn; [rewrite lookup_insert_ne by done; apply lookup_insert|done|apply lookup_empty].
    + eapply (us_insert _ 2 _ 2); cbn; [rewrite lookup_insert_ne by done; apply lookup_insert|done|rewrite lookup_insert_ne by done; apply lookup_empty].
    + eapply (us_kick _ 1); cbn; [rewrite lookup_insert_ne by done; apply lookup_insert|done|apply lookup_insert|apply lookup_insert|exact Hk].
  - cbn. split; [apply lookup_insert|]. split; [done|]. cbn. unfold asked. cbn. fold B. replace (Z.to_N (Z.of_nat (length B))) with (N.of_nat (length B)) by lia. done.
Qed.
(** ** A request handled without interruption *)
Lemma same_table_kick U tbl k n u u' : uinv U -> same_table U tbl -> u_map U !! k = Some n -> u_heap U !! n = Some u ->
  forall hs, same_table (mkU (u_map U) (<[n := u']> (u_heap U)) hs) (<[k := u']> tbl).
Proof.
  intros HI Ht Hm Hh hs k'. cbn [u_map u_heap]. destruct (decide (k = k')) as [<-|Hne].
  - rewrite lookup_insert, Hm. cbn. rewrite lookup_insert. done.
  - rewrite lookup_insert_ne by done. rewrite Ht. destruct (u_map U !! k') as [n'|] eqn:E; cbn; [|done].
    rewrite lookup_insert_ne; [done|]. intros ->. apply Hne. by eapply (ui_inj _ HI).
Qed.
Lemma same_table_ack U tbl k u v u' ps : u_reached U -> same_table U tbl -> tbl !! k = Some u -> sstep u v = SGo u' ps ->
  exists U', ustep U U' /\ same_table U' (<[k := u']> tbl) /\ u_hs U' = u_hs U.
Proof.
  intros HU Ht Hk Hv. pose proof (u_reached_inv _ HU) as HI. pose proof Hk as Hk'. rewrite Ht in Hk'.
  destruct (u_map U !! k) as [n|] eqn:Hm; [|done]. cbn in Hk'.
  eexists. split; [by eapply us_work|]. split; [|done]. by eapply same_table_kick.
Qed.
Lemma same_table_insert U tbl k n u hs : uinv U -> same_table U tbl -> tbl !! k = None -> u_heap U !! n = None ->
  same_table (mkU (<[k := n]> (u_map U)) (<[n := u]> (u_heap U)) hs) (<[k := u]> tbl).
Proof.
  intros HI Ht Hk Hn k'. cbn [u_map u_heap]. destruct (decide (k = k')) as [<-|Hne].
  - rewrite !lookup_insert. cbn. rewrite lookup_insert. done.
  - rewrite !lookup_insert_ne by done. rewrite Ht. destruct (u_map U !! k') as [n'|] eqn:E; cbn; [|done].
    rewrite lookup_insert_ne; [done|]. intros ->. destruct (ui_heap _ HI _ _ E) as (? & _ & _ & G & _). congruence.
Qed.
Lemma request_alone U tbl j key l cs i cap wok : u_reached U -> same_table U tbl -> u_hs U !! j = None ->
  (Z.of_nat cs < 4294967296)%Z -> (Z.of_nat i < 65536)%Z ->
  let B := chunk_bytes l cs i in
  let u0 := default (new_sender (FRegular l) (rd_at l cs i 0) cap) (tbl !! key) in
  exists U' hd, rtc ustep U U' /\ u_hs U' !! j = Some hd /\ uh_key hd = key /\ asked hd = B /\ uh_wok hd = wok
    /\ uh_pc hd = UEnd (kickstart (sha1 B) (Z.of_nat (length B)) u0 wok).2
    /\ same_table U' (<[key := (kickstart (sha1 B) (Z.of_nat (length B)) u0 wok).1]> tbl)
    /\ exists l0 cs0 i0, (Z.of_nat cs0 < 4294967296)%Z /\ (Z.of_nat i0 < 65536)%Z /\ sends_at l0 cs0 i0 u0.
Proof.
  intros HU Ht Hj Hcs Hi B u0. destruct (reader_exists l cs i Hcs Hi) as [fuel Hrd].
  set (rd := rd_at l cs i 0) in *. assert (rd = rd_at l cs i 0) as Erd by done.
  set (h0 := mkUh key l cs i rd cap wok UCheck).
  assert (ustep U (u_set U j h0)) as S1 by (by eapply us_arrive).
  assert (uinv (u_set U j h0)) as I1 by (eapply uinv_step; [by apply u_reached_inv|done]).
  assert (same_table (u_set U j h0) tbl) as T1 by exact Ht.
  assert (u_hs (u_set U j h0) !! j = Some h0) as J1 by apply lookup_insert.
  assert (exists U2 n, rtc ustep (u_set U j h0) U2 /\ uinv U2 /\ u_hs U2 !! j = Some (set_upc h0 UKick) /\ u_map U2 !! key = Some n
    /\ u_heap U2 !! n = Some u0 /\ same_table U2 (<[key := u0]> tbl)) as (U2 & n & R2 & I2 & J2 & M2 & H2 & T2).
  { assert (ustep (u_set U j h0) (u_set (u_set U j h0) j (set_upc h0 (match u_map (u_set U j h0) !! key with Some _ => UKick | None => UInsert end)))) as S2
      by (apply (us_check _ j h0); done).
    pose proof (uinv_step _ _ I1 S2) as I2. pose proof (T1 key) as Hkey. destruct (u_map (u_set U j h0) !! key) as [n|] eqn:Em.
    - destruct (ui_heap _ I1 _ _ Em) as (u & _ & _ & G & _). cbn [mbind option_bind] in Hkey. rewrite G in Hkey.
      assert (u0 = u) as E by (subst u0; rewrite Hkey; done).
      eexists _, n. split; [eapply rtc_once; exact S2|]. split; [exact I2|]. split; [apply lookup_insert|]. split; [exact Em|].
      rewrite E. split; [exact G|]. rewrite insert_id by done. exact T1.
    - cbn [mbind option_bind] in Hkey. set (U1 := u_set (u_set U j h0) j (set_upc h0 UInsert)) in *.
      assert (u0 = new_sender (FRegular l) rd cap) as E by (subst u0; rewrite Hkey, Erd; done).
      set (n := fresh (dom (u_heap U1))). assert (u_heap U1 !! n = None) as Hn by (apply not_elem_of_dom, is_fresh).
      assert (u_hs U1 !! j = Some (set_upc h0 UInsert)) as J2 by apply lookup_insert.
      pose proof (us_insert U1 j _ n J2 eq_refl Hn) as S3. pose proof (uinv_step _ _ I2 S3) as I3.
      eexists _, n. split; [eapply rtc_l; [exact S2|]; eapply rtc_once; exact S3|]. split; [exact I3|].
      split; [apply lookup_insert|]. split; [apply lookup_insert|]. rewrite E. split; [apply lookup_insert|].
      by apply same_table_insert. }
  destruct (ui_heap _ I2 _ _ M2) as (u & j' & h' & G1 & G2 & G3 & G4). rewrite H2 in G1. injection G1 as <-.
  destruct (ui_rd _ I2 _ _ G2) as (B1 & B2 & _).
  destruct (kickstart (sha1 B) (Z.of_nat (length B)) u0 wok) as [u' r] eqn:Hk. cbn [fst snd].
  assert (kickstart (cr_hash (uh_rd (set_upc h0 UKick))) (cr_size (uh_rd (set_upc h0 UKick))) u0 (uh_wok (set_upc h0 UKick)) = (u', r)) as Hk'.
  { cbn [set_upc h0 uh_rd uh_wok]. rewrite Erd. exact Hk. }
  pose proof (us_kick U2 j _ n u0 u' r J2 eq_refl M2 H2 Hk') as S4.
  eexists _, _. split; [eapply rtc_l; [exact S1|]; eapply rtc_r; [exact R2|exact S4]|].
  split; [apply lookup_insert|]. split; [done|]. split; [done|]. split; [done|]. split; [done|]. split.
  - rewrite <- (insert_insert tbl key u' u0). by eapply same_table_kick.
  - exists (uh_l h'), (uh_cs h'), (uh_i h'). split; [done|]. split; [done|]. by apply carries_at.
Qed.
Lemma C71_alone_lemma cwd dir dl A s f e buffer h a l i cap ra ip U j :
  let cs := Z.to_nat (a_chunk a) in
  srv_reached cwd dir dl A s f -> u_reached U -> same_table U (sv_uploads s) -> u_hs U !! j = None ->
  parse buffer = Ok (OpenReq h i cap) -> A !! h = Some a -> i ∈ a_held a ->
  file_at f (a_path a) = Some l -> length l < en_fuel e -> from_ipv4 ra ip ->
  exists s' ds hd U' r0 r, run f (handle_message e s buffer ra) = (f, Done (s', ds, HRet r0)) /\ rtc ustep U U'
    /\ same_table U' (sv_uploads s') /\ u_hs U' !! j = Some hd /\ uh_pc hd = UEnd r
    /\ uh_key hd = (ip, u16_of_int (ua_port ra)) /\ asked hd = chunk_bytes l cs (N.to_nat i)
    /\ match r with
       | Ok p => r0 = Ok tt /\ ds = [mkDgram (slice_bytes (ua_ip ra)) (ua_port ra) (wire p)]
       | Err w => r0 = Err w /\ ds = []
       | Panic _ => False
       end.
Proof.
  intros cs H HU Ht Hj Hp Ha Hh Hl Hfuel Hra. destruct (srv_inv _ _ _ _ _ _ H) as (Hre & _ & _).
  destruct (entry_facts _ _ _ _ _ _ _ _ Hre Ha) as (F1 & F2 & F3 & F4).
  destruct (parse_typed _ _ Hp) as [(_ & Hi & _) _]. unfold u16 in Hi.
  destruct (request_alone U (sv_uploads s) j (up_key ip ra) l cs (N.to_nat i) cap (en_wok e) HU Ht Hj ltac:(subst cs; lia) ltac:(lia))
    as (U' & hd & G1 & G2 & G3 & G4 & G5 & G6 & G7 & l0 & cs0 & i0 & G8 & G9 & G10).
  destruct (start_upload_run cwd dir dl A s f e h a l i cap ra ip _ l0 cs0 i0 Hre Ha Hi Hh Hl Hfuel Hra eq_refl G8 G9 G10)
    as (s' & u' & K1 & K2 & K3 & K4 & K5 & K6).
  fold cs in K1, K6. destruct (kickstart_at l0 cs0 i0 _ (sha1 (chunk_bytes l cs (N.to_nat i))) (Z.of_nat (length (chunk_bytes l cs (N.to_nat i)))) (en_wok e) G8 G9 G10 (sha1_length _))
    as (u2 & Hk & _).
  { pose proof (B_len l cs (N.to_nat i)). subst cs. lia. }
  rewrite Hk in G6, G7, K1. cbn [fst snd] in G6, G7, K1. subst u2.
  eexists s', _, hd, U', _, _. split; [unfold handle_message; rewrite Hp; exact K6|]. split; [done|]. split; [rewrite K2; exact G7|].
  split; [done|]. split; [exact G6|]. split; [exact G3|]. split; [exact G4|].
  replace (Z.to_N (Z.of_nat (length (chunk_bytes l cs (N.to_nat i))))) with (N.of_nat (length (chunk_bytes l cs (N.to_nat i)))) by lia.
  destruct (en_wok e); split; done.
Qed.
Lemma C71_ack_lemma f e s buffer off ra ip U u : u_reached U -> same_table U (sv_uploads s) ->
  parse buffer = Ok (Ack off) -> from_ipv4 ra ip -> sv_uploads s !! (ip, u16_of_int (ua_port ra)) = Some u ->
  exists s' U' u', run f (handle_message e s buffer ra) = (f, Done (s', [], HRet (Ok tt)))
    /\ ustep U U' /\ same_table U' (sv_uploads s') /\ u_hs U' = u_hs U
    /\ sv_uploads s' = <[(ip, u16_of_int (ua_port ra)) := u']> (sv_uploads s) /\ sstep u SAck = SGo u' [].
Proof.
  intros HU Ht Hp (lip & Hra & Hip) Hk. unfold handle_message. rewrite Hp. unfold continue_upload.
  rewrite Hra, new_ipv4_exact with (a := ip) by done. cbn [on_ret]. rewrite Hk.
  destruct (same_table_ack U (sv_uploads s) _ u SAck _ [] HU Ht Hk eq_refl) as (U' & K1 & K2 & K3).
  eexists _, U', _. split; [reflexivity|]. split; [exact K1|]. split; [exact K2|]. split; [exact K3|]. split; done.
Qed.
