(** Proofs about message handling, part 4: uploads, what ends the process, request
    IDs, host selection. *)
From Verif Require Export TransferProofs ServerProofs3.
From Coq Require Import ZifyBool ZifyNat ZifyN.
Ltac Zify.zify_post_hook ::= Z.div_mod_to_equations.

(** ** Uploads *)
Lemma reader_run cwd dir dl A c f h a fuel i : reached cwd dir dl A c f -> A !! h = Some a -> (i < 65536)%N ->
  f !! a_path a <> Some NDir -> (forall l, file_at f (a_path a) = Some l -> length l < fuel) ->
  exists c', reached cwd dir dl A c' f /\
    match file_at f (a_path a) with
    | Some l =>
        if decide (i ∈ a_held a) then
          run f (get_chunk_reader fuel c h (Z.of_N i)) = (f, Done (c', Ok (FRegular l, rd_at l (Z.to_nat (a_chunk a)) (N.to_nat i) 0)))
        else exists w, run f (get_chunk_reader fuel c h (Z.of_N i)) = (f, Done (c', Err w))
    | None => exists w, run f (get_chunk_reader fuel c h (Z.of_N i)) = (f, Done (c', Err w))
    end.
Proof.
  intros H Ha Hi Hnd Hfuel. pose proof (reached_synced _ _ _ _ _ _ H) as (Hc & Hs & Hd & Hdl).
  destruct (reached_call cwd dir dl A c f (CReader fuel h (N.to_nat i)) H) as (c' & f' & A' & ans & Hr & Hsp & Hre).
  { cbn. split; [lia|]. intros a' Ha'. simplify_eq. done. }
  cbn [crun aspec] in Hr, Hsp. rewrite N_nat_Z in Hr. destruct Hsp as (_ & -> & Hsp). rewrite Ha in Hsp.
  assert (f' = f) as ->.
  { destruct (get_record_ok c f A h a Hs Ha) as (r & b & Hrun & _ & Hrel & Hb & _). revert Hr.
    unfold get_chunk_reader. rewrite run_bind, Hrun. cbn [on_ok fst snd]. rewrite run_bind. unfold get_chunk_reader_of.
    destruct (bget _ _) as [[]|w|w]; cbn [run finish]; try done; [|by intros [= _ <-]].
    cbn [do_op]. destruct (f !! r_path r) as [[l|]|]; cbn [run]; try (destruct (new_chunk_reader _ _ _)); cbn [run finish]; try done; by intros [= _ <-]. }
  destruct (run f (get_chunk_reader fuel c h (Z.of_N i))) as [f1 [[c1 g]|w| ]] eqn:E; cbn [finish] in Hr; try done.
  cbn [fst snd] in Hr. injection Hr as <- -> <-. exists c1. split; [done|].
  rewrite N2Nat.id in Hsp.
  assert (forall w, g = Panic w -> False) as Hnp.
  { intros w ->. revert E. destruct (get_record_ok c f A h a Hs Ha) as (r & b & Hrun & _ & Hrel & Hb & _).
    unfold get_chunk_reader. rewrite run_bind, Hrun. cbn [on_ok fst snd]. rewrite run_bind. unfold get_chunk_reader_of.
    destruct (bget _ _) as [[]|w'|w']; cbn [run]; try done.
    cbn [do_op]. destruct (f !! r_path r) as [[l|]|]; cbn [run]; try (destruct (new_chunk_reader _ _ _)); cbn [run]; done. }
  destruct (file_at f (a_path a)) as [l|] eqn:El.
  - destruct (decide (i ∈ a_held a)).
    + destruct Hsp as (cr & Hg & _). destruct g as [[fo rd]|w|w]; try done. cbn in Hg. injection Hg as -> ->.
      do 5 f_equal.
      destruct (get_record_ok c f A h a Hs Ha) as (r & b & Hrun & _ & Hrel & Hb & _).
      pose proof Hrel as (_ & _ & Hrp & _ & _ & _ & Hrc & Hch & _).
      revert E. unfold get_chunk_reader. rewrite run_bind, Hrun. cbn [on_ok fst snd]. rewrite run_bind. unfold get_chunk_reader_of.
      destruct (bget _ _) as [[]|w|w]; cbn [run]; try done. cbn [do_op]. rewrite Hrp. unfold file_at in El.
      destruct (f !! a_path a) as [[l'|]|]; [|done|done]. cbn [run]. injection El as ->.
      destruct (new_chunk_reader _ _ _) as [rd'|] eqn:Er; [|done]. cbn [run]. intros [= _ <-].
      rewrite Hrc in Er. replace (Z.of_N i) with (Z.of_nat (N.to_nat i)) in Er by lia.
      replace (a_chunk a) with (Z.of_nat (Z.to_nat (a_chunk a))) in Er by lia.
      eapply reader_at; [| |exact Er]; lia.
    + destruct g as [?|w|w]; try done; [by eexists|]. exfalso. eapply Hnp. done.
  - destruct g as [?|w|w]; [by destruct (decide _)|by eexists|]. exfalso. eapply Hnp. done.
Qed.

Lemma reset_rd_at l cs i pos : cr_reset (rd_at l cs i pos) = rd_at l cs i 0.
Proof. unfold cr_reset, rd_at, sec_rewind, sec_at. cbn. f_equal. f_equal. lia. Qed.
(** the state that [carries] describes *)
Definition sends_at (l : list byte) (cs i : nat) (u : sender) : Prop :=
  sd_file u = FRegular l /\ exists pos, sd_rd u = rd_at l cs i pos /\ pos <= length (chunk_bytes l cs i).
Lemma kickstart_at l cs i u h size wok : (Z.of_nat cs < 4294967296)%Z -> (Z.of_nat i < 65536)%Z ->
  sends_at l cs i u -> length h = 20 -> (0 <= size < 4294967296)%Z ->
  exists u', kickstart h size u wok = (u', if wok then Ok (0%N, h ++ be 4 (Z.to_N size) ++ take 1000 (chunk_bytes l cs i)) else Err "write error")
    /\ sends_at l cs i u'.
Proof.
  intros Hcs Hi (Hf & j & Hr & Hj) Hh Hsz. unfold kickstart.
  assert (cr_reset (sd_rd u) = rd_at l cs i 0) as -> by (rewrite Hr; apply reset_rd_at).
  rewrite Hf. unfold rd_at at 1. rewrite cr_read_at by (done || lia). cbn zeta.
  rewrite take_cut, drop_0 by done. rewrite decide_False by (destruct (_ || _); done).
  set (pos' := 0 + length (take 1000 (chunk_bytes l cs i))).
  assert (pos' <= length (chunk_bytes l cs i)) as Hp by (subst pos'; rewrite take_length; lia).
  destruct wok.
  - eexists. split; [f_equal; f_equal; f_equal|].
    + unfold hash_slice. rewrite (header_data cs i); [|done|apply be_length|rewrite take_length; lia]. f_equal. f_equal.
      f_equal. unfold u32_of_int. rewrite Z.mod_small by lia. done.
    + split; [done|]. exists pos'. done.
  - eexists. split; [reflexivity|]. split; [done|]. exists pos'. done.
Qed.
Lemma kickstart_keeps l cs i u h size wok u' r : (Z.of_nat cs < 4294967296)%Z -> (Z.of_nat i < 65536)%Z ->
  sends_at l cs i u -> kickstart h size u wok = (u', r) -> sends_at l cs i u'.
Proof.
  intros Hcs Hi (Hf & j & Hr & Hj). unfold kickstart.
  assert (cr_reset (sd_rd u) = rd_at l cs i 0) as -> by (rewrite Hr; apply reset_rd_at).
  rewrite Hf. unfold rd_at at 1. rewrite cr_read_at by (done || lia). cbn zeta.
  rewrite take_cut, drop_0 by done. rewrite decide_False by (destruct (_ || _); done).
  set (pos' := 0 + length (take 1000 (chunk_bytes l cs i))).
  assert (pos' <= length (chunk_bytes l cs i)) as Hp by (subst pos'; rewrite take_length; lia).
  destruct wok; intros [= <- <-]; (split; [done|]; exists pos'; done).
Qed.
Lemma kick_loop_any l cs i : (Z.of_nat cs < 4294967296)%Z -> forall n pos w, pos <= length (chunk_bytes l cs i) ->
  exists ps ts pos' err, kick_loop n (FRegular l) (rd_at l cs i pos) w = (ps, ts, rd_at l cs i pos', err) /\ pos' <= length (chunk_bytes l cs i).
Proof.
  intros Hcs. induction n as [|n IH]; intros pos w Hp; cbn [kick_loop]; [eauto 10|].
  unfold rd_at at 1. rewrite cr_read_at by done. cbn zeta. rewrite take_cut.
  rewrite decide_False by (destruct (_ || _); done).
  set (d := take 1024 (drop pos (chunk_bytes l cs i))).
  assert (pos + length d <= length (chunk_bytes l cs i)) as Hd by (subst d; rewrite take_length, drop_length; lia).
  change (mkReader (sec_at cs i (pos + length d)) (sha1 (chunk_bytes l cs i)) (Z.of_nat (length (chunk_bytes l cs i)))) with (rd_at l cs i (pos + length d)).
  destruct w as [[|w]|].
  - eauto 10.
  - destruct (IH (pos + length d) (option_map pred (Some (S w))) Hd) as (ps & ts & pos' & err & -> & Hp'). eauto 10.
  - destruct (IH (pos + length d) (option_map pred None) Hd) as (ps & ts & pos' & err & -> & Hp'). eauto 10.
Qed.
Lemma sends_step l cs i u v u' ps : (Z.of_nat cs < 4294967296)%Z -> sends_at l cs i u -> sstep u v = SGo u' ps -> sends_at l cs i u'.
Proof.
  intros Hcs (Hf & j & Hr & Hj). destruct v as [|w|]; cbn [sstep].
  - intros [= <- <-]. split; [done|]. exists j. done.
  - destruct (decide _); [|done]. unfold kick. cbn [set_acks sd_ws sd_cap sd_file sd_rd sd_tok sd_workers sd_stuck sd_acks].
    rewrite Hf, Hr. destruct (kick_loop_any l cs i Hcs (N.to_nat (sd_cap u - (sd_ws u + 65535) mod 65536)) j w Hj) as (qs & ts & pos' & err & -> & Hp').
    destruct (err && _); intros E; simplify_eq. split; [done|]. exists pos'. done.
  - destruct (decide _); [|done]. intros [= <- <-]. split; [done|]. exists j. done.
Qed.
Lemma carries_at l cs i u : (Z.of_nat cs < 4294967296)%Z -> (Z.of_nat i < 65536)%Z -> carries l cs i u -> sends_at l cs i u.
Proof.
  intros Hcs Hi. induction 1 as [fuel rd cap Hrd|u h size wok u' r _ IH Hk|u v u' ps _ IH Hs].
  - apply reader_at in Hrd as ->; [|done|done]. split; [done|]. exists 0. split; [done|]. lia.
  - eapply kickstart_keeps; done.
  - eapply sends_step; done.
Qed.
Lemma reader_exists l cs i : (Z.of_nat cs < 4294967296)%Z -> (Z.of_nat i < 65536)%Z ->
  exists fuel, new_chunk_reader fuel (FRegular l) (chunk_section (Z.of_nat i) (Z.of_nat cs)) = Some (rd_at l cs i 0).
Proof.
  intros Hcs Hi. destruct (shows_reader l cs i (S (length l)) Hcs ltac:(lia) ltac:(lia)) as (cr & Hcr & _).
  exists (S (length l)). rewrite Hcr. f_equal. eapply reader_at; done.
Qed.

Definition up_key (ip : list byte) (ra : udp_addr) : ukey := (ip, u16_of_int (ua_port ra)).
Lemma shows_hash x h a : shows x h a -> x_hash x = h.
Proof. intros (_ & _ & H & _). done. Qed.
(** the general form: [u0] is the upload under the key, a new one if there is none *)
Lemma start_upload_run cwd dir dl A s f e h a l i cap ra ip u0 l0 cs0 i0 :
  let cs := Z.to_nat (a_chunk a) in let B := chunk_bytes l cs (N.to_nat i) in
  reached cwd dir dl A (sv_cat s) f -> A !! h = Some a -> (i < 65536)%N -> i ∈ a_held a ->
  file_at f (a_path a) = Some l -> length l < en_fuel e -> from_ipv4 ra ip ->
  u0 = default (new_sender (FRegular l) (rd_at l cs (N.to_nat i) 0) cap) (sv_uploads s !! up_key ip ra) ->
  (Z.of_nat cs0 < 4294967296)%Z -> (Z.of_nat i0 < 65536)%Z -> sends_at l0 cs0 i0 u0 ->
  exists s' u', (kickstart (sha1 B) (Z.of_nat (length B)) u0 (en_wok e)).1 = u'
    /\ sv_uploads s' = <[up_key ip ra := u']> (sv_uploads s) /\ reached cwd dir dl A (sv_cat s') f
    /\ sv_port s' = sv_port s /\ sv_reqid s' = sv_reqid s
    /\ run f (start_upload e s h i cap ra) = (f, Done (s',
         if en_wok e then [mkDgram (slice_bytes (ua_ip ra)) (ua_port ra)
                             (serialize (Data 0 (sha1 B ++ be 4 (N.of_nat (length B)) ++ take 1000 (chunk_bytes l0 cs0 i0))))]
         else [],
         HRet (if en_wok e then Ok tt else Err "write error"))).
Proof.
  intros cs B H Ha Hi Hh Hl Hfuel (lip & Hra & Hip) Hu0 Hcs0 Hi0 Hat.
  destruct (entry_facts _ _ _ _ _ _ _ _ H Ha) as (F1 & F2 & F3 & F4).
  assert (Z.of_nat (length B) < 4294967296)%Z as HB by (pose proof (B_len l cs (N.to_nat i)); subst B cs; lia).
  destruct (contains_known _ _ _ _ _ _ _ _ H Ha) as (c1 & x & Hr1 & Hsh & _ & H1).
  destruct (reader_run cwd dir dl A c1 f h a (en_fuel e) i H1 Ha Hi) as (c2 & H2 & Hr2).
  { unfold file_at in Hl. intros E. rewrite E in Hl. done. }
  { intros l' Hl'. rewrite Hl in Hl'. simplify_eq. done. }
  rewrite Hl, decide_True in Hr2 by done. fold cs in Hr2.
  destruct (kickstart_at l0 cs0 i0 u0 (sha1 B) (Z.of_nat (length B)) (en_wok e) Hcs0 Hi0 Hat (sha1_length _) ltac:(lia)) as (u' & Hk & _).
  unfold start_upload. rewrite run_bind, Hr1. cbn [on_ret]. rewrite (shows_hash _ _ _ Hsh). rewrite run_bind. cbn [sv_cat set_cat].
  rewrite Hr2. cbn [on_ret]. change (cr_size (rd_at l cs (N.to_nat i) 0)) with (Z.of_nat (length B)).
  change (cr_hash (rd_at l cs (N.to_nat i) 0)) with (sha1 B).
  replace (4294967295 <? Z.of_nat (length B))%Z with false by lia.
  rewrite Hra, new_ipv4_exact with (a := ip) by done. cbn [on_ret sv_uploads set_cat]. fold (up_key ip ra).
  assert (match sv_uploads s !! up_key ip ra with Some u => u | None => new_sender (FRegular l) (rd_at l cs (N.to_nat i) 0) cap end = u0) as ->.
  { rewrite Hu0. destruct (sv_uploads s !! up_key ip ra); done. }
  rewrite Hk. rewrite <- Hra.
  replace (Z.to_N (Z.of_nat (length B))) with (N.of_nat (length B)) in * by lia.
  eexists (set_upload (set_upload (set_cat (set_cat s c1) c2) (up_key ip ra) u0) (up_key ip ra) u'), u'. split; [done|].
  split; [cbn; rewrite insert_insert; done|]. split; [done|]. split; [done|]. split; [done|].
  destruct (en_wok e); done.
Qed.
Lemma start_upload_refused cwd dir dl A s f e h i cap ra : reached cwd dir dl A (sv_cat s) f -> (i < 65536)%N ->
  (forall a, A !! h = Some a -> f !! a_path a <> Some NDir /\ forall l, file_at f (a_path a) = Some l -> length l < en_fuel e) ->
  (forall a, A !! h = Some a -> i ∈ a_held a -> file_at f (a_path a) = None) \/
    (exists lip, ua_ip ra = exact_slice lip /\ forall ip, ~ ipv4_of lip ip) ->
  exists s' w, run f (start_upload e s h i cap ra) = (f, Done (s', [], HRet (Err w))) /\ reached cwd dir dl A (sv_cat s') f
    /\ sv_port s' = sv_port s /\ sv_reqid s' = sv_reqid s /\ sv_uploads s' = sv_uploads s.
Proof.
  intros H Hi Hrd Hno. unfold start_upload. destruct (A !! h) as [a|] eqn:Ha.
  2:{ rewrite run_bind, (contains_unknown _ _ _ _ _ _ _ H Ha). cbn [on_ret run]. eexists _, _. done. }
  destruct (Hrd a eq_refl) as [Hnd Hfuel].
  destruct (entry_facts _ _ _ _ _ _ _ _ H Ha) as (F1 & F2 & F3 & F4).
  destruct (contains_known _ _ _ _ _ _ _ _ H Ha) as (c1 & x & Hr1 & Hsh & _ & H1).
  destruct (reader_run cwd dir dl A c1 f h a (en_fuel e) i H1 Ha Hi Hnd Hfuel) as (c2 & H2 & Hr2).
  rewrite run_bind, Hr1. cbn [on_ret]. rewrite (shows_hash _ _ _ Hsh), run_bind. cbn [sv_cat set_cat].
  destruct (file_at f (a_path a)) as [l|] eqn:El; [destruct (decide (i ∈ a_held a)) as [Hh|Hh]|].
  - destruct Hno as [Hno|(lip & Hra & Hno)]; [specialize (Hno a eq_refl Hh); congruence|].
    rewrite Hr2. cbn [on_ret].
    replace (4294967295 <? cr_size (rd_at l (Z.to_nat (a_chunk a)) (N.to_nat i) 0))%Z with false.
    2:{ cbn [rd_at cr_size]. pose proof (B_len l (Z.to_nat (a_chunk a)) (N.to_nat i)). lia. }
    destruct (C66_lemma lip) as [_ He]. rewrite Hra. destruct (He Hno) as [w ->]. cbn [on_ret run]. eexists _, _. done.
  - destruct Hr2 as [w Hr2]. rewrite Hr2. cbn [on_ret run]. eexists _, _. done.
  - destruct Hr2 as [w Hr2]. rewrite Hr2. cbn [on_ret run]. eexists _, _. done.
Qed.

(** ** Invariant of the reachable server states *)
Definition up_ok (u : sender) : Prop :=
  exists l cs i, (Z.of_nat cs < 4294967296)%Z /\ (Z.of_nat i < 65536)%Z /\ carries l cs i u.
Definition ups_ok (s : server) : Prop := forall k u, sv_uploads s !! k = Some u -> up_ok u.
Definition keeps_srv (cwd dir dl : path) (A : astate) (f : fs) (s s' : server) : Prop :=
  reached cwd dir dl A (sv_cat s') f /\ sv_port s' = sv_port s /\ sv_reqid s' = sv_reqid s /\ (ups_ok s -> ups_ok s').
Lemma run_contains cwd dir dl A c f h : reached cwd dir dl A c f ->
  exists c' g, run f (contains c h) = (f, Done (c', g)) /\ reached cwd dir dl A c' f
    /\ match A !! h with Some a => exists x, g = Ok x /\ shows x h a | None => is_err g end.
Proof.
  intros H. destruct (A !! h) as [a|] eqn:Ha.
  - destruct (contains_known _ _ _ _ _ _ _ _ H Ha) as (c1 & x & Hr1 & Hsh & _ & H1). eexists _, _. split; [done|]. split; [done|]. eauto.
  - rewrite (contains_unknown _ _ _ _ _ _ _ H Ha). eexists _, _. split; [done|]. split; [done|]. by eexists.
Qed.
Lemma ups_insert s k u : ups_ok s -> up_ok u -> ups_ok (set_upload s k u).
Proof.
  intros Hs Hu k' u'. cbn. destruct (decide (k' = k)) as [->|E].
  - rewrite lookup_insert. intros [= <-]. done.
  - rewrite lookup_insert_ne by done. apply Hs.
Qed.
Lemma send_keeps cwd dir dl A f e s s1 d s' ds r : keeps_srv cwd dir dl A f s s1 -> send e s1 d = (s', ds, r) -> keeps_srv cwd dir dl A f s s'.
Proof. intros H. unfold send. destruct (en_wok e); intros [= <- _ _]; done. Qed.
Lemma handle_keeps cwd dir dl A s f e buffer ra f' s' ds r :
  reached cwd dir dl A (sv_cat s) f -> NoDup (en_order e) -> (forall h, h ∈ en_order e <-> A !! h <> None) ->
  run f (handle_message e s buffer ra) = (f', Done (s', ds, r)) -> f' = f /\ keeps_srv cwd dir dl A f s s'.
Proof.
  intros H Hnd Hin. assert (keeps_srv cwd dir dl A f s s) as Hsame by done.
  unfold handle_message. destruct (parse buffer) as [m|w|w] eqn:Hp; cbn [run]; [|by intros [= <- <- _ _]|done].
  destruct (parse_typed _ _ Hp) as [Ht _].
  destruct m as [reqid h cs|addr port reqid cs|reqid h|reqid es|h i cap|off data|off]; cbn [run]; try (by intros [= <- <- _ _]); try done.
  - unfold respond_discover. destruct (local_ip (en_ifs e)) as [[ip|]| |]; try done.
    destruct (let! _ := sl_index ip 0 in _) as [ad| |]; try done.
    destruct (is_blank h).
    + cbn [run]. intros [= <- E]. split; [done|]. eapply send_keeps; done.
    + rewrite run_bind. destruct (run_contains cwd dir dl A (sv_cat s) f h H) as (c' & g & -> & Hre & _).
      assert (keeps_srv cwd dir dl A f s (set_cat s c')) as Hk by done.
      destruct g as [x| |]; cbn [run].
      * destruct (if decide _ then _ else _) as [out| |]; cbn [on_ret run]; [|by intros [= <- <- _ _]|done].
        intros [= <- E]. split; [done|]. eapply send_keeps; done.
      * intros [= <- E]. split; [done|]. eapply send_keeps; done.
      * intros [= <- E]. split; [done|]. eapply send_keeps; done.
  - unfold respond_list. destruct (is_blank h).
    + rewrite run_bind. destruct (list_known _ _ _ _ _ _ _ H Hnd Hin) as (c' & xs & -> & _ & Hre). cbn [run].
      intros [= <- E]. split; [done|]. eapply send_keeps; [|done]. done.
    + rewrite run_bind. destruct (run_contains cwd dir dl A (sv_cat s) f h H) as (c' & g & -> & Hre & _).
      destruct g as [x| |]; cbn [run]; [|done|done]. intros [= <- E]. split; [done|]. eapply send_keeps; [|done]. done.
  - destruct Ht as (_ & Hi & _). unfold u16 in Hi. unfold start_upload. rewrite run_bind.
    destruct (run_contains cwd dir dl A (sv_cat s) f h H) as (c1 & g & -> & H1 & Hg).
    destruct g as [x|w|w]; cbn [on_ret run]; [|by intros [= <- <- _ _]|done].
    destruct (A !! h) as [a|] eqn:Ha; [|by destruct Hg]. destruct Hg as (x' & [= <-] & Hsh). rewrite (shows_hash _ _ _ Hsh).
    rewrite run_bind. cbn [sv_cat set_cat].
    assert (exists o, run f (get_chunk_reader (en_fuel e) c1 h (Z.of_N i)) = (f, o) /\
      forall c2 g2, o = Done (c2, g2) -> reached cwd dir dl A c2 f /\
        forall fo rd, g2 = Ok (fo, rd) -> exists l, fo = FRegular l /\
          new_chunk_reader (en_fuel e) (FRegular l) (chunk_section (Z.of_nat (N.to_nat i)) (Z.of_nat (Z.to_nat (a_chunk a)))) = Some rd) as (o & -> & Ho).
    { pose proof (reached_synced _ _ _ _ _ _ H1) as (_ & Hs & _).
      destruct (get_record_ok c1 f A h a Hs Ha) as (rr & b & Hrun & _ & Hrel & Hb & _ & _).
      pose proof Hrel as (_ & _ & Hrp & _ & _ & _ & Hrc & Hch & _).
      destruct (contains_known _ _ _ _ _ _ _ _ H1 Ha) as (c3 & x3 & Hr3 & _ & _ & H3). unfold contains in Hr3. rewrite run_bind, Hrun in Hr3.
      cbn [on_ok run fst snd] in Hr3. injection Hr3 as <- _.
      unfold get_chunk_reader. rewrite run_bind, Hrun. cbn [on_ok fst snd]. rewrite run_bind. unfold get_chunk_reader_of.
      destruct (bget _ _) as [[]|w'|w']; cbn [run].
      2,3,4: by (eexists; split; [done|]; intros c2 g2 [= <- <-]; done).
      cbn [do_op]. destruct (f !! r_path rr) as [[l|]|]; cbn [run].
      - destruct (new_chunk_reader _ _ _) as [rd|] eqn:Er; cbn [run]; [|by eexists].
        eexists. split; [done|]. intros c2 g2 [= <- <-]. split; [done|]. intros fo rd' [= <- <-]. exists l. split; [done|].
        rewrite <- Er, Hrc. rewrite N_nat_Z, Z2Nat.id by lia. done.
      - (* a directory: hashing never ends *)
        destruct (new_chunk_reader _ FBroken _) as [rd|] eqn:Er; cbn [run]; [|by eexists].
        exfalso. rewrite Hrc in Er. replace (Z.of_N i) with (Z.of_nat (N.to_nat i)) in Er by lia.
        replace (a_chunk a) with (Z.of_nat (Z.to_nat (a_chunk a))) in Er by lia. rewrite C73_lemma in Er; [done|..]; lia.
      - eexists. split; [done|]. intros c2 g2 [= <- <-]. done. }
    destruct o as [[c2 g2]|w|]; [|done|done]. destruct (Ho _ _ eq_refl) as [H2 Hg2].
    destruct g2 as [[fo rd]|w|w]; cbn [on_ret run]; [|by intros [= <- <- _ _]|done].
    destruct (Hg2 _ _ eq_refl) as (l & -> & Hrd).
    destruct (_ <? _)%Z; [by intros [= <- <- _ _]|].
    destruct (new_ipv4 _) as [ip|w|w]; cbn [on_ret run]; [|by intros [= <- <- _ _]|done].
    set (k := (ip, u16_of_int (ua_port ra))). cbn [sv_uploads set_cat].
    set (u := match sv_uploads s !! k with Some u => u | None => _ end).
    assert (ups_ok s -> up_ok u) as Hu.
    { intros Hs. subst u. destruct (sv_uploads s !! k) as [u|] eqn:Ek; [exact (Hs _ _ Ek)|].
      destruct (entry_facts _ _ _ _ _ _ _ _ H Ha) as (F1 & F2 & F3 & F4).
      exists l, (Z.to_nat (a_chunk a)), (N.to_nat i). split; [lia|]. split; [lia|]. eapply ca_new. exact Hrd. }
    destruct (kickstart _ _ u (en_wok e)) as [u' rk] eqn:Ek.
    assert (forall s2, sv_cat s2 = c2 -> sv_port s2 = sv_port s -> sv_reqid s2 = sv_reqid s -> sv_uploads s2 = sv_uploads s ->
      keeps_srv cwd dir dl A f s (set_upload (set_upload s2 k u) k u')) as Hfin.
    { intros s2 E1 E2 E3 E4. split; [cbn; rewrite E1; done|]. split; [done|]. split; [done|]. intros Hs.
      assert (ups_ok s2) as Hs2 by (intros k' v'; rewrite E4; apply Hs).
      destruct (Hu Hs) as (l0 & cs0 & i0 & G1 & G2 & G3).
      apply ups_insert; [apply ups_insert; [done|exact (Hu Hs)]|]. exists l0, cs0, i0. split; [done|]. split; [done|]. eapply ca_request; done. }
    destruct rk as [p|w|w]; cbn [on_ret run]; [| |done]; intros [= <- <- _ _]; (split; [done|]; apply Hfin; done).
  - unfold continue_upload. destruct (new_ipv4 _) as [ip|w|w]; cbn [on_ret run]; [|by intros [= <- <- _ _]|done].
    destruct (sv_uploads s !! _) as [u|] eqn:Ek; cbn [run]; [|by intros [= <- <- _ _]].
    intros [= <- <- _ _]. split; [done|]. split; [done|]. split; [done|]. split; [done|]. intros Hs.
    destruct (Hs _ _ Ek) as (l0 & cs0 & i0 & G1 & G2 & G3). apply ups_insert; [done|].
    exists l0, cs0, i0. split; [done|]. split; [done|]. eapply (ca_step _ _ _ _ SAck); done.
Qed.
Lemma srv_inv cwd dir dl A s f : srv_reached cwd dir dl A s f ->
  reached cwd dir dl A (sv_cat s) f /\ (0 <= sv_reqid s < 65536)%Z /\ ups_ok s.
Proof.
  induction 1 as [A c f port H|A s f e buffer ra s' f' ds r _ IH Hnd Hin Hr|A s f k u v u' ps _ IH Hk Hs|A s f _ IH
    |A s f q A' c' f' ans _ IH Hal Hr Hs|A s f f' _ IH H1 H2].
  - split; [done|]. split; [cbn; lia|]. intros k u Hk. cbn in Hk. rewrite lookup_empty in Hk. done.
  - destruct IH as (H & Hq & Hu). destruct (handle_keeps _ _ _ _ _ _ _ _ _ _ _ _ _ H Hnd Hin Hr) as (-> & K1 & K2 & K3 & K4).
    rewrite K3. auto.
  - destruct IH as (H & Hq & Hu). split; [done|]. split; [done|]. destruct (Hu _ _ Hk) as (l0 & cs0 & i0 & G1 & G2 & G3).
    apply ups_insert; [done|]. exists l0, cs0, i0. split; [done|]. split; [done|]. eapply ca_step; done.
  - destruct IH as (H & Hq & Hu). split; [done|]. split; [|done]. cbn. rewrite Z.rem_mod_nonneg by lia. lia.
  - destruct IH as (H & Hq & Hu). split; [|done]. eapply re_call; done.
  - destruct IH as (H & Hq & Hu). split; [|done]. eapply re_outside; done.
Qed.

(** *** C53 *)
Lemma C53_first_lemma cwd dir dl A s f e buffer h a l i cap ra ip :
  let cs := Z.to_nat (a_chunk a) in let B := chunk_bytes l cs (N.to_nat i) in let key := (ip, u16_of_int (ua_port ra)) in
  srv_reached cwd dir dl A s f ->
  parse buffer = Ok (OpenReq h i cap) -> A !! h = Some a -> i ∈ a_held a ->
  file_at f (a_path a) = Some l -> length l < en_fuel e -> from_ipv4 ra ip -> en_wok e = true ->
  sv_uploads s !! key = None ->
  exists s' u, run f (handle_message e s buffer ra) =
      (f, Done (s', [mkDgram (slice_bytes (ua_ip ra)) (ua_port ra) (wire (stream (sha1 B) B 0))], HRet (Ok tt)))
    /\ sv_uploads s' = <[key := u]> (sv_uploads s)
    /\ uploads l cs (N.to_nat i) cap u [stream (sha1 B) B 0].
Proof.
  intros cs B key Hsr Hp Ha Hh Hl Hfuel Hip Hw Hk.
  destruct (srv_inv _ _ _ _ _ _ Hsr) as (H & _ & _). destruct (parse_typed _ _ Hp) as [(_ & Hi & _) _].
  destruct (entry_facts _ _ _ _ _ _ _ _ H Ha) as (F1 & F2 & F3 & F4).
  assert (Z.of_nat cs < 4294967296)%Z as Hcs by (subst cs; lia).
  assert (Z.of_nat (N.to_nat i) < 65536)%Z as Hi' by (unfold u16 in Hi; lia).
  destruct (start_upload_run cwd dir dl A s f e h a l i cap ra ip (new_sender (FRegular l) (rd_at l cs (N.to_nat i) 0) cap) l cs (N.to_nat i))
    as (s' & u' & Hu & Hup & Hre & _ & _ & Hrun); try done.
  { unfold up_key. fold key. rewrite Hk. done. }
  { split; [done|]. exists 0. split; [done|]. lia. }
  fold cs B in Hu, Hrun. fold key in Hup. unfold handle_message. rewrite Hp. rewrite Hrun, Hw.
  exists s', u'. split; [done|]. split; [done|].
  destruct (reader_exists l cs (N.to_nat i) Hcs Hi') as [fuel Hf].
  pose proof (kickstart_eq l cs (N.to_nat i) Hcs cap) as Hke.
  change (cr_hash (rd_at l cs (N.to_nat i) 0)) with (sha1 B) in Hke.
  change (cr_size (rd_at l cs (N.to_nat i) 0)) with (Z.of_nat (length B)) in Hke.
  rewrite Hw, Hke in Hu. cbn [fst] in Hu. subst u'. eapply up_start; [exact Hf|]. exact Hke.
Qed.
