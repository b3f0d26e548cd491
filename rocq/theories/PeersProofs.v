(** Proofs about downloads from several daemons. *)
From Verif Require Export PeersSpec PeerProofs SwarmProofs.
From Coq Require Import ZifyBool ZifyNat ZifyN.
Ltac Zify.zify_post_hook ::= Z.div_mod_to_equations.

(** a request that is refused leads to silence *)
Section refused.
  Context (cwd dir dl : path) (A : astate) (e : env) (f : fs) (ra : udp_addr) (key : ukey) (m0 : list byte).
  Context (Hm0 : forall s, srv_reached cwd dir dl A s f -> exists s' w,
    run f (handle_message e s (udp_buffer 1024 m0) ra) = (f, Done (s', [], HRet (Err w))) /\ sv_uploads s' = sv_uploads s).
  Lemma silent_end s : sv_uploads s !! key = None -> forall c, ~ kstep e f ra key (mkLink s [] [] (RRun new_recv)) c.
  Proof. intros Hk c Hc. inversion Hc; congruence. Qed.
  Lemma ktrace_silent s ms b : sv_uploads s !! key = None -> ktrace cwd dir dl A e f ra key (mkLink s [] [] (RRun new_recv)) ms b -> ms = [].
  Proof.
    intros Hk HT. remember (mkLink s [] [] (RRun new_recv)) as a eqn:E. revert s Hk E.
    induction HT as [a|a a' m ms b Hs Hd _ IH|a a' more ms b Hs Hd _ IH|s s' d up r ms b Hsr Hk' _ IH]; intros s0 Hk E; [done| | |].
    - subst a. done.
    - subst a. exfalso. eapply silent_end; done.
    - simplify_eq. eapply IH; [|done]. congruence.
  Qed.
  Lemma ktrace_refused s ms b : srv_reached cwd dir dl A s f -> sv_uploads s !! key = None ->
    ktrace cwd dir dl A e f ra key (mkLink s [] [m0] (RRun new_recv)) ms b -> ms = [].
  Proof.
    intros Hsr Hk HT. remember (mkLink s [] [m0] (RRun new_recv)) as a eqn:E. revert s Hsr Hk E.
    induction HT as [a|a a' m ms b Hs Hd _ IH|a a' more ms b Hs Hd HT IH|s s' d up r ms b Hsr' Hk' _ IH]; intros s0 Hsr Hk E; [done| | |].
    - subst a. done.
    - subst a. inversion Hs as [? u v u' ps ? ? ? Hu|? ? ? ? ? s2' ds x Hrun| | |]; subst; [congruence|].
      destruct (Hm0 s0 Hsr) as (s2 & w & Hr & Hu). rewrite Hr in Hrun. simplify_eq.
      eapply ktrace_silent; [|exact HT]. congruence.
    - simplify_eq. eapply IH; [exact Hsr'|congruence|done].
  Qed.
  Lemma refused_exists s : srv_reached cwd dir dl A s f -> sv_uploads s !! key = None ->
    exists b, ktrace cwd dir dl A e f ra key (mkLink s [] [m0] (RRun new_recv)) [] b /\ forall c, ~ kstep e f ra key b c.
  Proof.
    intros Hsr Hk. destruct (Hm0 s Hsr) as (s2 & w & Hr & Hu). exists (mkLink s2 [] [] (RRun new_recv)). split.
    - eapply kt_other; [eapply kk_msg; exact Hr| |apply kt_nil]. done.
    - apply silent_end. congruence.
  Qed.
End refused.

(** the hosts that announce chunks, among those at other addresses *)
Lemma selected_some own resps rs : selected (fun x => h_addr x <> own) resps rs ->
  exists hs, selected (good own) resps hs /\ length hs <= length rs
    /\ (forall r, r ∈ hs -> r ∈ rs) /\ (forall r, r ∈ rs -> h_chunks r <> [] -> r ∈ hs).
Proof.
  induction 1 as [|x xs l Hx _ (hs & IH1 & IH2 & IH3 & IH4)|x xs l Hx _ (hs & IH1 & IH2 & IH3 & IH4)].
  - exists []. split; [apply sel_nil|]. set_solver.
  - destruct (decide (h_chunks x = [])) as [E|E].
    + exists hs. split; [apply sel_skip; [intros [G _]; done|done]|]. cbn [length]. split; [lia|]. split; [set_solver|].
      intros r Hr Hc. apply elem_of_cons in Hr as [->|Hr]; [done|auto].
    + exists (x :: hs). split; [apply sel_take; [split; done|done]|]. cbn [length]. split; [lia|]. split; [set_solver|].
      intros r Hr Hc. apply elem_of_cons in Hr as [->|Hr]; [left|right; auto].
  - exists hs. split; [apply sel_skip; [intros [_ G]; exact (Hx G)|done]|]. done.
Qed.

Section part.
  Context (h : hash) (content : list byte) (cs : nat) (Hblank : h <> blank).
  Notation count := ((length content + cs - 1) / cs).
  Context (Hmax : (Z.of_nat count <= 65536)%Z).

  Lemma offers_facts M s name ip need port : offers M h content cs name ip need -> is_up M s port ->
    hash_wf h /\ (0 < Z.of_nat cs < 4294967296)%Z /\ (Z.of_nat (length content) < 9223372036854775808)%Z.
  Proof.
    intros (a & d & addrs & Ha & _ & _ & Hsz & Hch & _) [Hsr _]. destruct (srv_inv _ _ _ _ _ _ Hsr) as (Hre & _).
    destruct (entry_facts _ _ _ _ _ _ _ _ Hre Ha) as (F1 & F2 & F3 & F4). rewrite Hsz in F3. rewrite Hch in F4. split; [done|]. split; [done|]. lia.
  Qed.
  (** a chunk that is held can be read from the part *)
  Lemma part_chunk f a i : 0 < cs -> right_so_far content cs f a -> length (default [] (file_at f (a_path a))) <= length content ->
    N.of_nat i ∈ a_held a -> i < count ->
    exists l, file_at f (a_path a) = Some l /\ chunk_bytes l cs i = chunk_bytes content cs i /\ chunk_bytes content cs i <> [].
  Proof.
    intros Hcs Hr Hlen Hi Hc. pose proof (chunk_nonempty content cs i Hcs Hc) as Hne.
    assert (chunk_bytes (default [] (file_at f (a_path a))) cs i = chunk_bytes content cs i) as E.
    { apply list_eq. intros k. unfold chunk_bytes. destruct (decide (k < cs)) as [Hk|Hk].
      - rewrite !lookup_take, !lookup_drop by done. destruct (decide (i * cs + k < length content)) as [Hl|Hl].
        + apply Hr; [done|]. replace ((i * cs + k) / cs) with i; [done|]. rewrite Nat.div_add_l by lia. rewrite Nat.div_small by lia. lia.
        + rewrite !lookup_ge_None_2 by lia. done.
      - rewrite !lookup_take_ge by lia. done. }
    destruct (file_at f (a_path a)) as [l|]; [exists l; done|]. exfalso. cbn [from_option id] in E. apply Hne. rewrite <- E.
    unfold chunk_bytes. rewrite drop_nil, take_nil. done.
  Qed.
  (** a chunk that is not held is refused *)
  Lemma refuses M s ra i name ip need a : offers M h content cs name ip need -> hash_wf h -> (Z.of_nat (length content) < 9223372036854775808)%Z ->
    rm_A M !! h = Some a -> i ∉ a_held a -> (Z.of_N i < 65536)%Z ->
    srv_reached (rm_cwd M) (rm_dir M) (rm_dl M) (rm_A M) s (rm_fs M) ->
    exists s' w, run (rm_fs M) (handle_message (rm_env M) s (udp_buffer 1024 (serialize (OpenReq h i 1024))) ra) =
      (rm_fs M, Done (s', [], HRet (Err w))) /\ sv_uploads s' = sv_uploads s.
  Proof.
    intros HM Hwf Hbig Ha Hi Hu Hsr.
    destruct HM as (a' & d & addrs & Ha' & Hp & Hsl & Hsz & Hch & Hn & Hr & Hneed & Hruns & Hnd & Hlen & Hfuel & _).
    rewrite Ha in Ha'. injection Ha' as <-. destruct (srv_inv _ _ _ _ _ _ Hsr) as (Hre & _).
    destruct (start_upload_refused _ _ _ _ s _ (rm_env M) h i 1024 ra Hre ltac:(lia)) as (s' & w & G1 & _ & _ & _ & G2).
    - intros a2 Ha2. rewrite Ha in Ha2. injection Ha2 as <-. split; [done|]. intros l Hl. rewrite Hl in Hlen. cbn [from_option id] in Hlen. lia.
    - left. intros a2 Ha2 Hh. rewrite Ha in Ha2. injection Ha2 as <-. done.
    - exists s', w. unfold handle_message. rewrite PeerProofs.parse_open by (first [done|unfold u16; lia]). done.
  Qed.
  Lemma fetched_cases M name ip need port i ds : offers M h content cs name ip need -> (Z.of_N i < Z.of_nat count)%Z -> fetched M port h i ds ->
    delivered content cs (N.to_nat i) ds \/ ds = [] /\ ~ need i.
  Proof.
    intros HM Hi (s & ra & ip' & b & Hrun & Hip & Hk & HT & Hend). destruct (offers_facts M s name ip need port HM Hrun) as (Hwf & Hcs & Hbig).
    pose proof HM as (a & d & addrs & Ha & Hp & Hsl & Hsz & Hch & Hn & Hr & Hneed & Hruns & Hnd & Hlen & Hfuel & _ & _ & _ & Hw & _).
    destruct (decide (i ∈ a_held a)) as [Hh|Hh].
    - left. destruct (part_chunk (rm_fs M) a (N.to_nat i) ltac:(lia) Hr Hlen) as (l & Hl & E & Hne); [rewrite N2Nat.id; done|lia|].
      destruct Hrun as [Hsr _]. rewrite Hl in Hlen. cbn [from_option id] in Hlen.
      destruct (ktrace_delivered (rm_cwd M) (rm_dir M) (rm_dl M) (rm_A M) (rm_env M) (rm_fs M) ra ip' Hip l cs (N.to_nat i)
        ltac:(lia) ltac:(lia) ltac:(congruence) h a s b ds (serialize (OpenReq h i 1024)) Ha Hch) as (l' & G);
        [rewrite N2Nat.id; done|done|lia|done|rewrite N2Nat.id; apply PeerProofs.parse_open; [done|unfold u16; lia]|done|done|done|done|].
      destruct G as (x & ps & y & G1 & G2). exists l', x, ps, y. split; [congruence|done].
    - right. split; [|auto]. 
      eapply (ktrace_refused (rm_cwd M) (rm_dir M) (rm_dl M) (rm_A M) (rm_env M) (rm_fs M) ra); [|exact (proj1 Hrun)|exact Hk|exact HT].
      intros s1 Hs1. apply (refuses M s1 ra i name ip need a); (done || lia).
  Qed.
  Lemma part_fetched M s name ip need port i ra ip' : offers M h content cs name ip need -> is_up M s port -> from_ipv4 ra ip' ->
    sv_uploads s !! (ip', u16_of_int (ua_port ra)) = None -> (Z.of_N i < Z.of_nat count)%Z -> exists ds, fetched M port h i ds.
  Proof.
    intros HM Hrun Hip Hk Hi. destruct (offers_facts M s name ip need port HM Hrun) as (Hwf & Hcs & Hbig).
    pose proof HM as (a & d & addrs & Ha & Hp & Hsl & Hsz & Hch & Hn & Hr & Hneed & Hruns & Hnd & Hlen & Hfuel & _ & _ & _ & Hw & _).
    destruct (decide (i ∈ a_held a)) as [Hh|Hh].
    - destruct (part_chunk (rm_fs M) a (N.to_nat i) ltac:(lia) Hr Hlen) as (l & Hl & E & Hne); [rewrite N2Nat.id; done|lia|].
      rewrite Hl in Hlen. cbn [from_option id] in Hlen.
      destruct (ktrace_exists (rm_cwd M) (rm_dir M) (rm_dl M) (rm_A M) (rm_env M) (rm_fs M) ra ip' Hip l cs (N.to_nat i)
        ltac:(lia) ltac:(lia) ltac:(congruence) h a s (serialize (OpenReq h i 1024)) Ha Hch) as (ms & b & HT & Hend);
        [rewrite N2Nat.id; done|done|lia|done|rewrite N2Nat.id; apply PeerProofs.parse_open; [done|unfold u16; lia]|exact (proj1 Hrun)|done|].
      exists ms, s, ra, ip', b. done.
    - destruct (refused_exists (rm_cwd M) (rm_dir M) (rm_dl M) (rm_A M) (rm_env M) (rm_fs M) ra (ip', u16_of_int (ua_port ra)) (serialize (OpenReq h i 1024)))
        with (s := s) as (b & HT & Hend); [|exact (proj1 Hrun)|exact Hk|].
      + intros s1 Hs1. apply (refuses M s1 ra i name ip need a); (done || lia).
      + exists [], s, ra, ip', b. done.
  Qed.
  (** a daemon that has a chunk announces some *)
  Lemma part_reply M s reqid ra name ip need i port : offers M h content cs name ip need -> is_up M s port -> u16 reqid -> need i ->
    exists data chunks, replies M s (serialize (DiscReq reqid h [])) ra data
      /\ parse (udp_buffer 1024 data) = Ok (DiscResp ip (u16_of_int (sv_port s)) reqid chunks) /\ chunks <> [].
  Proof.
    intros HM Hrun Hq Hi. destruct (offers_facts M s name ip need port HM Hrun) as (Hwf & Hcs & _).
    destruct HM as (a & d & addrs & Ha & Hp & Hsl & Hsz & Hch & Hn & Hr & Hneed & Hruns & Hnd & Hlen & Hfuel & Hifs & Hifw & Hown & Hw & _).
    destruct (C58_partial_lemma _ _ _ _ s _ (rm_env M) ra (udp_buffer 1024 (serialize (DiscReq reqid h []))) reqid h a addrs ip (proj1 Hrun) Hifs Hifw Hown Hw) as (s' & data & chunks & Hrn & Hpar & Hcne & _).
    - by apply PeerProofs.parse_disc_req.
    - done.
    - exact Ha.
    - rewrite Hn. done.
    - done.
    - intros E. specialize (Hneed i Hi). rewrite E in Hneed. set_solver.
    - exists data, chunks. split; [|done]. exists s'. do 2 eexists. exact Hrn.
  Qed.
  Lemma answers_has need r i : responds h content cs need r -> need (h_addr r) i -> h_chunks r <> [].
  Proof.
    intros (M & name & HM & (s & ra & data & Hrun & Hq & (s' & adr & p & Hrep) & Hpar)) Hi.
    destruct (part_reply M s (h_reqid r) ra name (h_addr r) (need (h_addr r)) i _ HM Hrun Hq Hi) as (data' & chunks & (s2 & adr2 & p2 & Hrep') & Hpar' & Hcne).
    rewrite Hrep' in Hrep. simplify_eq. rewrite Hpar' in Hpar. simplify_eq. congruence.
  Qed.
  (** the description of a file of which a part is there *)
  Lemma described_part M name ip need port data : offers M h content cs name ip need -> described M port h data ->
    exists reqid en, u16 reqid /\ data = serialize (ListResp reqid [en]) /\ entry_typed en /\ e_hash en = h
      /\ Z.of_N (e_size en) = Z.of_nat (length content) /\ Z.of_N (e_chunk en) = Z.of_nat cs /\ e_name en = name
      /\ (0 < Z.of_nat cs < 4294967296)%Z /\ (Z.of_nat (length content) < 9223372036854775808)%Z.
  Proof.
    intros HM (s & ra & reqid & Hrun & Hq & s' & adr & p & Hrep). destruct (offers_facts M s name ip need port HM Hrun) as (Hwf & Hcs & Hbig).
    destruct HM as (a & d & addrs & Ha & Hp & Hsl & Hsz & Hch & Hn & Hr & Hneed & Hruns & Hnd & Hlen & Hfuel & Hifs & Hifw & Hown & Hw & Hnod & Hin).
    destruct Hrun as [Hsr _].
    destruct (C59_srv_lemma _ _ _ _ s _ (rm_env M) ra _ reqid h Hsr Hnod Hin Hw (PeerProofs.parse_list_req reqid h Hwf Hq)) as (s2 & es & Hrn & Hes).
    { right. rewrite Ha. done. }
    rewrite decide_False in Hes by done. rewrite Hrn in Hrep. simplify_eq.
    inversion Hes as [|en k es' ks' (a' & Ha' & D1 & D2 & D3 & D4 & D5 & D6 & d' & D7) Hrest]; subst.
    inversion Hrest; subst. rewrite Ha in Ha'. injection Ha' as <-. rewrite Hsz, Hch, Hp in *.
    exists reqid, en. split; [done|]. split; [done|]. split; [|split; [done|split; [done|split; [done|split; [|done]]]]].
    - unfold entry_typed, u64, u32. split; [lia|]. split; [|split; [lia|split; [|done]]].
      + pose proof (Z.mod_pos_bound (a_count a) 4294967296 ltac:(lia)). lia.
      + pose proof (Z.mod_pos_bound (Z.of_nat (size (a_held a))) 4294967296 ltac:(lia)). lia.
    - assert (forall (x y : list byte) u v, slash ∉ u -> slash ∉ v -> x ++ slash :: u = y ++ slash :: v -> v = u) as Hun.
      { clear. induction x as [|c x IH]; intros y u v Hu Hv E; destruct y as [|c' y]; cbn [app] in E; simplify_eq; [done| | |by eapply IH].
        - exfalso. apply Hu. set_solver.
        - exfalso. apply Hv. set_solver. }
      exact (Hun _ _ _ _ Hsl D6 D7).
  Qed.
End part.

Lemma lexec_mono own h (N1 N2 : network) a n out b : (forall pc resps dg, N1 pc resps dg -> N2 pc resps dg) ->
  lexec own h N1 a n out b -> lexec own h N2 a n out b.
Proof. intros H. induction 1; [constructor|]. econstructor; eauto. Qed.

(** the loop among such daemons; [Q] is said of those that answer *)
Section among.
  Context (dir : path) (own : list byte) (h : hash) (content : list byte) (cs K : nat) (need : list byte -> N -> Prop) (Q : hostresp -> Prop).
  Context (a0 : aentry) (old : list byte) (Hblank : h <> blank).
  Notation count := ((length content + cs - 1) / cs).
  Context (Hcs : 0 < cs) (Hcount : a_count a0 = Z.of_nat count) (Hmax : (a_count a0 <= 65536)%Z) (Hpar : parent (a_path a0) <> dir).
  Context (Hfit : forall i, ~ ragged cs (chunk_bytes content cs i) \/ first_empty (chunk_bytes content cs i) <= 1024).
  Definition among : network := fun pc resps dg =>
    match pc with
    | LHosts i => exists rs, selected (fun x => h_addr x <> own) resps rs /\ length rs <= K
        /\ Forall (responds h content cs need) rs /\ someone_has need i rs /\ Forall Q rs
    | _ => peers own h content cs K need pc resps dg
    end.
  Definition few (hs : list hostresp) : Prop := length hs <= K /\ Forall Q hs.
  Notation inv := (sinv dir h need few content cs a0 old).

  Lemma among_swarm n out b resps dg : inv n out b -> among (l_pc b) resps dg -> swarm own need few content cs (l_pc b) resps dg.
  Proof.
    intros (A & a & is & rounds & Hs & Hd & Ha & Hp & Hc & Hn & Hlen & Hok & Hw & Hh & Hact & Hpc).
    destruct (l_pc b) as [| |i|i [|r hs]|]; cbn [among swarm peers]; try done.
    - intros (rs & Hsel & Hle & Hans & Hsome & HQ). destruct (selected_some own resps rs Hsel) as (hs & G1 & G2 & G3 & G4).
      exists hs. split; [done|]. split; [split; [lia|]|].
      + apply Forall_forall. intros r Hr. rewrite Forall_forall in HQ. apply HQ, G3, Hr.
      + apply Exists_exists in Hsome as (r & Hr & Hx). apply Exists_exists. exists r. split; [|done]. apply G4; [done|].
        rewrite Forall_forall in Hans. eapply answers_has; [exact Hblank|rewrite <- Hcount; exact Hmax|by apply Hans|exact Hx].
    - intros (M & name & ds & HM & Hfe & ->). exists ds. split; [done|]. destruct Hpc as (tried & _ & _ & _ & Hi & _).
      eapply fetched_cases; [rewrite <- Hcount; exact Hmax|exact HM|rewrite <- Hcount; exact Hi|exact Hfe].
  Qed.
  Lemma among_step n out b resps dg : inv n out b -> l_pc b <> LDone -> among (l_pc b) resps dg ->
    exists c more, lstep own h resps dg b = Some (c, more) /\ inv (S n) (out ++ more) c.
  Proof.
    intros Hb Hnd Hnet. pose proof (among_swarm _ _ _ _ _ Hb Hnet) as Hs.
    exact (sinv_step dir h own need few content cs a0 old Hcs Hcount Hmax Hpar (fit_bounded _ _ _ Hfit) n out b resps dg Hb Hnd Hs).
  Qed.
  Lemma among_exec a n out b : inv 0 [] a -> lexec own h among a n out b -> inv n out b.
  Proof.
    intros Ha. induction 1 as [a|a n out b resps dg out' c H IH Hnd Hnet Hst]; [done|].
    destruct (among_step n out b resps dg (IH Ha) Hnd Hnet) as (c2 & out2 & E & Hc). rewrite Hst in E. simplify_eq. done.
  Qed.
  Lemma among_completes a : (forall r, Q r -> spare h content cs need r) ->
    (forall i, (Z.of_N i < Z.of_nat count)%Z -> exists rs, length rs <= K /\ Forall (fun r => h_addr r <> own /\ responds h content cs need r /\ Q r) rs /\ someone_has need i rs) ->
    inv 0 [] a -> exists n out b, lexec own h among a n out b /\ l_pc b = LDone.
  Proof.
    intros HQ Hsome Ha.
    assert (forall n out b, inv n out b -> exists resps dg, among (l_pc b) resps dg) as Hposs.
    { intros n out b (A & a1 & is & rounds & Hs & Hd & Ha1 & Hp & Hc & Hn & Hlen & Hok & Hw & Hh & Hact & Hpc).
      destruct (l_pc b) as [| |i|i [|r hs]|]; try (exists [], None; done).
      - destruct Hpc as (_ & _ & _ & (Hi & _)). destruct (Hsome i) as (rs & Hle & Hall & Hex); [rewrite <- Hcount, <- Hn; exact Hi|].
        exists rs, None, rs. split_and!; [|done| |done|].
        + clear -Hall. induction Hall as [|r rs (H & _) _ IH]; [apply sel_nil|apply sel_take; done].
        + eapply Forall_impl; [exact Hall|]. intros r (_ & G & _). done.
        + eapply Forall_impl; [exact Hall|]. intros r (_ & _ & G). done.
      - destruct Hpc as (tried & [[_ Hfew] _] & _ & _ & Hi & _). apply Forall_app in Hfew as [_ Hfew]. apply Forall_cons in Hfew as [Hr _].
        destruct (HQ r Hr) as (M & name & s & ra & ip & HM & Hup & Hip & Hk).
        destruct (part_fetched h content cs ltac:(rewrite <- Hcount; exact Hmax) M s name (h_addr r) (need (h_addr r)) (h_port r) i ra ip HM Hup Hip Hk ltac:(rewrite <- Hcount; exact Hi)) as (ds & Hds).
        exists [], (Some ds), M, name, ds. done. }
    assert (forall k, (exists n out b, lexec own h among a n out b /\ l_pc b = LDone) \/ exists out b, lexec own h among a k out b) as Hk.
    { induction k as [|k [IH|(out & b & Hb)]]; [right; exists [], a; constructor|by left|].
      pose proof (among_exec _ _ _ _ Ha Hb) as Hi.
      assert (l_pc b = LDone \/ l_pc b <> LDone) as [E|E] by (destruct (l_pc b); (by left) || (by right)); [left; eauto|].
      destruct (Hposs _ _ _ Hi) as (resps & dg & Hnet). destruct (among_step _ _ _ _ _ Hi E Hnet) as (c & out' & Hst & _).
      right. do 2 eexists. eapply le_step; done. }
    destruct (Hk ((4 + K) * length (todo a0) + 2)) as [Hd|(out & b & Hb)]; [done|]. exfalso.
    pose proof (among_exec _ _ _ _ Ha Hb) as Hi.
    pose proof (sinv_bound dir h need few content cs a0 old Hcs Hcount Hmax (fit_bounded _ _ _ Hfit) K _ _ _ (fun hs (G : few hs) => proj1 G) Hi). lia.
  Qed.
End among.

(** *** C114: a download from daemons that have parts of the file *)
Lemma C114_lemma cwd dir dl A c f h content cs K need own ifs resps r rest M name data :
  let p := join2 dl (take 255 name) in
  let count := (length content + cs - 1) / cs in
  reached cwd dir dl A c f -> A !! h = None -> no_spare ifs -> own_address ifs own ->
  h <> blank -> count <= N.to_nat 65536 ->
  normal_name (take 255 name) -> can_write f p -> parent dl <> dir ->
  (forall i, ~ ragged cs (chunk_bytes content cs i) \/ first_empty (chunk_bytes content cs i) <= 1024) ->
  selected (good own) resps (r :: rest) -> offers M h content cs name (h_addr r) (need (h_addr r)) -> described M (h_port r) h data ->
  let net := peers own h content cs K need in
  exists c' f', run f (start_download (Some ifs) c h resps (Some data)) = (f', Done (c', Ok own))
    /\ (forall n out b, lexec own h net (mkL LCheck c' f' ∅) n out b ->
          n <= (4 + K) * count + 1
          /\ (forall resps dg, l_pc b <> LDone -> net (l_pc b) resps dg -> is_Some (lstep own h resps dg b))
          /\ (l_pc b = LDone -> default [] (file_at (l_fs b) p) = content ++ drop (length content) (default [] (file_at f p))))
    /\ ((forall i, (Z.of_N i < Z.of_nat count)%Z -> exists rs, length rs <= K
            /\ Forall (fun r => h_addr r <> own /\ responds h content cs need r /\ spare h content cs need r) rs /\ someone_has need i rs) ->
          exists n out b, lexec own h net (mkL LCheck c' f' ∅) n out b /\ l_pc b = LDone).
Proof.
  intros p count H Ha Hns Hown Hbl Hmax Hname Hw Hdl Hfit Hgood HM Hdesc net.
  assert (Z.of_nat ((length content + cs - 1) / cs) <= 65536)%Z as Hmaxz by (unfold count in Hmax; lia). clear Hmax.
  destruct (described_part h content cs Hbl Hmaxz M name _ _ _ data HM Hdesc) as (reqid & en & Hq & -> & Ht & Hh & Hsz & Hch & Hnm & Hcs & Hlen).
  destruct (start_new_lemma cwd dir dl A c f h ifs own resps r rest reqid en H Ha Hns Hown Hgood Hq Ht Hh) as (c' & f' & Hrun & Hre & Hsu).
  { lia. }
  { lia. }
  { rewrite Hnm. done. }
  rewrite Hnm, Hsz, Hch in Hre. fold p in Hre.
  set (a := new_entry p (Z.of_nat (length content)) (Z.of_nat cs)) in *.
  pose proof (reached_synced _ _ _ _ _ _ H) as (_ & Hs0 & Hd0 & Hdl0).
  pose proof (reached_synced _ _ _ _ _ _ Hre) as (_ & Hs & Hd & _).
  assert (parent p = dl) as Hpp by (apply inside_normal; [rewrite <- Hdl0; apply (sy_dl _ _ _ Hs0)|done]).
  assert (parent p <> dir) as Hpar by (rewrite Hpp, <- Hd0, <- Hdl0; apply (sy_ne _ _ _ Hs0)).
  assert (f' !! p = f !! p) as Hfp by (apply Hsu; done).
  assert (can_write f' p) as Hw'.
  { destruct Hw as [G1 G2]. split; [|rewrite Hfp; done]. rewrite Hpp in *. rewrite Hsu by done. done. }
  assert (a_count a = Z.of_nat ((length content + cs - 1) / cs)) as Hcount by (apply ceil_div_nat; lia).
  assert (forall Q, sinv dir h need (few K Q) content cs a (default [] (file_at f' p)) 0 [] (mkL LCheck c' f' ∅)) as Hinv.
  { intros Q. apply (sinv_start dir h need (few K Q) content cs a _ _ c' f' Hs Hd (lookup_insert _ _ _)); [done|done| |done].
    intros k _ Hk. cbn [a new_entry a_held] in Hk. set_solver. }
  assert (length (todo a) <= count) as Htodo.
  { unfold todo. etransitivity; [apply filter_length|]. rewrite map_length, seq_length, Hcount. unfold count. lia. }
  exists c', f'. split; [done|]. split.
  - set (T := fun _ : hostresp => True). specialize (Hinv T). 
    assert (forall pc resps dg, net pc resps dg -> among own h content cs K need T pc resps dg) as Hnet.
    { intros [| |i|i hs|] rs dg; cbn [among]; try done. intros (rs' & G1 & G2 & G3 & G4). exists rs'. split_and!; try done. apply Forall_true. done. }
    intros n out b Hex. apply (lexec_mono _ _ _ _ _ _ _ _ Hnet) in Hex.
    pose proof (among_exec dir own h content cs K need T a _ Hbl ltac:(lia) Hcount ltac:(rewrite Hcount; exact Hmaxz) Hpar Hfit _ _ _ _ Hinv Hex) as Hb.
    split; [|split].
    + pose proof (sinv_bound dir h need (few K T) content cs a _ ltac:(lia) Hcount ltac:(rewrite Hcount; exact Hmaxz) (fit_bounded _ _ _ Hfit) K _ _ _ (fun hs (G : few K T hs) => proj1 G) Hb). nia.
    + intros rs dg Hnd Hn%Hnet.
      destruct (among_step dir own h content cs K need T a _ Hbl ltac:(lia) Hcount ltac:(rewrite Hcount; exact Hmaxz) Hpar Hfit _ _ _ _ _ Hb Hnd Hn) as (c2 & o & -> & _). eauto.
    + intros Hdone. destruct (sinv_done dir h need (few K T) content cs a _ ltac:(lia) Hcount (fit_bounded _ _ _ Hfit) _ _ _ Hb Hdone) as [_ Hf].
      unfold file_at in *. rewrite <- Hfp. exact Hf.
  - intros Hsome.
    destruct (among_completes dir own h content cs K need (spare h content cs need) a _ Hbl ltac:(lia) Hcount ltac:(rewrite Hcount; exact Hmaxz) Hpar Hfit _ (fun _ G => G) Hsome (Hinv _)) as (n & out & b & Hex & Hdone).
    exists n, out, b. split; [|done]. eapply lexec_mono; [|exact Hex].
    intros [| |i|i hs|] rs dg; cbn [among]; try done. intros (rs' & G1 & G2 & G3 & G4 & _). exists rs'. done.
Qed.
