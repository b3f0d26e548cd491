(** Proofs about a download while the daemon is used for other things. *)
From Verif Require Export BusySpec EndProofs.
From Verif Require Import DialProofs CliProofs CliProofs2 CliProofs3 PeerProofs PeerProofs2 ManyProofs DownloadProofs2 DownloadProofs3 DownloadProofs4 CatalogueDownload
  CatalogueInv CatalogueInv2 CatalogueReach PathProofs ServerProofs2 ServerProofs4.
From Coq Require Import ZifyBool ZifyNat ZifyN.
Ltac Zify.zify_post_hook ::= Z.div_mod_to_equations.

Section busy.
  Context (cwd dir dl : path) (own : list byte) (h : hash) (content : list byte) (cs : nat) (name host : list byte) (port : N).
  Context (Hport : u16 port) (Hne : content <> []) (Hbl : h <> blank).
  Context (Hmax : (Z.of_nat ((length content + cs - 1) / cs) <= 65536)%Z) (a0 : aentry) (old : list byte) (Hho : host <> own) (Hcs : 0 < cs).
  Context (Hcount : a_count a0 = Z.of_nat ((length content + cs - 1) / cs)) (Hpar : parent (a_path a0) <> dir).
  Context (Hfit : forall i, ~ ragged cs (chunk_bytes content cs i) \/ first_empty (chunk_bytes content cs i) <= 1024).
  Notation net := (one_peer own h content cs name host port).
  Notation inv := (hinv dir h host port content cs a0 old).

  Definition binv (n : nat) (b : bworld) : Prop :=
    (exists sent, inv n sent (mkL (b_pc b) (sv_cat (b_srv b)) (b_fs b) (b_active b)))
    /\ exists A a, srv_reached cwd dir dl A (b_srv b) (b_fs b) /\ A !! h = Some a
         /\ a_path a = a_path a0 /\ a_size a = a_size a0 /\ a_chunk a = a_chunk a0 /\ a_count a = a_count a0
         /\ match b_pc b with LHosts i | LChunk i _ => (Z.of_N i < a_count a0)%Z | _ => True end
         /\ (b_pc b = LDone -> all_below (a_count a) ⊆ a_held a).
  Lemma binv_besides n s f pc D s' f' : binv n (mkBusy s f pc D) -> besides cwd dir dl h (a_path a0) s f s' f' -> binv n (mkBusy s' f' pc D).
  Proof.
    intros [(sent & Hi) (A & a & Hsr & Ha & Hrest)] (A1 & A2 & H1 & H2 & HA & Hfp & Hfd). cbn [b_pc b_srv b_fs b_active] in *.
    pose proof (proj1 (srv_inv _ _ _ _ _ _ Hsr)) as R0. pose proof (proj1 (srv_inv _ _ _ _ _ _ H1)) as R1. pose proof (proj1 (srv_inv _ _ _ _ _ _ H2)) as R2.
    pose proof (reached_synced _ _ _ _ _ _ R0) as (_ & S0 & D0 & _). pose proof (reached_synced _ _ _ _ _ _ R1) as (_ & S1 & _).
    pose proof (reached_synced _ _ _ _ _ _ R2) as (_ & S2 & D2 & _).
    assert (A1 = A) as -> by (eapply synced_unique; done). split.
    - exists sent. destruct Hi as (B & b & Hs & Hd & Hb & Hr). cbn [l_pc l_cat l_fs l_active] in *.
      assert (B = A) as -> by (eapply synced_unique; done). exists A2, b. cbn [l_pc l_cat l_fs l_active b_pc b_srv b_fs b_active].
      destruct Hr as (G1 & G2 & G3 & G4 & G5 & G6 & G7 & G8). split; [done|]. split; [done|]. split; [rewrite HA; done|].
      split; [done|]. split; [done|]. split; [done|]. split; [done|].
      unfold can_write, file_at in *. rewrite Hfp, Hfd. done.
    - exists A2, a. rewrite HA. done.
  Qed.
  Lemma binv_step n s f pc D resps dg : binv n (mkBusy s f pc D) -> pc <> LDone -> net pc resps dg ->
    exists b out, lstep own h resps dg (mkL pc (sv_cat s) f D) = Some (b, out)
      /\ binv (S n) (mkBusy (set_cat s (l_cat b)) (l_fs b) (l_pc b) (l_active b)).
  Proof.
    intros [(sent & Hi) (A & a & Hsr & Ha & Hrest)] Hnd Hnet. cbn [b_pc b_srv b_fs b_active] in *.
    destruct (peer_step h content cs name host port Hport Hne Hbl Hmax dir own a0 old Hho Hcs Hcount Hpar Hfit _ _ _ resps dg Hi Hnd Hnet) as (b & out & Hst & Hi').
    exists b, (map (request host port h) out). split; [exact Hst|]. split.
    - exists (sent ++ out). cbn [b_pc b_srv b_fs b_active set_cat sv_cat]. destruct b; exact Hi'.
    - assert (set_cat s (sv_cat s) = s) as Hss by (destruct s; done).
      assert (EndProofs.sinv cwd dir dl h A a0 s (mkL pc (sv_cat s) f D)) as Hsi.
      { exists a. cbn [l_pc l_cat l_fs]. rewrite Hss, (insert_id A h a Ha). split; [exact Hsr|exact Hrest]. }
      destruct (EndProofs.sinv_step cwd dir dl h A a0 s own resps dg _ b _ Hpar ltac:(lia) Hsi Hst) as (a' & Hsr' & Hr').
      exists (<[h := a']> A), a'. cbn [b_pc b_srv b_fs b_active]. split; [done|]. split; [apply lookup_insert|done].
  Qed.
  Lemma binv_busy a n b : binv 0 a -> busy cwd dir dl own h (a_path a0) net a n b -> binv n b.
  Proof.
    intros Ha. induction 1 as [|a n s f pc D resps dg b out _ IH Hnd Hnet Hst|a n s f pc D s' f' _ IH Hb]; [done| |].
    - destruct (binv_step _ _ _ _ _ _ _ (IH Ha) Hnd Hnet) as (b' & out' & E & H). rewrite Hst in E. injection E as <- _. exact H.
    - eapply binv_besides; [exact (IH Ha)|done].
  Qed.
  Lemma binv_bound n b : binv n b -> n <= 5 * length (todo a0) + 1.
  Proof. intros [(sent & Hi) _]. apply (hinv_bound dir h host port content cs a0 old Hcs Hcount (fit_bounded _ _ _ Hfit) _ _ _ Hi). Qed.
  Lemma binv_completes M r sM ra ip m n a b : shares M h content cs name host -> found M port h r -> is_up M sM port -> from_ipv4 ra ip ->
    sv_uploads sM !! (ip, u16_of_int (ua_port ra)) = None -> m + n = 5 * length (todo a0) + 1 ->
    binv n b -> busy cwd dir dl own h (a_path a0) net a n b ->
    exists n' b', busy cwd dir dl own h (a_path a0) net a n' b' /\ b_pc b' = LDone.
  Proof.
    intros HM Hfo Hup Hip Hk. revert n b. induction m as [|m IH]; intros n b Hmn Hb Hex.
    all: assert (b_pc b = LDone \/ b_pc b <> LDone) as [E|E] by (destruct (b_pc b); (by left) || (by right)); [eauto|].
    all: destruct b as [s f pc D]; pose proof Hb as [(sent & Hi) _]; cbn [b_pc b_srv b_fs b_active] in *.
    all: destruct (peer_possible h content cs name host port Hport Hne Hbl Hmax dir own a0 old Hho Hcs Hcount Hfit M r sM ra ip _ _ _ HM Hfo Hup Hip Hk Hi) as (resps & dg & Hnet).
    all: cbn [l_pc] in Hnet; destruct (binv_step _ _ _ _ _ _ _ Hb E Hnet) as (b' & out & Hst & Hb').
    - apply binv_bound in Hb'. lia.
    - eapply (IH (S n)); [lia|exact Hb'|]. eapply bu_step; done.
  Qed.
End busy.

Lemma busy_lemma cwd dir dl A s f e h content cs name own host port ifs r M data :
  let p := join2 dl (take 255 name) in
  srv_reached cwd dir dl A s f -> A !! h = None -> no_spare ifs -> own_address ifs own -> host <> own ->
  content <> [] -> h <> blank -> (length content + cs - 1) / cs <= N.to_nat 65536 -> u16 port ->
  normal_name (take 255 name) -> f !! dl = Some NDir -> f !! p = None -> parent dl <> dir ->
  (forall i, ~ ragged cs (chunk_bytes content cs i) \/ first_empty (chunk_bytes content cs i) <= 1024) ->
  shares M h content cs name host -> found M port h r -> described M port h data ->
  ce_ifs e = Some ifs -> selected (fun x => h_addr x <> own) (ce_resps e) [r] -> ce_listing e = Some data ->
  let net := one_peer own h content cs name host port in
  exists s' f', session true e s f [str "get"; hash_string h] = (f', Some s', [], Shown (str "Flu transfer initiated" ++ nl))
    /\ (forall n b, busy cwd dir dl own h p net (mkBusy s' f' LCheck ∅) n b ->
          n <= 5 * ((length content + cs - 1) / cs) + 1
          /\ (forall resps dg, b_pc b <> LDone -> net (b_pc b) resps dg ->
                is_Some (lstep own h resps dg (mkL (b_pc b) (sv_cat (b_srv b)) (b_fs b) (b_active b))))
          /\ (b_pc b = LDone ->
                file_at (b_fs b) p = Some content
                /\ exists A', srv_reached cwd dir dl A' (b_srv b) (b_fs b)
                     /\ A' !! h = Some (full_entry p (Z.of_nat (length content)) (Z.of_nat cs))
                     /\ forall env, en_ifs env = Some ifs -> Forall if_wf ifs -> length content < en_fuel env -> en_wok env = true ->
                          NoDup (en_order env) -> (forall k, k ∈ en_order env <-> A' !! k <> None) ->
                          shares (mkRemote cwd dir dl A' (b_fs b) env) h content cs (take 255 name) own))
    /\ (forall sM ra ip n b, is_up M sM port -> from_ipv4 ra ip -> sv_uploads sM !! (ip, u16_of_int (ua_port ra)) = None ->
          busy cwd dir dl own h p net (mkBusy s' f' LCheck ∅) n b ->
          exists n' b', busy cwd dir dl own h p net (mkBusy s' f' LCheck ∅) n' b' /\ b_pc b' = LDone).
Proof.
  intros p Hsr Ha Hns Hown Hho Hne Hbl Hmax Hport Hname Hdir Hfree Hdl Hfit HM Hfo Hdesc Hifs Hsel Hlis net.
  pose proof (proj1 (srv_inv _ _ _ _ _ _ Hsr)) as H.
  pose proof (reached_synced _ _ _ _ _ _ H) as (_ & Hs0 & Hd0 & Hdl0).
  destruct (inside_normal dl (take 255 name)) as [_ Hpp]; [rewrite <- Hdl0; apply (sy_dl _ _ _ Hs0)|done|]. fold p in Hpp.
  assert (can_write f p) as Hw by (split; [rewrite Hpp; done|rewrite Hfree; done]).
  destruct (C87_lemma _ _ _ _ _ _ _ _ _ _ _ _ _ _ _ _ _ _ H Ha Hns Hown Hho Hne Hbl Hmax Hport Hname Hw Hdl Hfit HM Hfo Hsel Hdesc)
    as (c' & f' & Hrun & _ & _).
  assert (Z.of_nat ((length content + cs - 1) / cs) <= 65536)%Z as Hmaxz by lia.
  assert (exists s0, is_up M s0 port) as [s0 Hup0] by (destruct Hfo as (s0 & _ & _ & Hup & _); eauto).
  destruct (shares_facts h content cs name host port Hmaxz M s0 HM Hup0) as (Hwf & Hcs & Hlen).
  destruct (start_reached _ _ _ _ _ _ _ _ _ _ _ _ _ _ _ _ _ _ _ _ Hsr Ha Hns Hown Hho Hne Hbl Hmaxz Hport Hname HM Hfo Hdesc Hsel Hrun) as [Hsr' Hsu].
  fold p in Hsr'. set (a0 := new_entry p (Z.of_nat (length content)) (Z.of_nat cs)) in *.
  assert (parent (a_path a0) <> dir) as Hpar by (cbn [a0 new_entry a_path]; rewrite Hpp, <- Hd0, <- Hdl0; apply (sy_ne _ _ _ Hs0)).
  assert (f' !! p = None) as Hfp by (rewrite Hsu; done).
  assert (a_count a0 = Z.of_nat ((length content + cs - 1) / cs)) as Hcount by (apply ceil_div_nat; lia).
  assert (length (todo a0) <= (length content + cs - 1) / cs) as Htodo.
  { unfold todo. etransitivity; [apply filter_length|]. rewrite map_length, seq_length, Hcount. lia. }
  pose proof (reached_synced _ _ _ _ _ _ (proj1 (srv_inv _ _ _ _ _ _ Hsr'))) as (_ & Hs & Hd & _). cbn [set_cat sv_cat] in Hs, Hd.
  assert (binv cwd dir dl h content cs host port a0 [] 0 (mkBusy (set_cat s c') f' LCheck ∅)) as Hb0.
  { split.
    - exists []. apply (hinv_start dir h host port content cs a0 _ _ c' f' Hs Hd (lookup_insert _ _ _)); [done| | |].
      + split; [|change (a_path a0) with p; rewrite Hfp; done]. cbn [a0 new_entry a_path]. rewrite Hpp, Hsu by done. exact Hdir.
      + intros k _ Hk. cbn [a0 new_entry a_held] in Hk. set_solver.
      + unfold file_at. cbn [a0 new_entry a_path]. rewrite Hfp. done.
    - exists (<[h := a0]> A), a0. cbn [b_pc b_srv b_fs]. rewrite lookup_insert. done. }
  assert (0 < cs) as Hcs' by lia.
  exists (set_cat s c'), f'. split; [|split].
  - rewrite (session_cases _ _ _ _ _ (asks_parse _ _ (ask_get _ h (hash_text_string h Hwf)))). cbn [serve].
    rewrite run_bind, Hifs, Hlis, Hrun. done.
  - intros n b Hb.
    pose proof (binv_busy cwd dir dl own h content cs name host port Hport Hne Hbl Hmaxz a0 [] Hho Hcs' Hcount Hpar Hfit _ _ _ Hb0 Hb) as Hi.
    split; [|split].
    + pose proof (binv_bound cwd dir dl h content cs host port a0 [] Hcs' Hcount Hfit _ _ Hi). lia.
    + intros resps dg Hnd Hnet. destruct b as [sb fb pc D].
      destruct (binv_step cwd dir dl own h content cs name host port Hport Hne Hbl Hmaxz a0 [] Hho Hcs' Hcount Hpar Hfit _ _ _ _ _ _ _ Hi Hnd Hnet) as (b2 & out & E & _). eexists. exact E.
    + intros Hdone. destruct Hi as [(sent & Hi) (A' & a & Hfin & Ha' & E1 & E2 & E3 & E4 & _ & E5)].
      destruct (hinv_done dir h host port content cs a0 _ Hcs' Hcount (fit_bounded _ _ _ Hfit) _ _ _ Hi Hdone) as [_ Hf]. cbn [l_fs] in Hf.
      rewrite drop_nil, app_nil_r in Hf. change (a_path a0) with p in Hf.
      assert (file_at (b_fs b) p = Some content) as Hfile.
      { destruct (file_at (b_fs b) p); cbn [default from_option id] in Hf; [congruence|]. symmetry in Hf. destruct (Hne Hf). }
      split; [exact Hfile|]. exists A'. split; [exact Hfin|].
      pose proof (count_facts _ _ _ _ _ _ h a (proj1 (srv_inv _ _ _ _ _ _ Hfin)) Ha') as [Hsub _].
      assert (a = full_entry p (Z.of_nat (length content)) (Z.of_nat cs)) as ->.
      { destruct a as [ap az ak an ah]. cbn [a_path a_size a_chunk a_count a_held] in *. unfold full_entry.
        cbn [a0 new_entry a_path a_size a_chunk a_count] in *. subst. f_equal.
        apply set_eq. intros k. split; [apply Hsub|apply (E5 Hdone)]. }
      split; [exact Ha'|]. intros env He Hifw Hfuel Hwok Hnd Hin.
      assert (exists d, p = d ++ slash :: take 255 name) as [d Hd'].
      { assert (clean_abs dl) as Hcl by (rewrite <- Hdl0; apply (sy_dl _ _ _ Hs0)). subst p. clear -Hcl Hname. destruct Hcl as (l & Hl & ->).
        rewrite join2_normal by done. unfold render. destruct l as [|c0 l]; [exists []; done|].
        exists (slash :: join_slash (c0 :: l)). rewrite join_slash_snoc. done. }
      exists d, ifs. rewrite <- Hd'. cbn [rm_A rm_fs rm_env]. split_and!; try done. apply Hname.
  - intros sM ra ip n b Hup Hip Hk Hb.
    pose proof (binv_busy cwd dir dl own h content cs name host port Hport Hne Hbl Hmaxz a0 [] Hho Hcs' Hcount Hpar Hfit _ _ _ Hb0 Hb) as Hi.
    pose proof (binv_bound cwd dir dl h content cs host port a0 [] Hcs' Hcount Hfit _ _ Hi) as Hle.
    apply (binv_completes cwd dir dl own h content cs name host port Hport Hne Hbl Hmaxz a0 [] Hho Hcs' Hcount Hpar Hfit M r sM ra ip
      (5 * length (todo a0) + 1 - n) n _ b HM Hfo Hup Hip Hk ltac:(lia) Hi Hb).
Qed.

(** ** What may happen meanwhile *)
Lemma besides_message cwd dir dl A h p s f e buffer ra s' f' ds r :
  srv_reached cwd dir dl A s f -> NoDup (en_order e) -> (forall k, k ∈ en_order e <-> A !! k <> None) ->
  run f (handle_message e s buffer ra) = (f', Done (s', ds, r)) -> besides cwd dir dl h p s f s' f'.
Proof.
  intros H Hnd Hin Hrun. destruct (handle_keeps _ _ _ _ _ _ _ _ _ _ _ _ _ (proj1 (srv_inv _ _ _ _ _ _ H)) Hnd Hin Hrun) as [-> _].
  exists A, A. split; [done|]. split; [exact (sr_msg _ _ _ _ _ _ _ _ _ _ _ _ _ H Hnd Hin Hrun)|]. done.
Qed.
Lemma besides_worker cwd dir dl A h p s f k u v u' ps :
  srv_reached cwd dir dl A s f -> sv_uploads s !! k = Some u -> sstep u v = SGo u' ps -> besides cwd dir dl h p s f (set_upload s k u') f.
Proof. intros H Hu Hst. exists A, A. split; [done|]. split; [exact (sr_work _ _ _ _ _ _ _ _ _ _ _ H Hu Hst)|]. done. Qed.
Lemma besides_outside cwd dir dl A h p s f f' :
  srv_reached cwd dir dl A s f -> f' !! dir = f !! dir -> (forall q, parent q = dir -> f' !! q = f !! q) ->
  f' !! p = f !! p -> f' !! parent p = f !! parent p -> besides cwd dir dl h p s f s f'.
Proof. intros H H1 H2 H3 H4. exists A, A. split; [done|]. split; [exact (sr_outside _ _ _ _ _ _ _ H H1 H2)|]. done. Qed.
Lemma besides_list cwd dir dl A h p s f e :
  srv_reached cwd dir dl A s f -> NoDup (ce_order e) -> (forall k, k ∈ ce_order e <-> A !! k <> None) ->
  exists s' o, session true e s f [str "list"] = (f, Some s', [], o) /\ besides cwd dir dl h p s f s' f.
Proof.
  intros H Hnd Hin. destruct (C68_list_lemma _ _ _ _ _ _ _ H Hnd Hin) as (s' & Hs & [[_ E]|[_ E]]).
  all: exists s'; eexists; split; [exact E|]; exists A, A; done.
Qed.
Lemma besides_share cwd dir dl A h p s f e q :
  srv_reached cwd dir dl A s f -> A !! h <> None -> parent p <> dir -> parent (parent p) <> dir -> ce_cwd e = cwd ->
  (forall l, file_at f (abs cwd q) = Some l -> small l) ->
  exists s' f' o, session true e s f [str "share"; q] = (f', Some s', [], o) /\ besides cwd dir dl h p s f s' f'.
Proof.
  intros H Hh Hp Hpp Hcw Hsm. destruct (file_at f (abs cwd q)) as [l|] eqn:Hf.
  - specialize (Hsm l eq_refl). destruct (A !! sha1 l) as [a|] eqn:Ha.
    + exists s, f. eexists. split; [eapply C68_share_fails_lemma; [done|done|right; exists l; rewrite Ha; done]|]. exists A, A. done.
    + destruct (C68_share_lemma _ _ _ _ _ _ e _ _ H Hcw Hf Hsm Ha) as (s' & f' & Hs & Hu & E).
      exists s', f'. eexists. split; [exact E|]. eexists A, _. split; [done|]. split; [exact Hs|].
      split; [rewrite lookup_insert_ne; [done|intros E2; rewrite E2 in Ha; done]|]. split; apply Hu; done.
  - exists s, f. eexists. split; [eapply C68_share_fails_lemma; [done|done|left; done]|]. exists A, A. done.
Qed.
Lemma besides_chims cwd dir dl A h p s f e argv k :
  srv_reached cwd dir dl A s f -> asks argv (RqChims k) -> Forall (fun r => length (h_addr r) = 4) (ce_resps e) ->
  exists s' d o, session true e s f argv = (f, Some s', [d], o) /\ besides cwd dir dl h p s f s' f.
Proof.
  intros H Hk Hr. destruct (C81_lemma _ _ _ _ _ _ _ _ _ H Hk Hr) as (s' & Hs & E). exists s'. do 2 eexists. split; [exact E|]. exists A, A. done.
Qed.
Lemma besides_refused cwd dir dl A h p s f e argv code :
  srv_reached cwd dir dl A s f -> client_parse argv = PRefuse code ->
  (exists code', session true e s f argv = (f, Some s, [], Refused code')) /\ besides cwd dir dl h p s f s f.
Proof. intros H E. split; [unfold session; destruct argv; [eauto|rewrite E; eauto]|]. exists A, A. done. Qed.
