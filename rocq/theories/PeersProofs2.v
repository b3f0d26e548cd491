(** Downloads from several daemons: answers exist, and an example. *)
From Verif Require Import SysProofs.
From Verif Require Export PeersProofs PeerProofs2.
From Coq Require Import ZifyBool ZifyNat ZifyN.
Ltac Zify.zify_post_hook ::= Z.div_mod_to_equations.

(** a daemon that has a chunk answers searches and requests for the description *)
Lemma C114_answers_lemma M s h content cs name ip need port i :
  h <> blank -> (length content + cs - 1) / cs <= N.to_nat 65536 -> u16 port ->
  offers M h content cs name ip need -> need i -> is_up M s port ->
  (exists r, found M port h r /\ h_addr r = ip /\ h_port r = port /\ h_chunks r <> []) /\ exists data, described M port h data.
Proof.
  intros Hbl Hmax Hport HM Hi Hup. assert (Z.of_nat ((length content + cs - 1) / cs) <= 65536)%Z as Hmaxz by lia. clear Hmax.
  destruct (offers_facts h content cs Hmaxz M s name ip need port HM Hup) as (Hwf & Hcs & Hlen). 
  assert (u16 0) as H0 by (unfold u16; lia). split.
  - destruct (part_reply h content cs Hbl Hmaxz M s 0 (mkAddr (exact_slice []) 0) name ip need i port HM Hup H0 Hi) as (data & chunks & Hr & Hp & Hne).
    assert (u16_of_int (sv_port s) = port) as Eport by (rewrite (proj2 Hup); unfold u16_of_int, u16 in *; lia). rewrite Eport in Hp.
    exists (mkResp ip port 0 chunks). split; [|done]. exists s, (mkAddr (exact_slice []) 0), data. cbn [h_reqid h_addr h_port h_chunks]. done.
  - destruct HM as (a & d & addrs & Ha & Hp & Hsl & Hsz & Hch & Hn & Hr & Hneed & Hruns & Hnd & Hln & Hfuel & Hifs & Hifw & Hown & Hw & Hnod & Hin).
    destruct (C59_srv_lemma _ _ _ _ s _ (rm_env M) (mkAddr (exact_slice []) 0) _ 0 h (proj1 Hup) Hnod Hin Hw (PeerProofs.parse_list_req 0 h Hwf H0)) as (s2 & es & Hrn & _).
    { right. rewrite Ha. done. }
    eexists. exists s, (mkAddr (exact_slice []) 0), 0%N. split; [done|]. split; [done|]. exists s2. do 2 eexists. exact Hrn.
Qed.

(** ** Example: a file of two chunks; one daemon has the second, another the first *)
Definition ex4 := next ex2 (CSave hnew 0 (bs "abc")).
Definition A4 : astate := <[hnew := hold entry_new 0]> A2.
Lemma ex4_reached : at_ex A4 ex4.
Proof.
  eapply (next_reached A2 ex2 (CSave hnew 0 (bs "abc"))).
  - apply ex2_reached.
  - cbn [allowed]. split; [lia|]. exists entry_new. split; [apply A2_new|]. vm_compute. discriminate.
  - intros A5 f3 ans3 H. cbn [aspec] in H. rewrite A2_new in H. destruct H as [(_ & _ & H & _)|(H & _)].
    + exact H.
    + exfalso. apply H. apply ex2_can.
Qed.
Lemma ex4_new : file_at ex4.1.2 (bs "/dl/new") = Some (bs "abc").
Proof. apply (bool_decide_unpack _). vm_compute. exact I. Qed.
Definition ex_srv4 : server := new_server 61696 ex4.1.1.
Lemma ex_srv4_reached : srv_reached ex_cwd ex_dir ex_dl A4 ex_srv4 ex4.1.2.
Proof. apply sr_start. apply ex4_reached. Qed.
Definition ex_b : list byte := [xc0; xa8; x01; x08].
Definition ex_ifsb : list ifaddr := [IfNet (exact_slice (replicate 10 x00 ++ [xff; xff] ++ ex_b))].
Lemma one_address b : length b = 4 -> b !! 0 <> Some (Nb 127) ->
  own_address [IfNet (exact_slice (replicate 10 x00 ++ [xff; xff] ++ b))] b.
Proof.
  intros Hl Hne. exists [], (IfNet (exact_slice (replicate 10 x00 ++ [xff; xff] ++ b))), []. split; [done|]. split; [|constructor].
  eexists. split; [done|]. split; [|exact Hne]. split; [exact Hl|]. right. unfold slice_bytes, exact_slice. cbn [arr slen]. apply take_ge. done.
Qed.
Lemma ex_ifsb_wf : Forall if_wf ex_ifsb.
Proof. repeat constructor; cbn; unfold slice_wf; cbn; lia. Qed.
Definition ex_rem4 : remote := mkRemote ex_cwd ex_dir ex_dl A4 ex4.1.2 (mkEnv (Some ex_ifsb) true [hnew; habc] 100).
Lemma ex_order4 : NoDup [hnew; habc] /\ forall h, h ∈ [hnew; habc] <-> A4 !! h <> None.
Proof. exact (two_keys hnew habc (hold entry_new 0) entry_new entry_abc hnew_ne). Qed.
Global Opaque ex4.
(** who has what *)
Definition ex_need : list byte -> N -> Prop := fun ip i => ip = ex_own /\ i = 1%N \/ ip = ex_b /\ i = 0%N.
Lemma hold_new_held i : a_held (hold entry_new i) = {[i]}.
Proof. cbn [hold a_held entry_new new_entry]. set_solver. Qed.
Lemma run_starts_one (i : N) : size (run_starts {[i]}) < 128.
Proof.
  assert (size (run_starts {[i]}) <= size ({[i]} : gset N)) as H by (apply subseteq_size; unfold run_starts; set_solver).
  rewrite size_singleton in H. lia.
Qed.
Lemma ex_offers3 : offers ex_rem hnew (bs "abcde") 3 (bs "new") ex_own (ex_need ex_own).
Proof.
  exists (hold entry_new 1), (bs "/dl"), ex_ifs. cbn [ex_rem rm_A rm_fs rm_env ex_env en_fuel en_ifs en_wok en_order].
  split; [exact A3_new|]. split; [vm_compute; reflexivity|].
  split; [refine (bool_decide_unpack (slash ∉ bs "new") _); vm_compute; done|].
  split; [reflexivity|]. split; [reflexivity|]. split; [reflexivity|].
  change (a_path (hold entry_new 1)) with (bs "/dl/new"). rewrite hold_new_held. pose proof ex3_new as Hf.
  split; [|split; [|split; [apply run_starts_one|split; [|split; [|split; [|split; [reflexivity|split; [exact ex_ifs_wf|split; [exact ex_own_address|split; [reflexivity|exact ex_order]]]]]]]]]].
  - intros k Hk Hin. change (a_path (hold entry_new 1)) with (bs "/dl/new"). rewrite Hf. rewrite hold_new_held in Hin. apply elem_of_singleton in Hin.
    change (length (bs "abcde")) with 5 in Hk. do 5 (destruct k as [|k]; [first [reflexivity|discriminate Hin]|]). lia.
  - intros i [[_ ->]|[E _]]; [set_solver|discriminate E].
  - unfold file_at in Hf. destruct (ex3.1.2 !! bs "/dl/new") as [[]|]; [discriminate..|]; discriminate.
  - rewrite Hf. cbn. lia.
  - cbn. lia.
Qed.
Lemma ex_offers4 : offers ex_rem4 hnew (bs "abcde") 3 (bs "new") ex_b (ex_need ex_b).
Proof.
  exists (hold entry_new 0), (bs "/dl"), ex_ifsb. cbn [ex_rem4 rm_A rm_fs rm_env en_fuel en_ifs en_wok en_order].
  split; [apply lookup_insert|]. split; [vm_compute; reflexivity|].
  split; [refine (bool_decide_unpack (slash ∉ bs "new") _); vm_compute; done|].
  split; [reflexivity|]. split; [reflexivity|]. split; [reflexivity|].
  change (a_path (hold entry_new 0)) with (bs "/dl/new"). rewrite hold_new_held. pose proof ex4_new as Hf.
  split; [|split; [|split; [apply run_starts_one|split; [|split; [|split; [|split; [reflexivity|split; [exact ex_ifsb_wf|split; [apply one_address; [reflexivity|discriminate]|split; [reflexivity|exact ex_order4]]]]]]]]]].
  - intros k Hk Hin. change (a_path (hold entry_new 0)) with (bs "/dl/new"). rewrite Hf. rewrite hold_new_held in Hin. apply elem_of_singleton in Hin.
    change (length (bs "abcde")) with 5 in Hk. do 5 (destruct k as [|k]; [first [reflexivity|discriminate Hin]|]). lia.
  - intros i [[E _]|[_ ->]]; [discriminate E|set_solver].
  - unfold file_at in Hf. destruct (ex4.1.2 !! bs "/dl/new") as [[]|]; [discriminate..|]; discriminate.
  - rewrite Hf. cbn. lia.
  - cbn. lia.
Qed.
Lemma hnew_not_blank : hnew <> blank.
Proof. intros H. apply (f_equal (fun l => bool_decide (l = blank))) in H. revert H. vm_compute. discriminate. Qed.
Lemma ex_f0_can_new : can_write ex_f0 (bs "/dl/new").
Proof.
  assert (parent (bs "/dl/new") = bs "/dl") as Hp by (vm_compute; reflexivity). unfold can_write. rewrite Hp.
  assert (is_dir ex_f0 (bs "/dl") && negb (is_dir ex_f0 (bs "/dl/new")) = true) as E by (vm_compute; reflexivity).
  revert E. generalize ex_f0. intros f E.
  unfold is_dir in E. apply andb_prop in E as [E1 E2]. destruct (f !! bs "/dl") as [[]|]; try done.
  split; [done|]. destruct (f !! bs "/dl/new") as [[]|]; done.
Qed.
Lemma ex_f0_no_new : file_at ex_f0 (bs "/dl/new") = None.
Proof. vm_compute. reflexivity. Qed.
Lemma C114_case_lemma : exists resps data c f n out b,
  run ex_f0 (start_download (Some ex_ifs2) ex_c0 hnew resps (Some data)) = (f, Done (c, Ok ex_host))
  /\ lexec ex_host hnew (peers ex_host hnew (bs "abcde") 3 2 ex_need) (mkL LCheck c f ∅) n out b /\ l_pc b = LDone
  /\ n <= 13 /\ file_at (l_fs b) (bs "/dl/new") = Some (bs "abcde").
Proof.
  assert (u16 61696) as Hport by (unfold u16; lia).
  assert ((length (bs "abcde") + 3 - 1) / 3 <= N.to_nat 65536) as Hmax by (change ((length (bs "abcde") + 3 - 1) / 3) with 2; lia).
  destruct (C114_answers_lemma ex_rem ex_srv hnew (bs "abcde") 3 (bs "new") ex_own (ex_need ex_own) 61696 1
    hnew_not_blank Hmax Hport ex_offers3 (or_introl (conj eq_refl eq_refl)) (conj ex_srv_reached eq_refl)) as [(r3 & F3 & A3' & P3 & N3) (data & Hdata)].
  destruct (C114_answers_lemma ex_rem4 ex_srv4 hnew (bs "abcde") 3 (bs "new") ex_b (ex_need ex_b) 61696 0
    hnew_not_blank Hmax Hport ex_offers4 (or_intror (conj eq_refl eq_refl)) (conj ex_srv4_reached eq_refl)) as [(r4 & F4 & A4' & P4 & N4) _].
  assert (h_addr r3 <> ex_host) as O3 by (rewrite A3'; discriminate).
  assert (h_addr r4 <> ex_host) as O4 by (rewrite A4'; discriminate).
  assert (own_address ex_ifs2 ex_host) as Hown by (apply one_address; [reflexivity|discriminate]).
  assert (no_spare ex_ifs2) as Hns by (repeat constructor).
  assert (normal_name (take 255 (bs "new"))) as Hname.
  { split; [done|]. split; [done|]. split; [done|]. refine (bool_decide_unpack (slash ∉ take 255 (bs "new")) _); vm_compute; done. }
  assert (parent ex_dl <> ex_dir) as Hdl by (vm_compute; discriminate).
  destruct (C114_lemma ex_cwd ex_dir ex_dl ∅ ex_c0 ex_f0 hnew (bs "abcde") 3 2 ex_need ex_host ex_ifs2 [r3; r4] r3 [r4] ex_rem (bs "new") data
    ex_reached0 (lookup_empty _) Hns Hown hnew_not_blank Hmax Hname ex_f0_can_new Hdl) as (c & f & Hrun & Hsafe & Hlive).
  - intros i. left. intros [H _]. unfold chunk_bytes in H. rewrite take_length in H. lia.
  - apply sel_take; [split; done|]. apply sel_take; [split; done|]. apply sel_nil.
  - rewrite A3'. exact ex_offers3.
  - rewrite P3. exact Hdata.
  - destruct Hlive as (n & out & b & Hex & Hd).
    + intros i Hi. exists [r3; r4]. split; [cbn; lia|]. split.
      * apply Forall_cons. split; [split; [done|split]|apply Forall_cons; split; [split; [done|split]|constructor]].
        -- exists ex_rem, (bs "new"). rewrite A3', P3. split; [exact ex_offers3|exact F3].
        -- exists ex_rem, (bs "new"), ex_srv, ex_peer, ex_host. rewrite A3', P3. split; [exact ex_offers3|]. split; [exact (conj ex_srv_reached eq_refl)|]. split; [exact ex_peer_ipv4|reflexivity].
        -- exists ex_rem4, (bs "new"). rewrite A4', P4. split; [exact ex_offers4|exact F4].
        -- exists ex_rem4, (bs "new"), ex_srv4, ex_peer, ex_host. rewrite A4', P4. split; [exact ex_offers4|]. split; [exact (conj ex_srv4_reached eq_refl)|]. split; [exact ex_peer_ipv4|reflexivity].
      * change (Z.of_nat ((length (bs "abcde") + 3 - 1) / 3)) with 2%Z in Hi. unfold someone_has.
        assert (i = 0 \/ i = 1)%N as [->| ->] by lia.
        -- right. left. rewrite A4'. right. done.
        -- left. rewrite A3'. left. done.
    + destruct (Hsafe n out b Hex) as (Hle & _ & Hfile). specialize (Hfile Hd). exists [r3; r4], data, c, f, n, out, b.
      split; [exact Hrun|]. split; [exact Hex|]. split; [exact Hd|]. split.
      * change ((length (bs "abcde") + 3 - 1) / 3) with 2 in Hle. lia.
      * change (join2 ex_dl (take 255 (bs "new"))) with (bs "/dl/new") in Hfile. rewrite ex_f0_no_new in Hfile.
        destruct (file_at (l_fs b) (bs "/dl/new")) as [l|]; cbn [from_option id] in Hfile; [|discriminate]. f_equal. exact Hfile.
Qed.
