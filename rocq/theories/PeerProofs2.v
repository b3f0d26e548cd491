(** Two daemons: answers exist, an empty file, and examples. *)
From Verif Require Import SysProofs.
From Verif Require Export PeerProofs.
From Coq Require Import ZifyBool ZifyNat ZifyN.
Ltac Zify.zify_post_hook ::= Z.div_mod_to_equations.

(** a daemon that shares a file answers searches and requests for its description *)
Lemma C87_answers_lemma M s h content cs name host port :
  content <> [] -> h <> blank -> (length content + cs - 1) / cs <= N.to_nat 65536 -> u16 port ->
  shares M h content cs name host -> is_up M s port ->
  (exists r, found M port h r /\ h_addr r = host /\ h_port r = port) /\ exists data, described M port h data.
Proof.
  intros Hne Hbl Hmax Hport HM Hup. assert (Z.of_nat ((length content + cs - 1) / cs) <= 65536)%Z as Hmaxz by lia. clear Hmax.
  destruct (shares_facts h content cs name host port Hmaxz M s HM Hup) as (Hwf & Hcs & Hlen). split.
  - destruct (search_reply h content cs name host port Hport Hne Hbl Hmaxz M s 0 (mkAddr (exact_slice []) 0) HM Hup) as (data & chunks & Hr & Hp & _).
    { unfold u16. lia. }
    exists (mkResp host port 0 chunks). split; [|done]. exists s, (mkAddr (exact_slice []) 0), data. cbn [h_reqid h_addr h_port h_chunks].
    split; [done|]. split; [unfold u16; lia|]. done.
  - destruct HM as (d & addrs & Ha & Hsl & Hf & Hfuel & Hifs & Hifw & Hown & Hw & Hnd & Hin). pose proof Hup as [Hsr _].
    assert (u16 0) as H0 by (unfold u16; lia).
    destruct (C59_srv_lemma _ _ _ _ s _ (rm_env M) (mkAddr (exact_slice []) 0) _ 0 h Hsr Hnd Hin Hw (parse_list_req 0 h Hwf H0)) as (s2 & es & Hr & _).
    { right. rewrite Ha. done. }
    eexists. exists s, (mkAddr (exact_slice []) 0), 0%N. split; [done|]. split; [done|]. exists s2. do 2 eexists. exact Hr.
Qed.
(** an empty file is shared, but nobody can download it *)
Lemma C88_lemma cwd dir dl A c f h cs name own host port ifs resps r meta M :
  reached cwd dir dl A c f -> no_spare ifs -> own_address ifs own -> h <> blank ->
  shares M h [] cs name host -> found M port h r -> selected (fun x => h_addr x <> own) resps [r] ->
  h_addr r = host /\ h_chunks r = []
  /\ exists c' w, run f (start_download (Some ifs) c h resps meta) = (f, Done (c', Err w)) /\ reached cwd dir dl A c' f.
Proof.
  intros H Hns Hown Hbl HM Hfo Hsel.
  assert (h_addr r = host /\ h_chunks r = []) as [Hra Hrc].
  { destruct Hfo as (s & ra & data & Hrun & Hq & (s' & adr & p & Hrep) & Hpar).
    destruct HM as (d & addrs & Ha & Hsl & Hf & Hfuel & Hifs & Hifw & Ho & Hw & Hnd & Hin). pose proof Hrun as [Hsr Hp].
    destruct (srv_inv _ _ _ _ _ _ Hsr) as (Hre & _).
    destruct (entry_facts _ _ _ _ _ _ _ _ Hre Ha) as (Hwf & _ & _ & Hcs). cbn [full_entry a_chunk] in Hcs.
    destruct (C58_srv_lemma _ _ _ _ s _ (rm_env M) ra _ (h_reqid r) h _ addrs host Hsr Hifs Hifw Ho Hw (parse_disc_req _ _ Hwf Hq) Hbl Ha)
      as (s2 & data2 & ps & G1 & G2 & G3 & G4 & G5).
    { cbn [full_entry a_count length]. rewrite ceil_div_nat by lia. rewrite Nat.div_small by lia. lia. }
    rewrite G1 in Hrep. simplify_eq. rewrite G5 in Hpar. simplify_eq. split; [congruence|].
    destruct ps as [|[u v] ps]; [done|]. exfalso. revert G4. cbn [full_entry a_held length].
    rewrite ceil_div_nat by lia. rewrite Nat.div_small by lia. change (Z.of_nat 0) with 0%Z. change (all_below 0) with (∅ : gset N).
    unfold run_starts. rewrite filter_empty_L by apply _. rewrite size_empty. done. }
  split; [done|]. split; [done|].
  apply (start_nobody_lemma cwd dir dl A c f h ifs own resps meta H Hns Hown).
  clear -Hsel Hrc. remember [r] as l eqn:E. 
  assert (forall x, x ∈ l -> h_chunks x = []) as Hall by (intros x Hx; subst l; apply elem_of_list_singleton in Hx as ->; done).
  clear E. induction Hsel as [|x xs l Hx _ IH|x xs l Hx _ IH].
  - apply sel_nil.
  - apply sel_skip; [|apply IH; intros; apply Hall; set_solver]. intros [G _]. apply G, Hall. set_solver.
  - apply sel_skip; [|apply IH; done]. intros [_ G]. exact (Hx G).
Qed.

(** ** Examples: the daemon of ServerCases.v shares /a, and a new daemon downloads it *)
Definition ex_rem : remote := mkRemote ex_cwd ex_dir ex_dl A3 ex3.1.2 (ex_env [hnew; habc]).
Definition ex_ifs2 : list ifaddr := [IfNet (exact_slice (replicate 10 x00 ++ [xff; xff] ++ ex_host))].
Definition ex_cs : nat := N.to_nat 4194304.
Lemma ex_cs_Z : Z.of_nat ex_cs = 4194304%Z.
Proof. unfold ex_cs. lia. Qed.
Lemma entry_abc_full n : Z.of_nat n = 4194304%Z -> A3 !! habc = Some (full_entry (bs "/a") (Z.of_nat 3) (Z.of_nat n)).
Proof. intros ->. change (Z.of_nat 3) with 3%Z. unfold A3, A2. rewrite !lookup_insert_ne by apply hnew_ne. apply lookup_singleton. Qed.
Global Opaque ex_cs.
Lemma ex_shares : shares ex_rem habc (bs "abc") ex_cs (bs "a") ex_own.
Proof.
  exists [], ex_ifs. cbn zeta. cbn [ex_rem rm_A rm_fs rm_env app ex_env en_fuel en_ifs en_wok en_order].
  split; [exact (entry_abc_full ex_cs ex_cs_Z)|].
  split; [refine (bool_decide_unpack (slash ∉ bs "a") _); vm_compute; done|]. split; [exact ex3_a|].
  split; [cbn; lia|]. split; [reflexivity|]. split; [exact ex_ifs_wf|]. split; [exact ex_own_address|].
  split; [reflexivity|]. exact ex_order.
Qed.
Lemma ex_is_up : is_up ex_rem ex_srv 61696.
Proof. split; [exact ex_srv_reached|reflexivity]. Qed.
Lemma ex_f0_can : ex_f0 !! bs "/dl" = Some NDir /\ ex_f0 !! bs "/dl/a" <> Some NDir.
Proof.
  assert (is_dir ex_f0 (bs "/dl") && negb (is_dir ex_f0 (bs "/dl/a")) = true) as E by (vm_compute; reflexivity).
  revert E. generalize ex_f0. intros f E.
  unfold is_dir in E. apply andb_prop in E as [E1 E2]. destruct (f !! bs "/dl") as [[]|]; try done.
  split; [done|]. destruct (f !! bs "/dl/a") as [[]|]; done.
Qed.
Lemma habc_not_blank : habc <> blank.
Proof. intros H. apply (f_equal (fun l => bool_decide (l = blank))) in H. revert H. vm_compute. discriminate. Qed.
Lemma C87_case_lemma :
  reached ex_cwd ex_dir ex_dl ∅ ex_c0 ex_f0 /\ no_spare ex_ifs2 /\ own_address ex_ifs2 ex_host /\ ex_own <> ex_host
  /\ habc <> blank /\ (length (bs "abc") + ex_cs - 1) / ex_cs <= N.to_nat 65536
  /\ normal_name (take 255 (bs "a")) /\ can_write ex_f0 (join2 ex_dl (take 255 (bs "a"))) /\ parent ex_dl <> ex_dir
  /\ (forall i, ~ ragged ex_cs (chunk_bytes (bs "abc") ex_cs i) \/ first_empty (chunk_bytes (bs "abc") ex_cs i) <= 1024)
  /\ shares ex_rem habc (bs "abc") ex_cs (bs "a") ex_own /\ is_up ex_rem ex_srv 61696
  /\ from_ipv4 ex_peer ex_host /\ sv_uploads ex_srv !! (ex_host, u16_of_int (ua_port ex_peer)) = None.
Proof.
  split; [exact ex_reached0|]. split; [repeat constructor|]. split.
  { exists [], (IfNet (exact_slice (replicate 10 x00 ++ [xff; xff] ++ ex_host))), []. split; [done|]. split; [|constructor].
    eexists. split; [done|]. split; [|done]. split; [done|]. right. done. }
  split; [done|]. split; [exact habc_not_blank|]. split.
  { pose proof ex_cs_Z as E. change (length (bs "abc")) with 3. replace (3 + ex_cs - 1) with (1 * ex_cs + 2) by lia.
    rewrite Nat.div_add_l by lia. rewrite Nat.div_small by lia. lia. }
  split.
  { split; [done|]. split; [done|]. split; [done|]. refine (bool_decide_unpack (slash ∉ take 255 (bs "a")) _); vm_compute; done. }
  split; [exact ex_f0_can|]. split; [vm_compute; discriminate|]. split.
  { intros i. left. intros [H _]. unfold chunk_bytes in H. rewrite take_length, drop_length in H. change (length (bs "abc")) with 3 in H. lia. }
  split; [exact ex_shares|]. split; [exact ex_is_up|]. split; [exact ex_peer_ipv4|]. reflexivity.
Qed.
(** the answers that really come, as bytes, and the whole download *)
Definition ex_meta : list byte := match ex_sent ex_srv (ListReq 4 habc) with Some [d] => d | _ => [] end.
Definition ex_found : list hostresp :=
  match ex_sent ex_srv (DiscReq 4 habc []) with
  | Some [d] => match parse (udp_buffer 1024 d) with Ok (DiscResp a p q cs) => [mkResp a p q cs] | _ => [] end
  | _ => []
  end.
Fixpoint ex_get (k : nat) (a : lworld) (out : list dgram) : option (lworld * list dgram) :=
  match k with
  | O => Some (a, out)
  | S k' => match lstep ex_host habc ex_found (Some ex_ds) a with Some (b, o) => ex_get k' b (out ++ o) | None => None end
  end.
Lemma C87_run_lemma :
  match run ex_f0 (start_download (Some ex_ifs2) ex_c0 habc ex_found (Some ex_meta)) with
  | (f, Done (c, Ok own)) =>
      bool_decide (own = ex_host)
      && match ex_get 6 (mkL LCheck c f ∅) [] with
         | Some (b, out) => match l_pc b with LDone => true | _ => false end
             && bool_decide (file_at (l_fs b) (bs "/dl/a") = Some (bs "abc"))
             && match out with [d] => bool_decide (dg_ip d = ex_own) && bool_decide (dg_data d = serialize (OpenReq habc 0 1024)) | _ => false end
         | None => false
         end
  | _ => false
  end = true.
Proof. vm_compute. reflexivity. Qed.

(** an empty file /e appears and is shared *)
Definition hempty : hash := sha1 [].
Definition ex_fe : fs := <[bs "/e" := NFile []]> ex_f0.
Definition ex_e : cat * fs * cans := next (ex_c0, ex_fe, AOk) (CShare (bs "e")).
Definition entry_e : aentry := full_entry (bs "/e") 0 4194304.
Lemma ex_fe_reached : reached ex_cwd ex_dir ex_dl ∅ ex_c0 ex_fe.
Proof.
  eapply re_outside; [exact ex_reached0| |].
  - apply lookup_insert_ne. vm_compute. discriminate.
  - intros p Hp. apply lookup_insert_ne. intros <-. revert Hp. vm_compute. discriminate.
Qed.
Lemma ex_fe_file : file_at ex_fe (abs ex_cwd (bs "e")) = Some [].
Proof. vm_compute. reflexivity. Qed.
Lemma abs_e : abs ex_cwd (bs "e") = bs "/e".
Proof. vm_compute. reflexivity. Qed.
Lemma ex_e_file : bool_decide (file_at ex_e.1.2 (bs "/e") = Some []) = true.
Proof. vm_compute. reflexivity. Qed.
Lemma hempty_not_blank : hempty <> blank.
Proof. intros H. apply (f_equal (fun l => bool_decide (l = blank))) in H. revert H. vm_compute. discriminate. Qed.
Lemma ex_e_reached : at_ex {[hempty := entry_e]} ex_e.
Proof.
  eapply (next_reached ∅ (ex_c0, ex_fe, AOk) (CShare (bs "e"))).
  - exact ex_fe_reached.
  - cbn [allowed fst snd]. rewrite ex_fe_file. intros l [= <-]. vm_compute. done.
  - intros A2 f2 ans2 [_ H]. cbn [fst snd] in H. rewrite ex_fe_file in H. rewrite lookup_empty in H. destruct H as [-> _].
    rewrite insert_empty, abs_e. reflexivity.
Qed.
Global Opaque hempty ex_e.
Definition ex_rem0 : remote := mkRemote ex_cwd ex_dir ex_dl {[hempty := entry_e]} ex_e.1.2 (ex_env [hempty]).
Lemma entry_e_full n : Z.of_nat n = 4194304%Z -> ({[hempty := entry_e]} : astate) !! hempty = Some (full_entry (bs "/e") (Z.of_nat 0) (Z.of_nat n)).
Proof. intros ->. change (Z.of_nat 0) with 0%Z. apply lookup_singleton. Qed.
Lemma C88_case_lemma :
  shares ex_rem0 hempty [] ex_cs (bs "e") ex_own /\ is_up ex_rem0 (new_server 61696 ex_e.1.1) 61696 /\ hempty <> blank.
Proof.
  split; [|split; [|exact hempty_not_blank]].
  - exists [], ex_ifs. cbn zeta. cbn [ex_rem0 rm_A rm_fs rm_env app ex_env en_fuel en_ifs en_wok en_order].
    split; [exact (entry_e_full ex_cs ex_cs_Z)|].
    split; [refine (bool_decide_unpack (slash ∉ bs "e") _); vm_compute; done|].
    split; [pose proof ex_e_file as E; by apply bool_decide_eq_true in E|].
    split; [cbn; lia|]. split; [reflexivity|]. split; [exact ex_ifs_wf|]. split; [exact ex_own_address|].
    split; [reflexivity|]. split; [constructor; [set_solver|constructor]|].
    generalize hempty entry_e. intros k0 e0 k. rewrite elem_of_list_singleton. destruct (decide (k = k0)) as [->|N].
    + rewrite lookup_singleton. done.
    + rewrite lookup_singleton_ne by congruence. done.
  - split; [|reflexivity]. apply sr_start. apply ex_e_reached.
Qed.
