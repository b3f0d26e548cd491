(** A concrete server for the examples beside the server theorems: the state after
    sharing /a ("abc") and fetching one chunk of a five-byte file (CatalogueCases.v),
    on a host with the addresses 127.0.0.1 and 192.168.1.7. *)
From Verif Require Export ServerProofs6 DiscoverProofs UploadsProofs.

Definition ex_own : list byte := [xc0; xa8; x01; x07].
Definition ex_ifs : list ifaddr :=
  [IfOther; IfNet (exact_slice [x7f; x00; x00; x01]); IfNet (exact_slice (replicate 10 x00 ++ [xff; xff] ++ ex_own))].
Definition ex_env (order : list hash) : env := mkEnv (Some ex_ifs) true order 100.
Definition ex_peer : udp_addr := mkAddr (exact_slice (replicate 10 x00 ++ [xff; xff] ++ [xc0; xa8; x01; x09])) 2000.
Definition ex_srv : server := new_server 61696 ex3.1.1.
Definition A3 : astate := <[hnew := hold entry_new 1]> A2.
(** the datagrams sent while one message is handled, and the server afterwards *)
Definition ex_handle (s : server) (m : message) : option (server * list dgram) :=
  match run ex3.1.2 (handle_message (ex_env [hnew; habc]) s (udp_buffer 1024 (serialize m)) ex_peer) with
  | (_, Done (s', ds, _)) => Some (s', ds)
  | _ => None
  end.
Definition ex_sent (s : server) (m : message) : option (list (list byte)) := match ex_handle s m with Some (_, ds) => Some (map dg_data ds) | None => None end.

Lemma ex_srv_reached : srv_reached ex_cwd ex_dir ex_dl A3 ex_srv ex3.1.2.
Proof. apply sr_start. apply ex3_reached. Qed.
Lemma ex_ifs_wf : Forall if_wf ex_ifs.
Proof. repeat constructor; cbn; unfold slice_wf; cbn; lia. Qed.
Lemma ex_own_address : own_address ex_ifs ex_own.
Proof.
  exists [IfOther; IfNet (exact_slice [x7f; x00; x00; x01])], (IfNet (exact_slice (replicate 10 x00 ++ [xff; xff] ++ ex_own))), [].
  split; [done|]. split.
  - eexists. split; [done|]. split; [|done]. split; [done|]. right. done.
  - constructor; [|constructor; [|constructor]].
    + intros b (ip & ? & _). done.
    + intros b (ip & [= <-] & Hip & Hb). apply Hb. destruct Hip as [Hl [E|E]].
      * cbn in E. subst b. done.
      * apply (f_equal length) in E. rewrite !app_length, replicate_length, Hl in E. cbn in E. lia.
Qed.
Lemma ex_peer_ipv4 : from_ipv4 ex_peer [xc0; xa8; x01; x09].
Proof. eexists. split; [done|]. split; [done|]. right. done. Qed.
Lemma A3_new : A3 !! hnew = Some (hold entry_new 1).
Proof. apply lookup_insert. Qed.
Lemma ex3_files : bool_decide (file_at ex3.1.2 (bs "/a") = Some (bs "abc")) && bool_decide (file_at ex3.1.2 (bs "/dl/new") = Some [x00; x00; x00; x64; x65]) = true.
Proof. vm_compute. reflexivity. Qed.
Lemma ex3_a : file_at ex3.1.2 (bs "/a") = Some (bs "abc").
Proof. pose proof ex3_files as E. apply andb_prop in E as [E _]. by apply bool_decide_eq_true in E. Qed.
Lemma ex3_new : file_at ex3.1.2 (bs "/dl/new") = Some [x00; x00; x00; x64; x65].
Proof. pose proof ex3_files as E. apply andb_prop in E as [_ E]. by apply bool_decide_eq_true in E. Qed.
Lemma two_keys (a b : hash) (x y z : aentry) : a <> b ->
  NoDup [a; b] /\ forall h, h ∈ [a; b] <-> (<[a := x]> (<[a := y]> {[b := z]}) : astate) !! h <> None.
Proof.
  intros Hne. split; [constructor; [set_solver|constructor; [set_solver|constructor]]|].
  intros h. rewrite !elem_of_cons. split.
  - intros [->|[->|H]]; [rewrite lookup_insert; done|rewrite !lookup_insert_ne, lookup_singleton by done; done|set_solver].
  - intros H. destruct (decide (h = a)) as [|N1]; [auto|]. destruct (decide (h = b)) as [|N2]; [auto|].
    exfalso. apply H. rewrite !lookup_insert_ne, lookup_singleton_ne by congruence. done.
Qed.
Lemma ex_order : NoDup [hnew; habc] /\ forall h, h ∈ [hnew; habc] <-> A3 !! h <> None.
Proof. exact (two_keys hnew habc (hold entry_new 1) entry_new entry_abc hnew_ne). Qed.
