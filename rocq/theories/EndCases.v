(** Examples for EndProofs.v: the daemon of CatalogueCases.v shares /a, and a new
    daemon gets it. *)
From Verif Require Export EndProofs.
From Verif Require Import PeerProofs2 CliProofs5 ServerCases CatalogueCases DownloadProofs4.

Definition ex_new_srv : server := new_server 61696 ex_c0.
Definition ex_sharer : cenv := mkCenv ex_cwd [] (Some ex_ifs) [] None ex_why.
(** the daemon that shares, afterwards *)
Definition ex_shared : fs * server * cend :=
  match session true ex_sharer ex_new_srv ex_f0 [str "share"; bs "a"] with
  | (f, Some s, _, o) => (f, s, o)
  | (f, None, _, o) => (f, ex_new_srv, o)
  end.
(** its answer to a message *)
Definition ex_reply (m : message) : list byte :=
  match run ex_shared.1.1 (handle_message (ex_env [habc]) ex_shared.1.2 (udp_buffer 1024 (serialize m)) ex_peer) with
  | (_, Done (_, [d], _)) => dg_data d
  | _ => []
  end.
Definition ex_getter : cenv :=
  mkCenv ex_cwd [habc] (Some ex_ifs2)
    (match parse (udp_buffer 1024 (ex_reply (DiscReq 4 habc []))) with Ok (DiscResp a p q cs) => [mkResp a p q cs] | _ => [] end)
    (Some (ex_reply (ListReq 5 habc))) ex_why.
Definition ex_lines (path : string) : list string :=
  ["a"; "	Path: " ++ path; "	Size (bytes): 3"; "	Sha1 Hash: a9993e364706816aba3e25717850c26c9cd0d89d"; "	Chunk Count: 1";
   "	Chunks Downloaded: 1"; "	Chunk Size: 4194304"; "	Integrity: 100%"]%string.
Definition shows_lines (o : cend) (ls : list string) : bool :=
  match o with Shown t => bool_decide (t = concat (map (fun l => str l ++ nl) ls)) | _ => false end.
Lemma C122_run_lemma :
  shows_lines ex_shared.2 (ex_lines "/a") &&
  match session true ex_getter ex_new_srv ex_f0 [str "get"; str "a9993e364706816aba3e25717850c26c9cd0d89d"] with
  | (f, Some s, _, o) =>
      shows_lines o ["Flu transfer initiated"]
      && match ex_get 6 (mkL LCheck (sv_cat s) f ∅) [] with
         | Some (b, _) => match l_pc b with LDone => true | _ => false end
             && bool_decide (file_at (l_fs b) (bs "/dl/a") = Some (bs "abc"))
             && match session true ex_getter (set_cat s (l_cat b)) (l_fs b) [str "list"] with
                | (_, Some _, _, o) => shows_lines o (ex_lines "/dl/a")
                | _ => false
                end
         | None => false
         end
  | _ => false
  end = true.
Proof. vm_compute. reflexivity. Qed.
Lemma C122_case_lemma :
  srv_reached ex_cwd ex_dir ex_dl ∅ ex_new_srv ex_f0 /\ sv_port ex_new_srv = Z.of_N 61696 /\ parent (abs ex_cwd (bs "a")) <> ex_dir
  /\ file_at ex_f0 (abs ex_cwd (bs "a")) = Some (bs "abc") /\ own_address ex_ifs ex_own /\ own_address ex_ifs2 ex_host /\ ex_own <> ex_host
  /\ (forall k, k ∈ en_order (ex_env [habc]) <-> k = habc \/ (∅ : astate) !! k <> None)
  /\ normal_name (take 255 (name_of (abs ex_cwd (bs "a")))) /\ ex_f0 !! ex_dl = Some NDir
  /\ ex_f0 !! join2 ex_dl (take 255 (name_of (abs ex_cwd (bs "a")))) = None /\ parent ex_dl <> ex_dir
  /\ from_ipv4 ex_peer ex_host /\ sv_uploads ex_new_srv !! (ex_host, u16_of_int (ua_port ex_peer)) = None.
Proof.
  split; [apply sr_start; exact ex_reached0|]. split; [reflexivity|]. split; [vm_compute; discriminate|].
  split; [vm_compute; reflexivity|]. destruct C87_case_lemma as (_ & _ & Hown & Hne & _ & _ & _ & Hw & Hdl & _ & _ & _ & Hip & _).
  split; [exact ex_own_address|]. split; [exact Hown|]. split; [exact Hne|]. split.
  { generalize habc. intros h k. cbn [ex_env en_order]. rewrite elem_of_list_singleton, lookup_empty. split; [by left|]. intros [?|?]; done. }
  assert (name_of (abs ex_cwd (bs "a")) = bs "a") as -> by (vm_compute; reflexivity).
  split.
  { split; [done|]. split; [done|]. split; [done|]. refine (bool_decide_unpack (slash ∉ take 255 (bs "a")) _); vm_compute; done. }
  split; [exact (proj1 ex_f0_can)|]. split; [vm_compute; reflexivity|]. split; [exact Hdl|]. split; [exact Hip|]. reflexivity.
Qed.
