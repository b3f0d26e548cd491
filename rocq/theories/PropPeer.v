(** Properties of two daemons (C87-C88). *)
From Verif Require Import PeerProofs2.

(** *** C87: a file that one daemon shares can be downloaded by another.  [M] is the
    daemon that shares; its answers to the search, to the request for a description
    and to every request for a chunk are what its own model sends.  The download
    starts, every execution is bounded and does not get stuck, at its end the file is
    there (before what an old file had beyond that length), and some execution
    ends if [M] has an upload to spare.  Limits: no ragged chunk of more than 1024
    packets (C47, C50), at most 65536 chunks (C64), no empty file (C88). *)
Theorem C87_download_partial :
  forall cwd dir dl A c f h content cs name own host port ifs resps r M data,
    let p := join2 dl (take 255 name) in
    reached cwd dir dl A c f -> A !! h = None -> no_spare ifs -> own_address ifs own -> host <> own ->
    content <> [] -> h <> blank -> (length content + cs - 1) / cs <= N.to_nat 65536 -> u16 port ->
    normal_name (take 255 name) -> can_write f p -> parent dl <> dir ->
    (forall i, ~ ragged cs (chunk_bytes content cs i) \/ first_empty (chunk_bytes content cs i) <= 1024) ->
    shares M h content cs name host -> found M port h r -> selected (fun x => h_addr x <> own) resps [r] -> described M port h data ->
    let net := one_peer own h content cs name host port in
    exists c' f', run f (start_download (Some ifs) c h resps (Some data)) = (f', Done (c', Ok own))
      /\ (forall n out b, lexec own h net (mkL LCheck c' f' ∅) n out b ->
            n <= 5 * ((length content + cs - 1) / cs) + 1
            /\ (forall resps dg, l_pc b <> LDone -> net (l_pc b) resps dg -> is_Some (lstep own h resps dg b))
            /\ (l_pc b = LDone -> default [] (file_at (l_fs b) p) = content ++ drop (length content) (default [] (file_at f p))))
      /\ (forall s ra ip, is_up M s port -> from_ipv4 ra ip -> sv_uploads s !! (ip, u16_of_int (ua_port ra)) = None ->
            exists n out b, lexec own h net (mkL LCheck c' f' ∅) n out b /\ l_pc b = LDone).
Proof. exact C87_lemma. Qed.
Print Assumptions C87_download_partial.
(** a daemon that shares a file does answer *)
Theorem C87_answers :
  forall M s h content cs name host port,
    content <> [] -> h <> blank -> (length content + cs - 1) / cs <= N.to_nat 65536 -> u16 port ->
    shares M h content cs name host -> is_up M s port ->
    (exists r, found M port h r /\ h_addr r = host /\ h_port r = port) /\ exists data, described M port h data.
Proof. exact C87_answers_lemma. Qed.
Print Assumptions C87_answers.
Example C87_case :
  reached ex_cwd ex_dir ex_dl ∅ ex_c0 ex_f0 /\ no_spare ex_ifs2 /\ own_address ex_ifs2 ex_host /\ ex_own <> ex_host
  /\ habc <> blank /\ (length (bs "abc") + ex_cs - 1) / ex_cs <= N.to_nat 65536
  /\ normal_name (take 255 (bs "a")) /\ can_write ex_f0 (join2 ex_dl (take 255 (bs "a"))) /\ parent ex_dl <> ex_dir
  /\ (forall i, ~ ragged ex_cs (chunk_bytes (bs "abc") ex_cs i) \/ first_empty (chunk_bytes (bs "abc") ex_cs i) <= 1024)
  /\ shares ex_rem habc (bs "abc") ex_cs (bs "a") ex_own /\ is_up ex_rem ex_srv 61696
  /\ from_ipv4 ex_peer ex_host /\ sv_uploads ex_srv !! (ex_host, u16_of_int (ua_port ex_peer)) = None.
Proof. exact C87_case_lemma. Qed.
Example C87_run :
  match run ex_f0 (start_download (Some ex_ifs2) ex_c0 habc ex_found (Some ex_meta)) with
  | (f, Done (c, Ok own)) =>
      bool_decide (own = ex_host)
      && match ex_get 6 (mkL LCheck c f ∅) [] with
         | Some (b, out) => match l_pc b with LDone => true | _ => false end
             && bool_decide (file_at (l_fs b) (bs "/dl/a") = Some (bs "abc"))
             && match out with [d] => bool_decide (dg_ip d = ex_own) && bool_decide (dg_data d = serialize (OpenReq habc 0 1024)) | _ => false end
         | None => false
         end
  | _ => false
  end = true.
Proof. exact C87_run_lemma. Qed.

(** *** C88: every file that is shared can be downloaded.  False for empty files: the
    answer to a search for one lists no chunks, so that the host is not considered
    and the download is refused. *)
Theorem C88_empty_refuted :
  forall cwd dir dl A c f h cs name own host port ifs resps r meta M,
    reached cwd dir dl A c f -> no_spare ifs -> own_address ifs own -> h <> blank ->
    shares M h [] cs name host -> found M port h r -> selected (fun x => h_addr x <> own) resps [r] ->
    h_addr r = host /\ h_chunks r = []
    /\ exists c' w, run f (start_download (Some ifs) c h resps meta) = (f, Done (c', Err w)) /\ reached cwd dir dl A c' f.
Proof. exact C88_lemma. Qed.
Print Assumptions C88_empty_refuted.
Example C88_case :
  shares ex_rem0 hempty [] ex_cs (bs "e") ex_own /\ is_up ex_rem0 (new_server 61696 ex_e.1.1) 61696 /\ hempty <> blank.
Proof. exact C88_case_lemma. Qed.
