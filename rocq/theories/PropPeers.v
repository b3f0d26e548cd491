(** Properties of downloads from several daemons (C114). *)
From Verif Require Import PeersProofs2.

(** *** C114: a file that several daemons have in parts can be downloaded from them.  The
    daemon [M] behind the first usable answer describes the file; at most [K] daemons
    answer a search, each with what its own model sends, and for each chunk one of them
    has it.  The download starts, every execution is bounded and does not get stuck, at
    its end the file is there, and some execution ends if the daemons have an upload to
    spare.  Limits: those of C87, and fewer than 128 runs of chunks at each daemon (C58). *)
Theorem C114_parts_partial :
  forall cwd dir dl A c f h content cs K need own ifs resps r rest M name data,
    let p := join2 dl (take 255 name) in
    let count := (length content + cs - 1) / cs in
    reached cwd dir dl A c f -> A !! h = None -> no_spare ifs -> own_address ifs own ->
    h <> blank -> count <= N.to_nat 65536 ->
    normal_name (take 255 name) -> can_write f p -> parent dl <> dir ->
    (forall i, ~ ragged cs (chunk_bytes content cs i) \/ first_empty (chunk_bytes content cs i) <= 1024) ->
    selected (good own) resps (r :: rest) -> offers M h content cs name (h_addr r) (need (h_addr r)) -> described M (h_port r) h data ->
    let net := peers own h content cs K need in
    exists c' f', run f (start_download (Some ifs) c h resps (Some data)) = (f', Done (c', Ok own))
      /\ (forall n out b, lexec own h net (mkL LCheck c' f' ∅) n out b ->
            n <= (4 + K) * count + 1
            /\ (forall resps dg, l_pc b <> LDone -> net (l_pc b) resps dg -> is_Some (lstep own h resps dg b))
            /\ (l_pc b = LDone -> default [] (file_at (l_fs b) p) = content ++ drop (length content) (default [] (file_at f p))))
      /\ ((forall i, (Z.of_N i < Z.of_nat count)%Z -> exists rs, length rs <= K
              /\ Forall (fun r => h_addr r <> own /\ responds h content cs need r /\ spare h content cs need r) rs /\ someone_has need i rs) ->
            exists n out b, lexec own h net (mkL LCheck c' f' ∅) n out b /\ l_pc b = LDone).
Proof. exact C114_lemma. Qed.
Print Assumptions C114_parts_partial.
(** a daemon that has a part does answer, and lists chunks *)
Theorem C114_answers :
  forall M s h content cs name ip need port i,
    h <> blank -> (length content + cs - 1) / cs <= N.to_nat 65536 -> u16 port ->
    offers M h content cs name ip need -> need i -> is_up M s port ->
    (exists r, found M port h r /\ h_addr r = ip /\ h_port r = port /\ h_chunks r <> []) /\ exists data, described M port h data.
Proof. exact C114_answers_lemma. Qed.
Print Assumptions C114_answers.
(** a file of two chunks, of which one daemon has the first and another the second; a
    third daemon downloads it from them *)
Example C114_case : exists resps data c f n out b,
  run ex_f0 (start_download (Some ex_ifs2) ex_c0 hnew resps (Some data)) = (f, Done (c, Ok ex_host))
  /\ lexec ex_host hnew (peers ex_host hnew (bs "abcde") 3 2 ex_need) (mkL LCheck c f ∅) n out b /\ l_pc b = LDone
  /\ n <= 13 /\ file_at (l_fs b) (bs "/dl/new") = Some (bs "abcde").
Proof. exact C114_case_lemma. Qed.
