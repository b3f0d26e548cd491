(** Properties of downloads (C63-C65, C75-C77). *)
From Verif Require Import DownloadProofs4.

(** *** C63: starting a download.  A file that is not known yet is registered as its
    first host describes it; a known one goes on from where it was; without hosts
    there is an error and nothing changes. *)
Theorem C63_start_new :
  forall cwd dir dl A c f h ifs own resps r hs reqid e,
    reached cwd dir dl A c f -> A !! h = None -> no_spare ifs -> own_address ifs own -> selected (good own) resps (r :: hs) ->
    u16 reqid -> entry_typed e -> e_hash e = h -> (e_size e < 9223372036854775808)%N -> (0 < e_chunk e)%N ->
    normal_name (take 255 (e_name e)) ->
    exists c' f', run f (start_download (Some ifs) c h resps (Some (serialize (ListResp reqid [e])))) = (f', Done (c', Ok own))
      /\ reached cwd dir dl (<[h := new_entry (join2 dl (take 255 (e_name e))) (Z.of_N (e_size e)) (Z.of_N (e_chunk e))]> A) c' f'
      /\ same_user dir f f'.
Proof. exact start_new_lemma. Qed.
Print Assumptions C63_start_new.
Theorem C63_start_known :
  forall cwd dir dl A c f h a ifs own resps r hs meta,
    reached cwd dir dl A c f -> A !! h = Some a -> no_spare ifs -> own_address ifs own -> selected (good own) resps (r :: hs) ->
    exists c', run f (start_download (Some ifs) c h resps meta) = (f, Done (c', Ok own)) /\ reached cwd dir dl A c' f.
Proof. exact start_known_lemma. Qed.
Print Assumptions C63_start_known.
Theorem C63_start_nobody :
  forall cwd dir dl A c f h ifs own resps meta,
    reached cwd dir dl A c f -> no_spare ifs -> own_address ifs own -> selected (good own) resps [] ->
    exists c' w, run f (start_download (Some ifs) c h resps meta) = (f, Done (c', Err w)) /\ reached cwd dir dl A c' f.
Proof. exact start_nobody_lemma. Qed.
Print Assumptions C63_start_nobody.

(** *** C63: the loop with an honest host and a lossless channel, from any progress:
    every execution is bounded, asks for the missing chunks in order and each once,
    does not get stuck, and at the end the file is there (followed by what an old
    longer file had there: C37).  Guarded by C47/C50: no chunk stops in the middle of
    a packet after more than 1024 packets. *)
Theorem C63_honest_download_partial :
  forall cwd dir dl A c f h a cs content own host port n out b,
    reached cwd dir dl A c f -> A !! h = Some a ->
    0 < cs -> a_chunk a = Z.of_nat cs -> a_count a = Z.of_nat ((length content + cs - 1) / cs) -> (a_count a <= 65536)%Z ->
    can_write f (a_path a) -> parent (a_path a) <> dir -> right_so_far content cs f a ->
    (forall i, ~ ragged cs (chunk_bytes content cs i) \/ first_empty (chunk_bytes content cs i) <= 1024) ->
    lexec own h (honest own host port content cs) (mkL LCheck c f ∅) n out b ->
    n <= 5 * length (todo a) + 1
    /\ (exists sent rest, todo a = sent ++ rest /\ out = map (request host port h) sent)
    /\ (forall resps dg, l_pc b <> LDone -> honest own host port content cs (l_pc b) resps dg -> is_Some (lstep own h resps dg b))
    /\ (l_pc b = LDone -> out = map (request host port h) (todo a)
        /\ default [] (file_at (l_fs b) (a_path a)) = content ++ drop (length content) (default [] (file_at f (a_path a)))).
Proof. exact C63_lemma. Qed.
Print Assumptions C63_honest_download_partial.
(** and such an execution to the end exists *)
Theorem C63_completes_partial :
  forall cwd dir dl A c f h a cs content own host port,
    reached cwd dir dl A c f -> A !! h = Some a ->
    0 < cs -> a_chunk a = Z.of_nat cs -> a_count a = Z.of_nat ((length content + cs - 1) / cs) -> (a_count a <= 65536)%Z ->
    can_write f (a_path a) -> parent (a_path a) <> dir -> right_so_far content cs f a ->
    (forall i, ~ ragged cs (chunk_bytes content cs i) \/ first_empty (chunk_bytes content cs i) <= 1024) ->
    host <> own ->
    exists n out b, lexec own h (honest own host port content cs) (mkL LCheck c f ∅) n out b /\ l_pc b = LDone.
Proof. exact C63_completes_lemma. Qed.
Print Assumptions C63_completes_partial.
(** a chunk outside the guard can be asked for again and again, without end, over a
    lossless channel *)
Theorem C63_long_last_chunk_refuted :
  forall cwd dir dl A c f h a cs content own host port i k,
    reached cwd dir dl A c f -> A !! h = Some a ->
    0 < cs -> a_chunk a = Z.of_nat cs -> a_count a = Z.of_nat ((length content + cs - 1) / cs) -> (a_count a <= 65536)%Z ->
    host <> own -> (Z.of_N i < a_count a)%Z -> i ∉ a_held a -> (forall j, (j < i)%N -> j ∈ a_held a) ->
    ragged cs (chunk_bytes content cs (N.to_nat i)) -> 1024 < first_empty (chunk_bytes content cs (N.to_nat i)) ->
    exists b, lexec own h (honest own host port content cs) (mkL LCheck c f ∅) (5 * k) (replicate k (request host port h i)) b
      /\ l_pc b = LCheck /\ l_fs b = f.
Proof. exact C63_never_lemma. Qed.
Print Assumptions C63_long_last_chunk_refuted.
(** a five-byte file in chunks of three, of which the second is there *)
Example C63_case :
  reached ex_cwd ex_dir ex_dl A3 ex3.1.1 ex3.1.2 /\ A3 !! hnew = Some ex_new
  /\ a_chunk ex_new = Z.of_nat 3 /\ a_count ex_new = Z.of_nat ((length (bs "abcde") + 3 - 1) / 3)
  /\ can_write ex3.1.2 (a_path ex_new) /\ parent (a_path ex_new) <> ex_dir /\ right_so_far (bs "abcde") 3 ex3.1.2 ex_new
  /\ (forall i, ~ ragged 3 (chunk_bytes (bs "abcde") 3 i) \/ first_empty (chunk_bytes (bs "abcde") 3 i) <= 1024)
  /\ todo ex_new = [0%N].
Proof. exact C63_case_lemma. Qed.
Example C63_run :
  match ex_loop 7 (mkL LCheck ex3.1.1 ex3.1.2 ∅) [] with
  | Some (b, out) => match l_pc b with LDone => true | _ => false end
      && bool_decide (file_at (l_fs b) (bs "/dl/new") = Some (bs "abcde"))
      && match out with [d] => bool_decide (dg_ip d = ex_host) && bool_decide (dg_data d = serialize (OpenReq hnew 0 1024)) | _ => false end
  | None => false
  end = true.
Proof. exact C63_run_lemma. Qed.

(** *** C64 (refuted): whatever the network does, the loop never ends for a file of
    more than 65536 chunks *)
Theorem C64_too_many_chunks_refuted :
  forall cwd dir dl A c f h a own net n out b, reached cwd dir dl A c f -> A !! h = Some a ->
    (65536 < a_count a)%Z -> 65536%N ∉ a_held a -> parent (a_path a) <> dir ->
    lexec own h net (mkL LCheck c f ∅) n out b -> l_pc b <> LDone.
Proof. exact C64_lemma. Qed.
Print Assumptions C64_too_many_chunks_refuted.
(** in particular right after registering a download that large *)
Theorem C64_registered_refuted :
  forall cwd dir dl A c f size count chunk h name, reached cwd dir dl A c f -> A !! h = None ->
    allowed cwd dir dl A f (CRegister size count chunk h name) -> (65536 * chunk < size)%N ->
    exists c1 f1 x, crun cwd c f (CRegister size count chunk h name) = Some (c1, f1, AExport x)
      /\ forall own net n out b, lexec own h net (mkL LCheck c1 f1 ∅) n out b -> l_pc b <> LDone.
Proof. exact C64_registered_lemma. Qed.
Print Assumptions C64_registered_refuted.
Example C64_case :
  reached ex_cwd ex_dir ex_dl {[habc := entry_abc]} ex1.1.1 ex1.1.2 /\ ({[habc := entry_abc]} : astate) !! hnew = None
  /\ allowed ex_cwd ex_dir ex_dl {[habc := entry_abc]} ex1.1.2 (CRegister 274877906945 0 4194304 hnew (bs "new"))
  /\ (65536 * 4194304 < 274877906945)%N.
Proof.
  split; [exact ex1_reached|]. split; [exact hnew_free|]. split; [|lia].
  split; [lia|]. split; [lia|]. split; [exact hnew_wf|]. repeat split; try done. vm_compute. set_solver.
Qed.

(** *** C65 (refuted): once the file is unshared, the next catalogue call of its
    download ends the daemon *)
Theorem C65_unshare_refuted :
  forall cwd dir dl A c f h a, reached cwd dir dl A c f -> A !! h = Some a ->
    exists c' f', crun cwd c f (CUnshare h) = Some (c', f', AOk)
      /\ forall own D resps dg, lstep own h resps dg (mkL LCheck c' f' D) = None
           /\ lstep own h resps dg (mkL LMissing c' f' D) = None
           /\ forall i r hs ds buf ok, (i < 65536)%N -> (h, h_addr r) ∉ D -> recv_datagrams ds = Ok (RSave buf ok) ->
                lstep own h resps (Some ds) (mkL (LChunk i (r :: hs)) c' f' D) = None.
Proof. exact C65_lemma. Qed.
Print Assumptions C65_unshare_refuted.
(** wherever the loop is at that moment, it never ends: if no more than [K] hosts answer a
    search, the daemon dies within [K + 2] steps, whatever they send *)
Theorem C65_never_ends_refuted :
  forall cwd dir dl A c f h a c' f' own (net : network) K pc D n out b,
    reached cwd dir dl A c f -> A !! h = Some a -> crun cwd c f (CUnshare h) = Some (c', f', AOk) ->
    pc <> LDone -> (forall i hs, pc = LChunk i hs -> length hs <= K) -> (forall q resps dg, net q resps dg -> length resps <= K) ->
    lexec own h net (mkL pc c' f' D) n out b -> n <= K + 2 /\ l_pc b <> LDone /\ l_fs b = f'.
Proof. exact C65_dies_lemma. Qed.
Print Assumptions C65_never_ends_refuted.
Example C65_case :
  match crun ex_cwd ex3.1.1 ex3.1.2 (CUnshare hnew) with
  | Some (c', f', AOk) =>
      match lstep ex_own hnew ex_resps (Some ex_ds) (mkL LCheck c' f' ∅),
            lstep ex_own hnew ex_resps (Some ex_ds) (mkL LMissing c' f' ∅),
            lstep ex_own hnew ex_resps (Some ex_ds) (mkL (LChunk 0 [mkResp ex_host 61696 4 []]) c' f' ∅),
            lstep ex_own hnew ex_resps (Some ex_ds) (mkL LCheck ex3.1.1 ex3.1.2 ∅) with
      | None, None, None, Some _ => true
      | _, _, _, _ => false
      end
  | _ => false
  end = true.
Proof. vm_compute. reflexivity. Qed.

(** *** C75 (refuted): two downloads of one file.  The first has found the file
    incomplete; the second then fetches everything that is missing; the first goes
    on and ends the daemon. *)
Theorem C75_two_downloads_refuted :
  forall cwd dir dl A c f h a cs content own host port resps0 dg0,
    reached cwd dir dl A c f -> A !! h = Some a ->
    0 < cs -> a_chunk a = Z.of_nat cs -> a_count a = Z.of_nat ((length content + cs - 1) / cs) -> (a_count a <= 65536)%Z ->
    can_write f (a_path a) -> parent (a_path a) <> dir -> right_so_far content cs f a ->
    (forall i, ~ ragged cs (chunk_bytes content cs i) \/ first_empty (chunk_bytes content cs i) <= 1024) ->
    host <> own -> todo a <> [] ->
    exists b1 n out b2, lstep own h resps0 dg0 (mkL LCheck c f ∅) = Some (b1, []) /\ l_pc b1 = LMissing
      /\ lexec own h (honest own host port content cs) (mkL LCheck (l_cat b1) (l_fs b1) (l_active b1)) n out b2
      /\ l_pc b2 = LDone
      /\ lstep own h resps0 dg0 (mkL (l_pc b1) (l_cat b2) (l_fs b2) (l_active b2)) = None.
Proof. exact C75_lemma. Qed.
Print Assumptions C75_two_downloads_refuted.
(** asked for again when it is complete, a download ends with its first look at the
    record, whatever the network does: nothing is sent, no file changes *)
Theorem C75_after_the_end_partial :
  forall cwd dir dl A c f h a ifs own resps r hs meta,
    reached cwd dir dl A c f -> A !! h = Some a -> all_below (a_count a) ⊆ a_held a ->
    no_spare ifs -> own_address ifs own -> selected (good own) resps (r :: hs) ->
    exists c' c2, run f (start_download (Some ifs) c h resps meta) = (f, Done (c', Ok own)) /\ reached cwd dir dl A c2 f
      /\ forall resps dg D, lstep own h resps dg (mkL LCheck c' f D) = Some (mkL LDone c2 f D, []).
Proof. exact C75_after_lemma. Qed.
Print Assumptions C75_after_the_end_partial.
Example C75_after_case :
  match ex_loop 7 (mkL LCheck ex3.1.1 ex3.1.2 ∅) [] with
  | Some (b2, _) =>
      match run (l_fs b2) (start_download (Some ex_ifs) (l_cat b2) hnew ex_resps None) with
      | (f, Done (c', Ok o)) =>
          match lstep o hnew ex_resps (Some ex_ds) (mkL LCheck c' f ∅) with
          | Some (b3, []) => match l_pc b3 with LDone => true | _ => false end
          | _ => false
          end
      | _ => false
      end
  | None => false
  end = true.
Proof. vm_compute. reflexivity. Qed.
Example C75_case :
  match lstep ex_own hnew ex_resps (Some ex_ds) (mkL LCheck ex3.1.1 ex3.1.2 ∅) with
  | Some (b1, []) =>
      match ex_loop 7 (mkL LCheck (l_cat b1) (l_fs b1) (l_active b1)) [] with
      | Some (b2, _) =>
          match l_pc b2, lstep ex_own hnew ex_resps (Some ex_ds) (mkL (l_pc b1) (l_cat b2) (l_fs b2) (l_active b2)) with
          | LDone, None => true | _, _ => false end
      | None => false
      end
  | _ => false
  end = true.
Proof. vm_compute. reflexivity. Qed.

(** *** C76: exactly when a step of a download ends the daemon *)
Theorem C76_check_exact :
  forall cwd dir dl A c f h own D resps dg, reached cwd dir dl A c f ->
    lstep own h resps dg (mkL LCheck c f D) = None <-> A !! h = None.
Proof. exact C76_check_lemma. Qed.
Print Assumptions C76_check_exact.
Theorem C76_missing_exact :
  forall cwd dir dl A c f h own D resps dg, reached cwd dir dl A c f ->
    (forall a, A !! h = Some a -> (a_count a <= 65536)%Z) ->
    lstep own h resps dg (mkL LMissing c f D) = None <->
      match A !! h with Some a => all_below (a_count a) ⊆ a_held a | None => True end.
Proof. exact C76_missing_lemma. Qed.
Print Assumptions C76_missing_exact.
(** the connection cannot be opened, the peer sends something malformed (C52), or the
    chunk cannot be saved *)
Theorem C76_chunk_refuted :
  forall cwd dir dl A c f h own i r hs D resps dg, reached cwd dir dl A c f ->
    (i < 65536)%N -> (forall a, A !! h = Some a -> parent (a_path a) <> dir) -> (h, h_addr r) ∉ D ->
    lstep own h resps dg (mkL (LChunk i (r :: hs)) c f D) = None <->
      dg = None \/ exists ds, dg = Some ds /\
        ((forall x, recv_datagrams ds <> Ok x)
         \/ (exists buf ok, recv_datagrams ds = Ok (RSave buf ok)) /\
            match A !! h with Some a => ~ can_write f (a_path a) | None => True end).
Proof. exact C76_chunk_lemma. Qed.
Print Assumptions C76_chunk_refuted.
Example C76_case :
  let s := mkL (LChunk 0 [mkResp ex_host 61696 4 []]) ex3.1.1 ex3.1.2 ∅ in
  match lstep ex_own hnew [] None s, lstep ex_own hnew [] (Some [[x00]]) s, lstep ex_own hnew [] (Some ex_ds) s,
        lstep ex_own hnew [] (Some ex_ds) (mkL (l_pc s) ex3.1.1 (delete (bs "/dl") ex3.1.2) ∅),
        lstep ex_own hnew [] (Some []) s with
  | None, None, Some _, None, Some _ => true
  | _, _, _, _, _ => false
  end = true.
Proof. vm_compute. reflexivity. Qed.

(** *** C77: whatever peers send, a download changes no file but its own, no other
    entry of the catalogue, keeps the chunks it had, and ends only when complete *)
Theorem C77_download_is_isolated :
  forall cwd dir dl A c f h a own net n out b, reached cwd dir dl A c f -> A !! h = Some a ->
    parent (a_path a) <> dir -> lexec own h net (mkL LCheck c f ∅) n out b ->
    (forall p, parent p <> dir -> p <> a_path a -> l_fs b !! p = f !! p)
    /\ (forall k a', k <> h -> A !! k = Some a' ->
          exists c' x, crun cwd (l_cat b) (l_fs b) (CContains k) = Some (c', l_fs b, AExport x) /\ shows x k a')
    /\ (forall k, k <> h -> A !! k = None ->
          exists c', crun cwd (l_cat b) (l_fs b) (CContains k) = Some (c', l_fs b, AErr))
    /\ (exists c' x, crun cwd (l_cat b) (l_fs b) (CContains h) = Some (c', l_fs b, AExport x)
          /\ x_path x = a_path a /\ x_chunk x = a_chunk a /\ forall i, i ∈ a_held a -> mem (x_bits x) i)
    /\ (l_pc b = LDone -> exists c', crun cwd (l_cat b) (l_fs b) (CComplete h) = Some (c', l_fs b, ABool true)).
Proof. exact C77_lemma. Qed.
Print Assumptions C77_download_is_isolated.
Example C77_case :
  match ex_loop 7 (mkL LCheck ex3.1.1 ex3.1.2 ∅) [] with
  | Some (b, _) => bool_decide (file_at (l_fs b) (bs "/a") = Some (bs "abc"))
      && bool_decide (file_at (l_fs b) (bs "/dl/old") = Some (bs "0123456789"))
      && match crun ex_cwd (l_cat b) (l_fs b) (CContains habc) with Some (_, _, AExport x) => bool_decide (x_path x = bs "/a") | _ => false end
  | None => false
  end = true.
Proof. vm_compute. reflexivity. Qed.
