(** Properties of files that change after they were shared, or while they are (C118-C119). *)
From Verif Require Import ChangedProofs.

(** *** C118: a completed download has the content that was asked for.  False: nothing on
    either side compares content with the hash.  The daemon [M] lists a file under [h];
    another program then overwrites that file with as many other bytes.  [M] goes on
    answering, the download of [h] starts, and it has an execution that ends with the
    new bytes on disk, whatever their hash. *)
Theorem C118_changed_file_refuted :
  forall cwd dir dl A c f h content content' cs name own host port ifs M s ra ip,
    let p := join2 dl (take 255 name) in
    reached cwd dir dl A c f -> A !! h = None -> no_spare ifs -> own_address ifs own -> host <> own ->
    content <> [] -> h <> blank -> (length content + cs - 1) / cs <= N.to_nat 65536 -> u16 port ->
    normal_name (take 255 name) -> can_write f p -> f !! p = None -> parent dl <> dir ->
    (forall i, ~ ragged cs (chunk_bytes content' cs i) \/ first_empty (chunk_bytes content' cs i) <= 1024) ->
    shares M h content cs name host -> is_up M s port -> from_ipv4 ra ip -> sv_uploads s !! (ip, u16_of_int (ua_port ra)) = None ->
    parent (path_of M h) <> rm_dir M -> path_of M h <> rm_dir M -> length content' = length content ->
    let M' := overwritten M (path_of M h) content' in
    is_up M' s port /\ exists r data c' f' n out b, found M' port h r /\ described M' port h data
      /\ run f (start_download (Some ifs) c h [r] (Some data)) = (f', Done (c', Ok own))
      /\ lexec own h (one_peer own h content' cs name host port) (mkL LCheck c' f' ∅) n out b
      /\ l_pc b = LDone /\ file_at (l_fs b) p = Some content'.
Proof. exact C118_lemma. Qed.
Print Assumptions C118_changed_file_refuted.
(** when the file still has the hash under which it is listed, every execution of the
    download that ends, ends with a file of that hash.  Limits as in C87, and the name
    must be free in the download directory. *)
Theorem C118_right_hash_partial :
  forall cwd dir dl A c f h content cs name own host port ifs resps r M data,
    let p := join2 dl (take 255 name) in
    reached cwd dir dl A c f -> A !! h = None -> no_spare ifs -> own_address ifs own -> host <> own ->
    content <> [] -> h <> blank -> (length content + cs - 1) / cs <= N.to_nat 65536 -> u16 port ->
    normal_name (take 255 name) -> can_write f p -> f !! p = None -> parent dl <> dir ->
    (forall i, ~ ragged cs (chunk_bytes content cs i) \/ first_empty (chunk_bytes content cs i) <= 1024) ->
    shares M h content cs name host -> sha1 content = h ->
    found M port h r -> selected (fun x => h_addr x <> own) resps [r] -> described M port h data ->
    exists c' f', run f (start_download (Some ifs) c h resps (Some data)) = (f', Done (c', Ok own))
      /\ forall n out b, lexec own h (one_peer own h content cs name host port) (mkL LCheck c' f' ∅) n out b -> l_pc b = LDone ->
           exists l, file_at (l_fs b) p = Some l /\ sha1 l = h.
Proof. exact C118_right_lemma. Qed.
Print Assumptions C118_right_hash_partial.
(** with C87_case: "abc" is shared as /a and then overwritten by "xyz" *)
Example C118_case :
  ex_f0 !! join2 ex_dl (take 255 (bs "a")) = None /\ parent (path_of ex_rem habc) <> rm_dir ex_rem /\ path_of ex_rem habc <> rm_dir ex_rem
  /\ length (bs "xyz") = length (bs "abc") /\ sha1 (bs "abc") = habc /\ sha1 (bs "xyz") <> habc
  /\ (forall i, ~ ragged ex_cs (chunk_bytes (bs "xyz") ex_cs i) \/ first_empty (chunk_bytes (bs "xyz") ex_cs i) <= 1024).
Proof. exact C118_case_lemma. Qed.

(** *** C119: the size and the hash that share records belong to the same contents.  False
    when another program replaces the file in between: the size is taken with os.Stat and
    the hash is computed later. *)
Theorem C119_torn_refuted :
  forall (V : list byte -> Prop) cwd dir dl A c f p l1 l2,
    reached cwd dir dl A c f -> file_at f (abs cwd p) = Some l1 -> small l1 ->
    parent (abs cwd p) <> dir -> A !! sha1 l2 = None -> V l2 ->
    exists r pr f', among (rewrites (abs cwd p) V) f (share_file cwd c p) f' (Done (set_index c (<[sha1 l2 := r]> (c_index c)), Ok (r, pr)))
      /\ file_at f' (abs cwd p) = Some l2
      /\ shows (export_of r pr) (sha1 l2) (full_entry (abs cwd p) (Z.of_nat (length l1)) 4194304).
Proof. exact torn_lemma. Qed.
Print Assumptions C119_torn_refuted.
(** whatever other programs write to that file and whenever, a share that succeeds records
    the size of one of the contents that the file had and the hash of one *)
Theorem C119_versions_partial :
  forall q (V : list byte -> Prop) cwd c p f f' c' r pr, q = abs cwd p -> is_rooted cwd = true -> (forall l, V l -> small l) ->
    f !! q <> Some NDir -> (forall l, file_at f q = Some l -> V l) ->
    among (rewrites q V) f (share_file cwd c p) f' (Done (c', Ok (r, pr))) ->
    exists l1 l2, V l1 /\ V l2 /\ c_index c !! sha1 l2 = None /\ c' = set_index c (<[sha1 l2 := r]> (c_index c)) /\ r_prog r = Some pr
      /\ shows (export_of r pr) (sha1 l2) (full_entry q (Z.of_nat (length l1)) 4194304).
Proof. exact C119_lemma. Qed.
Print Assumptions C119_versions_partial.
(** /a holds "abc" when the daemon looks at its size and "hello" when it reads it *)
Example C119_case :
  reached ex_cwd ex_dir ex_dl ∅ ex_c0 ex_f0 /\ bool_decide (file_at ex_f0 (abs ex_cwd (bs "a")) = Some (bs "abc")) = true /\ small (bs "abc")
  /\ parent (abs ex_cwd (bs "a")) <> ex_dir /\ bool_decide (sha1 (bs "hello") = sha1 (bs "abc")) = false.
Proof. exact C119_case_lemma. Qed.
