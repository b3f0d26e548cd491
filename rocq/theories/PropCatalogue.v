(** Properties C26-C44, C70 and C74: the catalogue of shared files. *)
From Verif Require Import CatalogueReach CatalogueFaults CatalogueDownload CleanProofs CatalogueMore Wedge CatalogueCases PathLoop.

(** *** C26: sharing a file records it faithfully.  [execs] ranges over all
    outcomes of all I/O; the theorem is about calls that report success. *)
Theorem C26_share_records_the_file :
  forall cwd c p f f' c' r pr, is_rooted cwd = true ->
    (forall l, file_at f (abs cwd p) = Some l -> small l) ->
    execs f (share_file cwd c p) f' (Done (c', Ok (r, pr))) ->
    exists l, file_at f (abs cwd p) = Some l /\ c_index c !! sha1 l = None
      /\ c' = set_index c (<[sha1 l := r]> (c_index c)) /\ r_prog r = Some pr
      /\ shows (export_of r pr) (sha1 l) (full_entry (abs cwd p) (Z.of_nat (length l)) 4194304)
      /\ f' = <[join1 (prog_path (c_dir c) (sha1 l)) := NFile (bserialize (p_bits pr))]>
               (<[join2 (c_inddir c) index_name := NFile (marshal c')]> f).
Proof. exact C26_lemma. Qed.
Print Assumptions C26_share_records_the_file.

Definition is_ok (s : cat * fs * cans) : bool := match s.2 with AErr => false | _ => true end.
Definition paths_of (s : cat * fs * cans) : list (hash * path * Z * Z) :=
  map (fun e => (e.1, r_path e.2, r_size e.2, r_chunk e.2)) (map_to_list (c_index s.1.1)).
Definition held_of (s : cat * fs * cans) (h : hash) (i : N) : option bool :=
  match c_index s.1.1 !! h with
  | Some r => match r_prog r with Some p => match bget (p_bits p) i with Ok b => Some b | _ => None end | None => None end
  | None => None
  end.
Example C26_case :
  bool_decide (paths_of ex1 = [(habc, bs "/a", 3, 4194304)%Z]) && is_ok ex1
    && bool_decide (held_of ex1 habc 0 = Some true)
    && bool_decide (file_at ex1.1.2 (bs "/a") = Some (bs "abc"))
    && bool_decide (file_at ex1.1.2 (bs "/cat" ++ slash :: hash_string habc) <> None) = true.
Proof. vm_compute. reflexivity. Qed.

(** *** C27: identical content is never indexed twice *)
Theorem C27_second_share_fails_and_changes_nothing :
  forall cwd c p l f f' out, file_at f (abs cwd p) = Some l -> c_index c !! sha1 l <> None ->
    execs f (share_file cwd c p) f' out -> f' = f /\ exists e, out = Done (c, Err e).
Proof. exact C27_lemma. Qed.
Print Assumptions C27_second_share_fails_and_changes_nothing.
Theorem C27_listings_have_no_duplicates :
  forall cwd dir dl A c f order c' f' l, reached cwd dir dl A c f ->
    allowed cwd dir dl A f (CList order) ->
    crun cwd c f (CList order) = Some (c', f', AList l) -> NoDup (map x_hash l) /\ map x_hash l = order.
Proof. exact C27_list_lemma. Qed.
Print Assumptions C27_listings_have_no_duplicates.

Example C27_case :
  let s := next (ex1.1.1, <[bs "/copy" := NFile (bs "abc")]> ex1.1.2, AOk) (CShare (bs "/copy")) in
  negb (is_ok s) && bool_decide (length (paths_of s) = 1)
  && match (next ex3 (CList [hnew; habc])).2 with AList l => bool_decide (map x_hash l = [hnew; habc]) | _ => false end = true.
Proof. vm_compute. reflexivity. Qed.

(** *** C28: any history of calls on a daemon started on a fresh directory, with
    other programs changing files outside that directory in between, gives the
    answers of the abstract map *)
Theorem C28_catalogue_refines_a_map :
  forall cwd dir dl pid now f0 f c hs, fresh_start cwd dir dl pid now f0 f c ->
    behaves cwd (abs cwd dir) (abs cwd dl) ∅ c f hs.
Proof. exact C28_lemma. Qed.
Print Assumptions C28_catalogue_refines_a_map.

(** a state with a shared file and a half-finished download *)
Example C28_case :
  fresh_start ex_cwd ex_dir ex_dl 7 9 w0 ex_f0 ex_c0
  /\ reached ex_cwd ex_dir ex_dl (<[hnew := hold entry_new 1]> A2) ex3.1.1 ex3.1.2.
Proof. split; [exact ex_fresh|exact ex3_reached]. Qed.

(** *** C29: a restart in any reachable state changes no file and yields the same
    listing (names being valid UTF-8; see C31) *)
Theorem C29_restart_preserves_the_catalogue :
  forall cwd dir dl A c f pid now order, reached cwd dir dl A c f ->
    valid_utf8 dir -> (forall h a, A !! h = Some a -> valid_utf8 (a_path a)) ->
    NoDup order -> (forall h, h ∈ order <-> A !! h <> None) ->
    exists c' l c1 c1', crun cwd c f (CRestart pid now) = Some (c', f, AOk) /\ reached cwd dir dl A c' f
      /\ crun cwd c f (CList order) = Some (c1, f, AList l)
      /\ crun cwd c' f (CList order) = Some (c1', f, AList l).
Proof. exact C29_lemma. Qed.
Print Assumptions C29_restart_preserves_the_catalogue.

Example C29_case :
  let s := next ex3 (CRestart 100 200) in
  is_ok s && bool_decide (paths_of s = paths_of ex3) && bool_decide (length (paths_of s) = 2)
  && match (next s (CContains hnew)).2 with
     | AExport x => match bget (x_bits x) 0, bget (x_bits x) 1 with Ok false, Ok true => true | _, _ => false end
     | _ => false end = true.
Proof. vm_compute. reflexivity. Qed.

(** *** C30: index.json round-trips, and a truncated one is rejected *)
Theorem C30_index_round_trips :
  forall c, cat_ints c -> valid_utf8 (c_inddir c) ->
    (forall h r, c_index c !! h = Some r -> valid_utf8 (r_path r)) ->
    unmarshal (marshal c) = Ok (c_pid c, c_touched c,
       (fun r => mkRec (r_path r) (r_size r) (r_hash r) None (r_chunk r)) <$> c_index c, c_inddir c).
Proof. exact C30_roundtrip_lemma. Qed.
Print Assumptions C30_index_round_trips.
Theorem C30_truncated_index_is_rejected :
  forall c p s, marshal c = p ++ s -> s <> [] -> unmarshal p = Err "json".
Proof. exact C30_truncated_lemma. Qed.
Print Assumptions C30_truncated_index_is_rejected.

Example C30_case :
  bool_decide (marshal ex_c0 = bs "{""Pid"":7,""LastTouched"":9,""Index"":{},""DataDir"":""/cat""}")
  && match unmarshal (marshal ex1.1.1) with
     | Ok (7%Z, 9%Z, m, d) => bool_decide (r_path <$> m !! habc = Some (bs "/a")) && bool_decide (d = bs "/cat")
     | _ => false end
  && match unmarshal (take 60 (marshal ex1.1.1)) with Err _ => true | _ => false end = true.
Proof. vm_compute. reflexivity. Qed.

(** *** C31 (refuted): a path that is not valid UTF-8 does not survive a restart:
    what comes back is the path with U+FFFD in place of the offending bytes.
    Full statement: the restarted daemon has [r_path r = a_path a] for all [h]. *)
Theorem C31_only_utf8_paths_survive_a_restart_partial :
  forall cwd dir dl A c f pid now, reached cwd dir dl A c f ->
    exists c', run f (open_cat pid now cwd dir dl) = (f, Done (Ok c')) /\
      forall h a, A !! h = Some a -> exists r, c_index c' !! h = Some r /\ r_path r = sanitize (a_path a)
        /\ (r_path r = a_path a <-> valid_utf8 (a_path a)).
Proof. exact C31_lemma. Qed.
Print Assumptions C31_only_utf8_paths_survive_a_restart_partial.

Example C31_case :
  let s := next ex0 (CShare [slash; xff]) in
  bool_decide (map (fun e => e.1.1.2) (paths_of s) = [[slash; xff]])
  && bool_decide (map (fun e => e.1.1.2) (paths_of (next s (CRestart 1 1))) = [[slash; xef; xbf; xbd]]) = true.
Proof. vm_compute. reflexivity. Qed.

(** *** C32: killed at any point of a changing call (also after some of its I/O
    failed).  Full statement: the second alternative always holds. *)
Theorem C32_crash_safety_partial :
  forall cwd dir dl A c f q f', reached cwd dir dl A c f -> allowed cwd dir dl A f q ->
    valid_utf8 dir -> (forall h a, A !! h = Some a -> valid_utf8 (a_path a)) ->
    ckilled cwd c f q f' ->
    (~ is_save q /\ wont_start cwd dir dl f') \/
    (exists c', starts cwd dir dl f' c' /\ forall h', ~ about cwd f q h' -> says c' f' h' (A !! h')).
Proof. exact C32_lemma. Qed.
Print Assumptions C32_crash_safety_partial.
(** the first alternative does happen, in every reachable state, for every call
    that rewrites the index *)
Theorem C32_killed_daemon_does_not_start_refuted :
  forall cwd dir dl A c f q h, reached cwd dir dl A c f -> allowed cwd dir dl A f q -> about cwd f q h ->
    match q with
    | CShare _ | CRegister _ _ _ _ _ => A !! h = None
    | CUnshare _ => A !! h <> None
    | _ => False
    end ->
    exists f', ckilled cwd c f q f' /\ wont_start cwd dir dl f'.
Proof. exact C32_refuted_lemma. Qed.
Print Assumptions C32_killed_daemon_does_not_start_refuted.

Example C32_case :
  exists f', ckilled ex_cwd ex3.1.1 ex3.1.2 (CUnshare habc) f' /\ wont_start ex_cwd ex_dir ex_dl f'.
Proof.
  apply (C32_killed_daemon_does_not_start_refuted ex_cwd ex_dir ex_dl _ _ _ (CUnshare habc) habc ex3_reached); [done|done|].
  rewrite A3_abc. discriminate.
Qed.

(** *** C33 (refuted): there are points at which a kill leaves the daemon in a
    state that no sequence of API calls, restarts and outside changes to user
    files gets out of: listing fails forever.
    Full statement: from every disk a kill can leave there is a sequence of calls
    after which List works. *)
Theorem C33_killed_unshare_cannot_be_repaired_refuted :
  forall cwd dir dl A c f h a, reached cwd dir dl A c f -> A !! h = Some a -> valid_utf8 dir ->
    exists f', ckilled cwd c f (CUnshare h) f' /\ stuck cwd dir dl h f'.
Proof. exact C33_unshare_lemma. Qed.
Print Assumptions C33_killed_unshare_cannot_be_repaired_refuted.
Theorem C33_killed_share_cannot_be_repaired_refuted :
  forall cwd dir dl A c f p l, reached cwd dir dl A c f -> valid_utf8 dir ->
    file_at f (abs cwd p) = Some l -> small l -> A !! sha1 l = None -> f !! prog_path dir (sha1 l) = None ->
    exists f', ckilled cwd c f (CShare p) f' /\ stuck cwd dir dl (sha1 l) f'.
Proof. exact C33_share_lemma. Qed.
Print Assumptions C33_killed_share_cannot_be_repaired_refuted.
Theorem C33_killed_register_cannot_be_repaired_refuted :
  forall cwd dir dl A c f size count chunk h name, reached cwd dir dl A c f -> valid_utf8 dir ->
    (size < 18446744073709551616)%N -> (chunk < 4294967296)%N -> hash_wf h -> A !! h = None -> f !! prog_path dir h = None ->
    exists f', ckilled cwd c f (CRegister size count chunk h name) f' /\ stuck cwd dir dl h f'.
Proof. exact C33_register_lemma. Qed.
Print Assumptions C33_killed_register_cannot_be_repaired_refuted.

Example C33_case :
  exists f', ckilled ex_cwd ex3.1.1 ex3.1.2 (CUnshare habc) f' /\ stuck ex_cwd ex_dir ex_dl habc f'.
Proof.
  apply (C33_killed_unshare_cannot_be_repaired_refuted ex_cwd ex_dir ex_dl _ _ _ habc entry_abc ex3_reached).
  - apply A3_abc.
  - apply sanitize_id_iff. vm_compute. reflexivity.
Qed.

(** *** C34: Unshare removes exactly one entry *)
Theorem C34_unshare_removes_exactly_one_entry :
  forall c h f f' c', (forall r, c_index c !! h = Some r -> r_hash r = h) ->
    execs f (unshare_file c h) f' (Done (c', Ok tt)) ->
    exists r p, c_index c !! h = Some r /\ c' = set_index c (delete h (c_index c))
      /\ (r_prog r = Some p \/ p_file p = prog_path (c_dir c) h)
      /\ f' = <[join2 (c_inddir c) index_name := NFile (marshal c')]> (delete (join1 (p_file p)) f).
Proof. exact C34_lemma. Qed.
Print Assumptions C34_unshare_removes_exactly_one_entry.
Theorem C34_unshare_unknown_changes_nothing :
  forall c h f f' out, c_index c !! h = None ->
    execs f (unshare_file c h) f' out -> f' = f /\ exists e, out = Done (c, Err e).
Proof. exact C34_unknown_lemma. Qed.
Print Assumptions C34_unshare_unknown_changes_nothing.

Example C34_case :
  let s := next ex3 (CUnshare habc) in
  is_ok s && bool_decide (map (fun e => e.1.1.1) (paths_of s) = [hnew])
  && bool_decide (file_at s.1.2 (bs "/a") = Some (bs "abc"))
  && bool_decide (file_at s.1.2 (prog_path ex_dir habc) = None)
  && bool_decide (file_at s.1.2 (prog_path ex_dir hnew) <> None)
  && negb (is_ok (next s (CUnshare habc))) = true.
Proof. vm_compute. reflexivity. Qed.

(** *** C35: saving a chunk writes exactly its byte range *)
Theorem C35_save_chunk_writes_its_range :
  forall c h i data f f' c', (forall r, c_index c !! h = Some r -> (0 < r_chunk r < 4294967296)%Z) ->
    (i < 65536)%N ->
    execs f (save_chunk c h i data) f' (Done (c', Ok tt)) ->
    exists r0 r p new, c_index c !! h = Some r0 /\ c_index c' = <[h := r]> (c_index c)
      /\ r_path r = r_path r0 /\ r_size r = r_size r0 /\ r_hash r = r_hash r0 /\ r_chunk r = r_chunk r0
      /\ r_prog r = Some p /\ bget (p_bits p) i = Ok true
      /\ (forall p0, r_prog r0 = Some p0 -> bset (p_bits p0) i = Ok (p_bits p) /\ p_file p = p_file p0)
      /\ overlay (default [] (file_at f (r_path r0))) (N.to_nat i * Z.to_nat (r_chunk r0)) data new
      /\ f' = <[join1 (p_file p) := NFile (bserialize (p_bits p))]> (<[r_path r0 := NFile new]> f).
Proof. exact C35_lemma. Qed.
Print Assumptions C35_save_chunk_writes_its_range.

Example C35_case :
  bool_decide (file_at ex3.1.2 (bs "/dl/new") = Some [x00; x00; x00; x64; x65])
  && bool_decide (held_of ex3 hnew 1 = Some true) && bool_decide (held_of ex3 hnew 0 = Some false)
  && bool_decide (file_at (next ex3 (CSave hnew 0 (bs "abc"))).1.2 (bs "/dl/new") = Some (bs "abcde")) = true.
Proof. vm_compute. reflexivity. Qed.

(** *** C36: saving the chunks of [content] in any order, with repetitions.
    [content <> []] is needed: see the refutation below. *)
Theorem C36_chunks_reassemble_the_file_partial :
  forall cwd dir dl A c f h a cs content is, reached cwd dir dl A c f -> A !! h = Some a ->
    0 < cs -> a_chunk a = Z.of_nat cs -> a_held a = ∅ ->
    a_count a = Z.of_nat ((length content + cs - 1) / cs) -> (a_count a <= 65536)%Z ->
    can_write f (a_path a) -> parent (a_path a) <> dir ->
    Forall (fun i => i < (length content + cs - 1) / cs) is ->
    exists c' f', saves cwd c f h cs content is = Some (c', f')
      /\ (exists c2, crun cwd c' f' (CComplete h) =
           Some (c2, f', ABool (bool_decide (Forall (fun i => i ∈ is) (seq 0 ((length content + cs - 1) / cs))))))
      /\ (content <> [] -> Forall (fun i => i ∈ is) (seq 0 ((length content + cs - 1) / cs)) ->
          file_at f' (a_path a) = Some (content ++ drop (length content) (default [] (file_at f (a_path a))))).
Proof. exact C36_lemma. Qed.
Print Assumptions C36_chunks_reassemble_the_file_partial.
(** an empty file has no chunks, so its download is complete at once and the
    destination is never created *)
Theorem C36_empty_file_is_never_created_refuted :
  forall cwd dir dl A c f size count chunk h name, reached cwd dir dl A c f -> A !! h = None ->
    allowed cwd dir dl A f (CRegister size count chunk h name) -> size = 0%N ->
    f !! join2 dl name = None ->
    exists c1 f1 x c2, crun cwd c f (CRegister size count chunk h name) = Some (c1, f1, AExport x)
      /\ crun cwd c1 f1 (CComplete h) = Some (c2, f1, ABool true) /\ f1 !! x_path x = None.
Proof. exact C36_empty_lemma. Qed.
Print Assumptions C36_empty_file_is_never_created_refuted.

Example C36_case :
  let s := next ex3 (CSave hnew 0 (bs "abc")) in
  bool_decide (file_at s.1.2 (bs "/dl/new") = Some (bs "abcde"))
  && match (next ex3 (CComplete hnew)).2, (next s (CComplete hnew)).2 with ABool false, ABool true => true | _, _ => false end
  && match (next (next ex1 (CRegister 0 0 3 hnew (bs "e"))) (CComplete hnew)).2 with ABool true => true | _ => false end = true.
Proof. vm_compute. reflexivity. Qed.

(** *** C37 (refuted): bytes of an old file beyond the length of the new one stay *)
Theorem C37_stale_tail_refuted :
  forall cwd dir dl A c f h a cs content is old, reached cwd dir dl A c f -> A !! h = Some a ->
    0 < cs -> a_chunk a = Z.of_nat cs -> a_held a = ∅ ->
    a_count a = Z.of_nat ((length content + cs - 1) / cs) -> (a_count a <= 65536)%Z ->
    can_write f (a_path a) -> parent (a_path a) <> dir ->
    Forall (fun i => i < (length content + cs - 1) / cs) is ->
    content <> [] -> Forall (fun i => i ∈ is) (seq 0 ((length content + cs - 1) / cs)) ->
    file_at f (a_path a) = Some old -> length content < length old ->
    exists c' f' c2, saves cwd c f h cs content is = Some (c', f')
      /\ crun cwd c' f' (CComplete h) = Some (c2, f', ABool true)
      /\ file_at f' (a_path a) = Some (content ++ drop (length content) old)
      /\ file_at f' (a_path a) <> Some content.
Proof. exact C37_lemma. Qed.
Print Assumptions C37_stale_tail_refuted.
(** with an old file no longer than the new one it does hold *)
Theorem C37_shorter_old_file_partial :
  forall cwd dir dl A c f h a cs content is, reached cwd dir dl A c f -> A !! h = Some a ->
    0 < cs -> a_chunk a = Z.of_nat cs -> a_held a = ∅ ->
    a_count a = Z.of_nat ((length content + cs - 1) / cs) -> (a_count a <= 65536)%Z ->
    can_write f (a_path a) -> parent (a_path a) <> dir ->
    Forall (fun i => i < (length content + cs - 1) / cs) is ->
    content <> [] -> Forall (fun i => i ∈ is) (seq 0 ((length content + cs - 1) / cs)) ->
    length (default [] (file_at f (a_path a))) <= length content ->
    exists c' f', saves cwd c f h cs content is = Some (c', f') /\ file_at f' (a_path a) = Some content.
Proof. exact C37_short_lemma. Qed.
Print Assumptions C37_shorter_old_file_partial.

Example C37_case :
  let s := next (next (next ex1 (CRegister 5 2 3 hnew (bs "old"))) (CSave hnew 1 (bs "de"))) (CSave hnew 0 (bs "abc")) in
  bool_decide (file_at s.1.2 (bs "/dl/old") = Some (bs "abcde56789"))
  && match (next s (CComplete hnew)).2 with ABool true => true | _ => false end = true.
Proof. vm_compute. reflexivity. Qed.

(** *** C38: progress queries agree; for files of any size, except that the number of the
    first missing chunk is reduced mod 65536 (see C08) *)
Theorem C38_progress_queries_agree :
  forall cwd dir dl A c f h a m, reached cwd dir dl A c f -> A !! h = Some a ->
    exists c1 c2 b rs, run f (file_complete c h) = (f, Done (c1, b)) /\ run f (missing_chunks c h m) = (f, Done (c2, rs))
      /\ (b = true <-> rs = [])
      /\ (b = true <-> forall i, (Z.of_N i < a_count a)%Z -> i ∈ a_held a)
      /\ (forall r0 rs', rs = r0 :: rs' -> exists k, r_start r0 = (k mod 65536)%N /\ (Z.of_N k < a_count a)%Z /\ k ∉ a_held a
            /\ forall i, (i < k)%N -> i ∈ a_held a).
Proof. exact C38_all_lemma. Qed.
Print Assumptions C38_progress_queries_agree.

Example C38_case :
  match run ex3.1.2 (missing_chunks ex3.1.1 hnew 10), run ex3.1.2 (missing_chunks ex3.1.1 habc 10) with
  | (_, Done (_, [r])), (_, Done (_, [])) => bool_decide (r_start r = 0%N) && bool_decide (r_end r = 0%N)
  | _, _ => false
  end = true.
Proof. vm_compute. reflexivity. Qed.

(** *** C39: only held chunks are served, and for others the file is not opened *)
Theorem C39_served_chunks_are_held :
  forall fuel c h i f f' c' x, execs f (get_chunk_reader fuel c h i) f' (Done (c', Ok x)) ->
    exists r p, c_index c' !! h = Some r /\ r_prog r = Some p /\ bget (p_bits p) (u64_of_int i) = Ok true.
Proof. exact C39_lemma. Qed.
Print Assumptions C39_served_chunks_are_held.
Theorem C39_missing_chunk_does_not_open_the_file :
  forall fuel r p i, bget (p_bits p) (u64_of_int i) = Ok false ->
    get_chunk_reader_of fuel r p i = Ret (Err "missing requested chunk").
Proof. exact C39_refused_lemma. Qed.
Print Assumptions C39_missing_chunk_does_not_open_the_file.

Example C39_case :
  match (next ex3 (CReader 10 hnew 1)).2, (next ex3 (CReader 10 hnew 0)).2, (next ex3 (CReader 10 habc 0)).2 with
  | AReader _ r1, AErr, AReader _ r2 => bool_decide (cr_hash r2 = habc) && bool_decide (cr_size r1 = 2%Z) && bool_decide (cr_hash r1 = sha1 (bs "de"))
  | _, _, _ => false
  end = true.
Proof. vm_compute. reflexivity. Qed.

(** *** C40: where a download is stored.  Full statement: [inside dl (x_path x)]
    for every name. *)
Theorem C40_destination_is_the_joined_path :
  forall c size count chunk h name f f' c' x,
    execs f (register_download c size count chunk h name) f' (Done (c', Ok x)) -> x_path x = join2 (c_dl c) name
      /\ exists r, c_index c' !! h = Some r /\ r_path r = join2 (c_dl c) name.
Proof. exact register_path. Qed.
Print Assumptions C40_destination_is_the_joined_path.
Theorem C40_ordinary_names_stay_inside_partial :
  forall dl name, clean_abs dl -> normal_name name -> inside dl (join2 dl name) /\ parent (join2 dl name) = dl.
Proof. exact inside_normal. Qed.
Print Assumptions C40_ordinary_names_stay_inside_partial.
(** any file next to the downloads directory can be named *)
Theorem C40_names_with_dotdot_escape_refuted :
  forall dl name, clean_abs dl -> normal_name name ->
    join2 dl (dotdot ++ slash :: name) = join2 (parent dl) name
    /\ (dl <> [slash] -> ~ inside dl (join2 dl (dotdot ++ slash :: name))).
Proof. exact C40_refuted_lemma. Qed.
Print Assumptions C40_names_with_dotdot_escape_refuted.

Example C40_case :
  match (next ex1 (CRegister 5 2 3 hnew (bs "../a"))).2, (next ex1 (CRegister 5 2 3 hnew (bs "new"))).2, (next ex1 (CRegister 5 2 3 hnew [])).2 with
  | AExport x, AExport y, AExport z => bool_decide (x_path x = bs "/a") && bool_decide (x_path y = bs "/dl/new") && bool_decide (x_path z = bs "/dl")
  | _, _, _ => false
  end = true.
Proof. vm_compute. reflexivity. Qed.

(** the paths above are cleaned and joined by the byte loop of the library's Clean, which does what its
    documentation (and [clean]) says, on all byte strings *)
Theorem C40_library_clean : forall p, lib_clean p = clean p.
Proof. exact lib_clean_is_clean. Qed.
Print Assumptions C40_library_clean.
Theorem C40_library_join : forall a b, lib_join2 a b = join2 a b.
Proof. exact lib_join2_is_join2. Qed.
Print Assumptions C40_library_join.
(** how paths are cleaned, relative ones included *)
Example C40_clean : Forall (fun x => clean (bs x.1) = bs x.2)
  [(""%string, "."%string); ("abc", "abc"); ("abc/def", "abc/def"); (".", "."); ("..", ".."); ("../..", "../.."); ("/", "/")
   ; ("abc/", "abc"); ("./", "."); ("../", ".."); ("/abc/", "/abc"); ("abc//def//ghi", "abc/def/ghi"); ("//abc", "/abc")
   ; ("abc/./def", "abc/def"); ("/./abc/def", "/abc/def"); ("abc/def/ghi/../jkl", "abc/def/jkl"); ("abc/def/..", "abc")
   ; ("abc/def/../..", "."); ("/abc/def/../..", "/"); ("abc/def/../../..", ".."); ("/abc/def/../../..", "/")
   ; ("abc/def/../../../ghi/jkl/../../../mno", "../../mno"); ("abc/./../def", "def"); ("abc/../../././../def", "../../def")]%string.
Proof. apply Forall_forall. intros x Hx. repeat (apply elem_of_cons in Hx as [->|Hx]; [vm_compute; reflexivity|]). by apply elem_of_nil in Hx. Qed.

(** *** C41: exactly which peer-supplied metadata kills the daemon *)
Theorem C41_sound_metadata_is_harmless_partial :
  forall c size count chunk h name f f' out, (size < 18446744073709551616)%N -> (chunk < 4294967296)%N ->
    ~ bad_metadata size chunk ->
    execs f (register_download c size count chunk h name) f' out -> exists r, out = Done r.
Proof. exact C41_ok_lemma. Qed.
Print Assumptions C41_sound_metadata_is_harmless_partial.
Theorem C41_bad_metadata_kills_the_daemon_refuted :
  forall cwd dir dl A c f size count chunk h name, reached cwd dir dl A c f -> A !! h = None ->
    (size < 18446744073709551616)%N -> (chunk < 4294967296)%N -> bad_metadata size chunk ->
    exists f' w, run f (register_download c size count chunk h name) = (f', Died w).
Proof. exact C41_dies_lemma. Qed.
Print Assumptions C41_bad_metadata_kills_the_daemon_refuted.

Example C41_case :
  match run ex1.1.2 (register_download ex1.1.1 5 2 0 hnew (bs "new")),
        run ex1.1.2 (register_download ex1.1.1 9223372036854775808 2 3 hnew (bs "new")),
        run ex1.1.2 (register_download ex1.1.1 5 2 3 hnew (bs "new")) with
  | (_, Died _), (_, Died _), (_, Done _) => true
  | _, _, _ => false
  end = true.
Proof. vm_compute. reflexivity. Qed.

(** *** C42 (refuted): writing the progress file fails, the call succeeds *)
Theorem C42_failed_progress_save_is_ignored_refuted :
  forall cwd dir dl A c f size count chunk h name, reached cwd dir dl A c f -> A !! h = None ->
    hash_wf h -> (size < 9223372036854775808)%N -> (0 < chunk < 4294967296)%N ->
    f !! prog_path dir h = None ->
    exists f' c' x, execs f (register_download c size count chunk h name) f' (Done (c', Ok x))
      /\ f' !! prog_path dir h = None.
Proof. exact C42_refuted_lemma. Qed.
Print Assumptions C42_failed_progress_save_is_ignored_refuted.
(** what success does guarantee: the index has been written *)
Theorem C42_successful_register_wrote_the_index_partial :
  forall c size count chunk h name f f' c' x,
    execs f (register_download c size count chunk h name) f' (Done (c', Ok x)) ->
    exists r pr f1, c_index c !! h = None /\ c' = set_index c (<[h := set_prog r pr]> (c_index c)) /\ x = export_of r pr
      /\ f1 = <[join2 (c_inddir c) index_name := NFile (marshal c')]> f
      /\ (f' = <[join1 (prog_path (c_dir c) h) := NFile (bserialize (p_bits pr))]> f1
          \/ forall q, q <> join1 (prog_path (c_dir c) h) -> f' !! q = f1 !! q).
Proof. exact C42_index_lemma. Qed.
Print Assumptions C42_successful_register_wrote_the_index_partial.
(** when no call fails, the progress file is written too *)
Example C42_case :
  match run ex1.1.2 (register_download ex1.1.1 5 2 3 hnew (bs "new")) with
  | (f', Done (c', Ok x)) => bool_decide (file_at f' (prog_path ex_dir hnew) = Some (bserialize (x_bits x)))
      && bool_decide (file_at ex1.1.2 (prog_path ex_dir hnew) = None)
      && bool_decide (file_at f' (join2 ex_dir index_name) = Some (marshal c')) && bool_decide (x_hash x = hnew)
  | _ => false
  end = true.
Proof. vm_compute. reflexivity. Qed.

(** *** C43: Clean removes exactly the unsharable files *)
Theorem C43_clean_removes_exactly_the_unsharable :
  forall cwd dir dl A c f order, reached cwd dir dl A c f -> allowed cwd dir dl A f (CList order) ->
    (forall h a, A !! h = Some a -> parent (a_path a) <> dir) ->
    exists c' f' A' items, run f (clean_index c order) = (f', Done (c', Ok items))
      /\ reached cwd dir dl A' c' f' /\ same_user dir f f'
      /\ Forall2 (fun i h => exists a, A !! h = Some a /\ i = mkItem (a_path a) h (verdict f h a).2 (verdict f h a).1) items order
      /\ (forall h a, A' !! h = Some a <-> A !! h = Some a /\ stays f h a).
Proof. exact C43_lemma. Qed.
Print Assumptions C43_clean_removes_exactly_the_unsharable.

Definition clean_actions (f : fs) : list (hash * hash * action) :=
  match run f (clean_index ex3.1.1 [habc; hnew]) with
  | (_, Done (_, Ok l)) => map (fun i => (ci_hash i, ci_current i, ci_action i)) l
  | _ => []
  end.
Example C43_case :
  bool_decide (map snd (clean_actions ex3.1.2) = [Intact; InProgress])
  && bool_decide (map snd (clean_actions (<[bs "/a" := NFile (bs "abd")]> ex3.1.2)) = [RemovedChanged; InProgress])
  && bool_decide (map snd (clean_actions (delete (bs "/a") ex3.1.2)) = [RemovedMissing; InProgress])
  && bool_decide (map (fun x => x.1.2) (clean_actions (delete (bs "/a") ex3.1.2)) = [replicate 20 xff; sha1 [x00; x00; x00; x64; x65]]) = true.
Proof. vm_compute. reflexivity. Qed.

(** *** C44 (refuted): an incomplete download stays exactly when its destination
    file exists; one that has not received a chunk yet has none and is removed *)
Theorem C44_clean_removes_downloads_without_a_file_refuted :
  forall cwd dir dl A c f order, reached cwd dir dl A c f -> allowed cwd dir dl A f (CList order) ->
    (forall h a, A !! h = Some a -> parent (a_path a) <> dir) ->
    exists c' f' A' items, run f (clean_index c order) = (f', Done (c', Ok items)) /\ reached cwd dir dl A' c' f'
      /\ forall h a, A !! h = Some a -> ~ complete a -> (A' !! h = Some a <-> exists l, file_at f (a_path a) = Some l).
Proof. exact C44_lemma. Qed.
Print Assumptions C44_clean_removes_downloads_without_a_file_refuted.

Example C44_case :
  match run ex2.1.2 (clean_index ex2.1.1 [habc; hnew]) with
  | (_, Done (c', Ok l)) => bool_decide (map ci_action l = [Intact; RemovedMissing]) && bool_decide (r_path <$> c_index c' !! hnew = None)
  | _ => false
  end = true.
Proof. vm_compute. reflexivity. Qed.

(** *** C70 (refuted): index updates go to the directory named in the index file
    that was read, whichever directory that file was in *)
Theorem C70_updates_go_to_the_recorded_directory_refuted :
  forall pid now cwd dir dl f data p t m d, is_rooted cwd = true ->
    f !! abs cwd dir = Some NDir -> f !! join2 (abs cwd dir) index_name = Some (NFile data) ->
    unmarshal data = Ok (p, t, m, d) ->
    exists c, run f (open_cat pid now cwd dir dl) = (f, Done (Ok c)) /\ c_dir c = abs cwd dir
      /\ forall c' f1 f2 e, c_inddir c' = c_inddir c -> execs f1 (save_index c') f2 (Done e) ->
           (forall q, q <> join2 d index_name -> f2 !! q = f1 !! q)
           /\ (e = Ok tt -> f2 !! join2 d index_name = Some (NFile (marshal c'))).
Proof. exact C70_lemma. Qed.
Print Assumptions C70_updates_go_to_the_recorded_directory_refuted.
(** in every reachable state these are the same directory *)
Theorem C70_unmoved_directory_partial :
  forall cwd dir dl A c f, reached cwd dir dl A c f -> c_dir c = dir /\ c_inddir c = dir.
Proof. exact C70_same_lemma. Qed.
Print Assumptions C70_unmoved_directory_partial.

(** the catalogue directory copied to /moved: sharing there updates /cat/index.json *)
Example C70_case :
  let f := <[bs "/moved" := NDir]> (<[bs "/moved/index.json" := NFile (contents_or_empty ex_f0 (bs "/cat/index.json"))]> ex_f0) in
  match run f (open_cat 1 1 ex_cwd (bs "/moved") ex_dl) with
  | (f1, Done (Ok c)) =>
      match run f1 (share_file ex_cwd c (bs "/a")) with
      | (f2, Done (_, Ok _)) => bool_decide (file_at f2 (bs "/moved/index.json") = file_at ex_f0 (bs "/cat/index.json"))
          && bool_decide (file_at f2 (bs "/cat/index.json") <> file_at ex_f0 (bs "/cat/index.json"))
      | _ => false
      end
  | _ => false
  end = true.
Proof. vm_compute. reflexivity. Qed.

(** *** C74 (refuted): on a machine without the downloads directory (which nothing
    in the daemon creates) a download can be registered, but no chunk of it saved;
    the download loop panics on this error *)
Theorem C74_no_downloads_directory_refuted :
  forall cwd dir dl A c f size count chunk h name i data,
    reached cwd dir dl A c f -> f !! dl = None -> parent dl <> dir -> A !! h = None ->
    allowed cwd dir dl A f (CRegister size count chunk h name) -> (i < 65536)%N ->
    exists c1 f1 x c2 f2, crun cwd c f (CRegister size count chunk h name) = Some (c1, f1, AExport x)
      /\ crun cwd c1 f1 (CSave h i data) = Some (c2, f2, AErr) /\ f2 !! dl = None.
Proof. exact C74_lemma. Qed.
Print Assumptions C74_no_downloads_directory_refuted.
(** The first chunk can be saved exactly if the downloads directory exists and there is
    no directory in the place of the file; then it is in the file and held. *)
Theorem C74_with_directory_partial :
  forall cwd dir dl A c f size count chunk h name i data,
    reached cwd dir dl A c f -> parent dl <> dir -> A !! h = None ->
    allowed cwd dir dl A f (CRegister size count chunk h name) -> (i < 65536)%N ->
    exists c1 f1 x c2 f2 ans, crun cwd c f (CRegister size count chunk h name) = Some (c1, f1, AExport x)
      /\ crun cwd c1 f1 (CSave h i data) = Some (c2, f2, ans)
      /\ (ans = AOk <-> f !! dl = Some NDir /\ f !! join2 dl name <> Some NDir)
      /\ (ans = AOk -> exists new, file_at f2 (join2 dl name) = Some new
            /\ overlay (default [] (file_at f (join2 dl name))) (N.to_nat i * N.to_nat chunk) data new
            /\ exists A2 a, reached cwd dir dl A2 c2 f2 /\ A2 !! h = Some a /\ a_held a = {[i]}).
Proof. exact C74_exact_lemma. Qed.
Print Assumptions C74_with_directory_partial.

Example C74_case :
  let s := next (ex1.1.1, delete ex_dl ex1.1.2, AOk) (CRegister 5 2 3 hnew (bs "new")) in
  is_ok s && negb (is_ok (next s (CSave hnew 1 (bs "de")))) && is_ok (next ex2 (CSave hnew 1 (bs "de"))) = true.
Proof. vm_compute. reflexivity. Qed.
