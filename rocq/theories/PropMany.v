(** Properties of several downloads at the same time (C109, C110). *)
From Verif Require Import ManyProofs2.

(** *** C109: downloads at the same time do not disturb each other.  Any number of
    loops run interleaved with each other, with calls of the catalogue by anybody else
    and with changes of other files.  They take a bounded number of steps, the
    catalogue stays in order, and a loop that ends leaves exactly the file it was
    about.  A loop dies only if a second loop for the same hash has finished first. *)
Theorem C109_not_disturbed_partial :
  forall cwd dir dl own T A c f hs n b,
    reached cwd dir dl A c f -> well_set dir A f T -> (forall h, h ∈ hs -> is_Some (T !! h)) ->
    mexec cwd dir dl own T (mkM c f ∅ (starting hs)) n b ->
    n <= sum_list_with (steps_for T A) hs
    /\ (exists A', reached cwd dir dl A' (m_cat b) (m_fs b))
    /\ (forall j h t a, m_loops b !! j = Some (h, LDone) -> T !! h = Some t -> A !! h = Some a ->
          default [] (file_at (m_fs b) (a_path a))
            = t_content t ++ drop (length (t_content t)) (default [] (file_at f (a_path a))))
    /\ (forall j h pc t resps dg, m_loops b !! j = Some (h, pc) -> T !! h = Some t -> pc <> LDone -> t_net own t pc resps dg ->
          lstep own h resps dg (mkL pc (m_cat b) (m_fs b) (m_active b)) = None ->
          pc = LMissing /\ ~ NoDup hs /\ forall a, A !! h = Some a ->
            default [] (file_at (m_fs b) (a_path a))
              = t_content t ++ drop (length (t_content t)) (default [] (file_at f (a_path a)))).
Proof. exact C109_lemma. Qed.
Print Assumptions C109_not_disturbed_partial.
(** With one loop for each hash, all of them can finish from wherever they are. *)
Theorem C109_all_finish_partial :
  forall cwd dir dl own T A c f hs n b,
    reached cwd dir dl A c f -> well_set dir A f T -> (forall h, h ∈ hs -> is_Some (T !! h)) -> NoDup hs ->
    (forall h t, T !! h = Some t -> t_alive own t) ->
    mexec cwd dir dl own T (mkM c f ∅ (starting hs)) n b ->
    exists m b', mexec cwd dir dl own T b m b' /\ Forall (fun x => x.2 = LDone) (m_loops b').
Proof. exact C109_finish_lemma. Qed.
Print Assumptions C109_all_finish_partial.
(** two files are downloaded at the same time *)
Example C109_case : exists n b,
  mexec ex_cwd ex_dir ex_dl ex_own ex_T (mkM (ex4 (bs "two")).1.1 (ex4 (bs "two")).1.2 ∅ (starting [hnew; hnew2])) n b
  /\ m_loops b = [(hnew, LDone); (hnew2, LDone)] /\ n <= 14
  /\ default [] (file_at (m_fs b) (bs "/dl/new")) = bs "abcde"
  /\ default [] (file_at (m_fs b) (bs "/dl/two")) = bs "xyz".
Proof. exact C109_case_lemma. Qed.
(** two loops for one hash: the first has passed its check when the second downloads the
    whole file; then the first dies *)
Example C109_run : ex_twice = Some true.
Proof. exact C109_run_lemma. Qed.

(** *** C110 (refuted): no two files are stored in the same place.  A download whose name is
    already taken is accepted and gets the same path. *)
Theorem C110_same_name_refuted :
  forall cwd dir dl A c f h1 h2 a1 size count chunk name,
    reached cwd dir dl A c f -> A !! h1 = Some a1 -> A !! h2 = None -> a_path a1 = join2 dl name ->
    allowed cwd dir dl A f (CRegister size count chunk h2 name) ->
    exists c' f' x A' a2, crun cwd c f (CRegister size count chunk h2 name) = Some (c', f', AExport x)
      /\ reached cwd dir dl A' c' f' /\ A' !! h1 = Some a1 /\ A' !! h2 = Some a2 /\ a_path a2 = a_path a1.
Proof. exact C110_same_name_lemma. Qed.
Print Assumptions C110_same_name_refuted.
(** Chunks of the second file then overwrite the first, which stays registered with
    the chunks it had: the second file's bytes are served as the first one's. *)
Theorem C110_overwrites_refuted :
  forall cwd dir dl A c f h1 h2 a1 a2 i data,
    reached cwd dir dl A c f -> h1 <> h2 -> A !! h1 = Some a1 -> A !! h2 = Some a2 -> a_path a1 = a_path a2 ->
    can_write f (a_path a2) -> parent (a_path a2) <> dir -> (i < 65536)%N ->
    exists c' f' A' new, crun cwd c f (CSave h2 i data) = Some (c', f', AOk)
      /\ overlay (default [] (file_at f (a_path a1))) (N.to_nat i * Z.to_nat (a_chunk a2)) data new
      /\ file_at f' (a_path a1) = Some new
      /\ reached cwd dir dl A' c' f' /\ A' !! h1 = Some a1
      /\ forall fuel j, length new < fuel -> (N.of_nat j < 65536)%N -> N.of_nat j ∈ a_held a1 ->
           exists c'' f'' cr, crun cwd c' f' (CReader fuel h1 j) = Some (c'', f'', AReader (FRegular new) cr)
             /\ cr_hash cr = sha1 (chunk_bytes new (Z.to_nat (a_chunk a1)) j)
             /\ forall ns, read_all (FRegular new) cr ns
                  = Ok (expected_reads (chunk_bytes new (Z.to_nat (a_chunk a1)) j) (Z.to_nat (a_chunk a1)) 0 ns).
Proof. exact C110_overwrites_lemma. Qed.
Print Assumptions C110_overwrites_refuted.
(** Exactly the calls that add an entry under a path in use break it. *)
Theorem C110_stay_apart_partial :
  forall cwd dir dl A c f q c' f' ans A',
    reached cwd dir dl A c f -> allowed cwd dir dl A f q -> crun cwd c f q = Some (c', f', ans) ->
    reached cwd dir dl A' c' f' -> apart A ->
    (apart A' <-> new_place cwd dl A f q).
Proof. exact C110_exact_lemma. Qed.
Print Assumptions C110_stay_apart_partial.
Example C110_case : at_ex (A4 (bs "new")) (ex4 (bs "new")) /\ A4 (bs "new") !! hnew = Some ex_new
  /\ A4 (bs "new") !! hnew2 = Some (entry_two (bs "new")) /\ a_path (entry_two (bs "new")) = a_path ex_new
  /\ ~ apart (A4 (bs "new")) /\ apart (A4 (bs "two")).
Proof. exact C110_case_lemma. Qed.
(** both files are in /dl/new; the second is complete and the first is broken *)
Example C110_run : bool_decide (file_at ex5.1.2 (bs "/dl/new") = Some (bs "xyzde"))
  && match crun ex_cwd ex5.1.1 ex5.1.2 (CContains hnew), crun ex_cwd ex5.1.1 ex5.1.2 (CComplete hnew2) with
     | Some (_, _, AExport x), Some (_, _, ABool true) => bool_decide (x_path x = bs "/dl/new")
     | _, _ => false end = true.
Proof. exact C110_run_lemma. Qed.
