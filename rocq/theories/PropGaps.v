(** The parts that do hold of claims the code refutes (C33, C44, C52, C85, C88). *)
From Verif Require Import KillProofs GapProofs CleanProofs SwarmProofs2 PeerProofs2 ServerCases CatalogueCases.

(** *** C33, what holds: the disks a kill during Unshare, Share or RegisterDownload can leave,
    also after failing I/O.  Either the daemon starts and is in a reachable state, in which the
    call happened or did not; or it does not start (C32); or it is stuck for good; or,
    for the two calls that add a file, it starts and Unshare leads back to exactly the disk
    before the call.  Missing: repair in the second and third case, which is impossible. *)
Theorem C33_unshare_kills_partial :
  forall cwd dir dl A c f h a f', reached cwd dir dl A c f -> A !! h = Some a -> valid_utf8 dir ->
    (forall h a, A !! h = Some a -> valid_utf8 (a_path a)) -> ckilled cwd c f (CUnshare h) f' ->
    (exists c', starts cwd dir dl f' c' /\ (reached cwd dir dl A c' f' \/ reached cwd dir dl (delete h A) c' f'))
    \/ wont_start cwd dir dl f' \/ stuck cwd dir dl h f'.
Proof. exact unshare_kills. Qed.
Print Assumptions C33_unshare_kills_partial.
Theorem C33_share_kills_partial :
  forall cwd dir dl A c f p l f', reached cwd dir dl A c f -> file_at f (abs cwd p) = Some l -> small l -> A !! sha1 l = None ->
    f !! prog_path dir (sha1 l) = None -> valid_utf8 dir -> (forall h a, A !! h = Some a -> valid_utf8 (a_path a)) -> valid_utf8 (abs cwd p) ->
    ckilled cwd c f (CShare p) f' ->
    (exists c', starts cwd dir dl f' c' /\ (reached cwd dir dl A c' f'
       \/ reached cwd dir dl (<[sha1 l := full_entry (abs cwd p) (Z.of_nat (length l)) 4194304]> A) c' f'))
    \/ wont_start cwd dir dl f' \/ stuck cwd dir dl (sha1 l) f'
    \/ exists c' c2, starts cwd dir dl f' c' /\ crun cwd c' f' (CUnshare (sha1 l)) = Some (c2, f, AOk) /\ reached cwd dir dl A c2 f.
Proof. exact share_kills. Qed.
Print Assumptions C33_share_kills_partial.
Theorem C33_register_kills_partial :
  forall cwd dir dl A c f size count chunk h name f', reached cwd dir dl A c f -> A !! h = None ->
    allowed cwd dir dl A f (CRegister size count chunk h name) -> f !! prog_path dir h = None -> valid_utf8 dir ->
    (forall h a, A !! h = Some a -> valid_utf8 (a_path a)) -> valid_utf8 (join2 dl name) -> ckilled cwd c f (CRegister size count chunk h name) f' ->
    (exists c', starts cwd dir dl f' c' /\ (reached cwd dir dl A c' f'
       \/ reached cwd dir dl (<[h := new_entry (join2 dl name) (Z.of_N size) (Z.of_N chunk)]> A) c' f'))
    \/ wont_start cwd dir dl f' \/ stuck cwd dir dl h f'
    \/ exists c' c2, starts cwd dir dl f' c' /\ crun cwd c' f' (CUnshare h) = Some (c2, f, AOk) /\ reached cwd dir dl A c2 f.
Proof. exact register_kills. Qed.
Print Assumptions C33_register_kills_partial.
(** sharing a file of three bytes; the progress file is cut after [k] of its 16 bytes.
    What a restart, removing the file and listing then do: *)
Definition ex_cut (k : nat) : option (bool * option (list path)) :=
  match crun ex_cwd ex_c0 ex_f0 (CShare (bs "/a")) with
  | Some (_, f1, AOk) =>
      let q := prog_path ex_dir habc in
      let f2 := <[q := NFile (take k (default [] (file_at f1 q)))]> f1 in
      match run f2 (open_cat 1 1 ex_cwd ex_dir ex_dl) with
      | (f3, Done (Ok c3)) =>
          match crun ex_cwd c3 f3 (CUnshare habc) with
          | Some (c4, f4, ans) =>
              Some (match ans with AOk => true | _ => false end,
                match crun ex_cwd c4 f4 (CList (map fst (map_to_list (c_index c4)))) with Some (_, _, AList l) => Some (map x_path l) | _ => None end)
          | None => None
          end
      | _ => None
      end
  | _ => None
  end.
Example C33_cut_case :
  bool_decide (map ex_cut [5; 8; 12; 16] = [None; Some (true, Some []); Some (false, None); Some (true, Some [])]) = true.
Proof. vm_compute. reflexivity. Qed.

(** *** C44, what holds: once a chunk of a download has been saved, Clean leaves the
    download alone for as long as it is incomplete.  Missing: a download of which
    nothing has arrived yet. *)
Theorem C44_after_a_chunk_partial :
  forall cwd dir dl A c f h a i data order,
    reached cwd dir dl A c f -> A !! h = Some a -> can_write f (a_path a) -> (i < 65536)%N ->
    (forall h a, A !! h = Some a -> parent (a_path a) <> dir) -> NoDup order -> (forall h, h ∈ order <-> A !! h <> None) ->
    exists c1 f1, crun cwd c f (CSave h i data) = Some (c1, f1, AOk)
      /\ (~ complete (hold a i) -> exists c2 f2 A2 items, run f1 (clean_index c1 order) = (f2, Done (c2, Ok items))
           /\ reached cwd dir dl A2 c2 f2 /\ A2 !! h = Some (hold a i)).
Proof. exact save_then_clean. Qed.
Print Assumptions C44_after_a_chunk_partial.
(** the second of two chunks is saved, then Clean runs *)
Example C44_after_case :
  bool_decide (todo entry_new = [0; 1]%N) &&
  match crun ex_cwd ex2.1.1 ex2.1.2 (CSave hnew 1 (bs "de")) with
  | Some (c1, f1, AOk) =>
      match run f1 (clean_index c1 [habc; hnew]) with
      | (_, Done (c2, Ok l)) => bool_decide (map ci_action l = [Intact; InProgress]) && bool_decide (r_path <$> c_index c2 !! hnew = Some (bs "/dl/new"))
      | _ => false
      end
  | _ => false
  end = true.
Proof. vm_compute. reflexivity. Qed.

(** *** C52, what holds: of the packets our own sender sends for a chunk, whichever
    arrive, in whatever order and however often, the daemon dies exactly when the
    first one to arrive is not the header.  Missing: a header that is lost or
    overtaken, and senders that send something else. *)
Theorem C52_own_packets_partial :
  forall h bytes ks, hash_wf h -> (Z.of_nat (length bytes) < 4294967296)%Z -> bytes <> [] ->
    (is_panic (recv_datagrams (map wire (map (stream h bytes) ks))) <-> exists k rest, ks = k :: rest /\ k <> 0).
Proof. exact own_packets. Qed.
Print Assumptions C52_own_packets_partial.
(** 3000 bytes; the header comes first, then it comes second *)
Example C52_own_case :
  (match recv_datagrams (map wire (map (stream zero_hash (replicate 3000 x61)) [0; 2; 0; 1; 3])) with Ok (RSave _ _) => true | _ => false end
   && match recv_datagrams (map wire (map (stream zero_hash (replicate 3000 x61)) [1; 0; 2])) with Panic _ => true | _ => false end) = true.
Proof. vm_compute. reflexivity. Qed.

(** *** C85, what holds: over a whole download no host is asked for the same chunk
    twice, only missing chunks are asked for, and each of them is; if always one host
    answers, each missing chunk is requested exactly once, in order.  Missing: with
    several hosts each of them is asked. *)
Theorem C85_once_per_host_partial :
  forall cwd dir dl A c f h a cs content own (has : list byte -> N -> Prop) (R : list hostresp -> Prop) n out b,
    reached cwd dir dl A c f -> A !! h = Some a ->
    0 < cs -> a_chunk a = Z.of_nat cs -> a_count a = Z.of_nat ((length content + cs - 1) / cs) -> (a_count a <= 65536)%Z ->
    can_write f (a_path a) -> parent (a_path a) <> dir -> right_so_far content cs f a ->
    (forall i, ~ ragged cs (chunk_bytes content cs i) \/ first_empty (chunk_bytes content cs i) <= 1024) ->
    (forall hs, R hs -> NoDup (map h_addr hs)) ->
    lexec own h (swarm own has R content cs) (mkL LCheck c f ∅) n out b -> l_pc b = LDone ->
    NoDup (map (fun d => (dg_ip d, dg_data d)) out)
    /\ (forall d, d ∈ out -> exists host port i, d = request host port h i /\ (Z.of_N i < a_count a)%Z /\ i ∉ a_held a)
    /\ (forall i, (Z.of_N i < a_count a)%Z -> i ∉ a_held a -> exists host port, request host port h i ∈ out)
    /\ ((forall hs, R hs -> length hs = 1) -> Forall2 (fun i d => exists host port, d = request host port h i) (todo a) out).
Proof. exact once_lemma. Qed.
Print Assumptions C85_once_per_host_partial.
(** the two hosts of C84_case are different ones; its execution has one request to each *)
Example C85_once_case : NoDup (map h_addr ex_two)
  /\ exists n out b, lexec ex_own hnew (swarm ex_own (seeded ex_host) (eq ex_two) (bs "abcde") 3) (mkL LCheck ex3.1.1 ex3.1.2 ∅) n out b
     /\ l_pc b = LDone /\ length out = 2.
Proof.
  split; [apply (bool_decide_unpack _); vm_compute; exact I|].
  destruct C84_case_lemma as (n & out & b & H1 & H2 & -> & _). exists n, (ask_all hnew 0 ex_two), b. done.
Qed.

(** *** C88, what holds: a file that is not empty and is shared by a daemon that answers is
    accepted for download and registered with the right name, size and chunk size.
    Missing: empty files, names that are not plain (C40), files of more than 65536
    chunks (C64). *)
Theorem C88_nonempty_partial :
  forall cwd dir dl A c f h content cs name own host port ifs resps r M data,
    reached cwd dir dl A c f -> A !! h = None -> no_spare ifs -> own_address ifs own -> host <> own ->
    content <> [] -> h <> blank -> (length content + cs - 1) / cs <= N.to_nat 65536 -> u16 port -> normal_name (take 255 name) ->
    shares M h content cs name host -> found M port h r -> selected (fun x => h_addr x <> own) resps [r] -> described M port h data ->
    exists c' f', run f (start_download (Some ifs) c h resps (Some data)) = (f', Done (c', Ok own))
      /\ reached cwd dir dl (<[h := new_entry (join2 dl (take 255 name)) (Z.of_nat (length content)) (Z.of_nat cs)]> A) c' f'
      /\ same_user dir f f'.
Proof. exact accepted. Qed.
Print Assumptions C88_nonempty_partial.
Example C88_nonempty_case :
  shares ex_rem habc (bs "abc") ex_cs (bs "a") ex_own /\ is_up ex_rem ex_srv 61696 /\ habc <> blank
  /\ match run ex_f0 (start_download (Some ex_ifs2) ex_c0 habc ex_found (Some ex_meta)) with
     | (_, Done (c', Ok own)) => bool_decide (own = ex_host) && bool_decide (r_path <$> c_index c' !! habc = Some (bs "/dl/a"))
     | _ => false
     end = true.
Proof.
  pose proof C87_case_lemma as (_ & _ & _ & _ & Hb & _ & _ & _ & _ & _ & H1 & H2 & _).
  split; [exact H1|]. split; [exact H2|]. split; [exact Hb|]. vm_compute. reflexivity.
Qed.
