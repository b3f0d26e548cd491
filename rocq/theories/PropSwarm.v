(** Properties of downloads from several hosts (C84-C86). *)
From Verif Require Import SwarmProofs2 OfferProofs.

(** *** C84: hosts that have only part of the file or do not answer.  Whatever hosts
    turn up, if every chunk asked for arrives completely or not at all, then the
    loop neither dies nor gets stuck, and if it ends the file is right. *)
Theorem C84_loose_safe_partial :
  forall cwd dir dl A c f h a cs content own n out b,
    reached cwd dir dl A c f -> A !! h = Some a ->
    0 < cs -> a_chunk a = Z.of_nat cs -> a_count a = Z.of_nat ((length content + cs - 1) / cs) -> (a_count a <= 65536)%Z ->
    can_write f (a_path a) -> parent (a_path a) <> dir -> right_so_far content cs f a ->
    (forall i, ~ ragged cs (chunk_bytes content cs i) \/ first_empty (chunk_bytes content cs i) <= 1024) ->
    lexec own h (loose content cs) (mkL LCheck c f ∅) n out b ->
    (forall resps dg, l_pc b <> LDone -> loose content cs (l_pc b) resps dg -> is_Some (lstep own h resps dg b))
    /\ (l_pc b = LDone ->
        default [] (file_at (l_fs b) (a_path a)) = content ++ drop (length content) (default [] (file_at f (a_path a)))).
Proof. exact C84_safe_lemma. Qed.
Print Assumptions C84_loose_safe_partial.
(** If at most [K] usable hosts answer each search and one of them has the chunk, then
    every execution ends after a bounded number of steps; one round of requests is
    made for every missing chunk, in order. *)
Theorem C84_swarm_partial :
  forall cwd dir dl A c f h a cs content own has (R : list hostresp -> Prop) K n out b,
    reached cwd dir dl A c f -> A !! h = Some a ->
    0 < cs -> a_chunk a = Z.of_nat cs -> a_count a = Z.of_nat ((length content + cs - 1) / cs) -> (a_count a <= 65536)%Z ->
    can_write f (a_path a) -> parent (a_path a) <> dir -> right_so_far content cs f a ->
    (forall i, ~ ragged cs (chunk_bytes content cs i) \/ first_empty (chunk_bytes content cs i) <= 1024) ->
    (forall hs, R hs -> length hs <= K) ->
    lexec own h (swarm own has R content cs) (mkL LCheck c f ∅) n out b ->
    n <= (4 + K) * length (todo a) + 1
    /\ (forall resps dg, l_pc b <> LDone -> swarm own has R content cs (l_pc b) resps dg -> is_Some (lstep own h resps dg b))
    /\ (l_pc b = LDone ->
        (exists rounds, Forall2 (fun i hs => R hs /\ someone_has has i hs) (todo a) rounds /\ out = requests h (todo a) rounds)
        /\ default [] (file_at (l_fs b) (a_path a)) = content ++ drop (length content) (default [] (file_at f (a_path a)))).
Proof. exact C84_lemma. Qed.
Print Assumptions C84_swarm_partial.
(** and such an execution to the end exists *)
Theorem C84_completes_partial :
  forall cwd dir dl A c f h a cs content own has (R : list hostresp -> Prop) K,
    reached cwd dir dl A c f -> A !! h = Some a ->
    0 < cs -> a_chunk a = Z.of_nat cs -> a_count a = Z.of_nat ((length content + cs - 1) / cs) -> (a_count a <= 65536)%Z ->
    can_write f (a_path a) -> parent (a_path a) <> dir -> right_so_far content cs f a ->
    (forall i, ~ ragged cs (chunk_bytes content cs i) \/ first_empty (chunk_bytes content cs i) <= 1024) ->
    (forall hs, R hs -> length hs <= K) -> (forall i, i ∈ todo a -> exists hs, R hs /\ someone_has has i hs /\ Forall (good own) hs) ->
    exists n out b, lexec own h (swarm own has R content cs) (mkL LCheck c f ∅) n out b /\ l_pc b = LDone.
Proof. exact C84_completes_lemma. Qed.
Print Assumptions C84_completes_partial.
(** the first of two hosts stays silent *)
Example C84_case : exists n out b,
  lexec ex_own hnew (swarm ex_own (seeded ex_host) (eq ex_two) (bs "abcde") 3) (mkL LCheck ex3.1.1 ex3.1.2 ∅) n out b
  /\ l_pc b = LDone /\ out = ask_all hnew 0 ex_two
  /\ default [] (file_at (l_fs b) (bs "/dl/new")) = bs "abcde".
Proof. exact C84_case_lemma. Qed.
Example C84_run : ex_finished true = true.
Proof. exact C84_run_lemma. Qed.

(** *** C85 (refuted): a chunk is asked for once.  It is requested from every host, even
    after it has arrived. *)
Theorem C85_every_host_refuted :
  forall cwd dir dl A c f h a cs content own has hs n out b,
    reached cwd dir dl A c f -> A !! h = Some a ->
    0 < cs -> a_chunk a = Z.of_nat cs -> a_count a = Z.of_nat ((length content + cs - 1) / cs) -> (a_count a <= 65536)%Z ->
    can_write f (a_path a) -> parent (a_path a) <> dir -> right_so_far content cs f a ->
    (forall i, ~ ragged cs (chunk_bytes content cs i) \/ first_empty (chunk_bytes content cs i) <= 1024) ->
    lexec own h (swarm own has (eq hs) content cs) (mkL LCheck c f ∅) n out b -> l_pc b = LDone ->
    out = concat (map (fun i => ask_all h i hs) (todo a)).
Proof. exact C85_lemma. Qed.
Print Assumptions C85_every_host_refuted.
(** both hosts send the chunk *)
Example C85_run : ex_finished false = true.
Proof. exact C85_run_lemma. Qed.

(** *** C86 (refuted): chunks that are on offer are fetched.  Only the first missing chunk
    is ever asked for: if nobody has it, the loop goes on for ever and nothing else
    is requested, whatever the hosts offer. *)
Theorem C86_first_chunk_refuted :
  forall cwd dir dl A c f h a own i n out b,
    reached cwd dir dl A c f -> A !! h = Some a -> (a_count a <= 65536)%Z ->
    (Z.of_N i < a_count a)%Z -> i ∉ a_held a -> (forall j, (j < i)%N -> j ∈ a_held a) ->
    lexec own h (nobody_has i) (mkL LCheck c f ∅) n out b ->
    l_pc b <> LDone /\ l_fs b = f /\ (forall d, d ∈ out -> exists host port, d = request host port h i)
    /\ (forall resps dg, nobody_has i (l_pc b) resps dg -> is_Some (lstep own h resps dg b)).
Proof. exact C86_lemma. Qed.
Print Assumptions C86_first_chunk_refuted.
(** ... and it does so any number of times *)
Theorem C86_forever_refuted :
  forall cwd dir dl A c f h a own i hs k,
    reached cwd dir dl A c f -> A !! h = Some a -> (a_count a <= 65536)%Z ->
    (Z.of_N i < a_count a)%Z -> i ∉ a_held a -> (forall j, (j < i)%N -> j ∈ a_held a) -> Forall (good own) hs ->
    exists b, lexec own h (nobody_has i) (mkL LCheck c f ∅) (k * (4 + length hs)) (concat (replicate k (ask_all h i hs))) b
      /\ l_pc b = LCheck /\ l_fs b = f.
Proof. exact C86_forever_lemma. Qed.
Print Assumptions C86_forever_refuted.
(** both chunks are missing, a host offers the second one *)
Example C86_case : reached ex_cwd ex_dir ex_dl A2 ex2.1.1 ex2.1.2 /\ A2 !! hnew = Some entry_new
  /\ todo entry_new = [0; 1]%N
  /\ exists n out b, lexec ex_own hnew (nobody_has 0) (mkL LCheck ex2.1.1 ex2.1.2 ∅) n out b /\ length out = 6.
Proof. exact C86_case_lemma. Qed.
(** What is to be had before the first chunk nobody has does arrive: nobody has chunk [i0], every
    chunk before it is offered by one of at most [K] hosts.  Then after a bounded number of steps
    everything before chunk [i0] is in the file; nothing after chunk [i0] is ever asked for, and
    the loop neither ends nor dies. *)
Theorem C86_as_far_as_offered_partial :
  forall cwd dir dl A c f h a cs content own has i0 K n out b,
    reached cwd dir dl A c f -> A !! h = Some a ->
    0 < cs -> a_chunk a = Z.of_nat cs -> a_count a = Z.of_nat ((length content + cs - 1) / cs) -> (a_count a <= 65536)%Z ->
    can_write f (a_path a) -> parent (a_path a) <> dir -> right_so_far content cs f a ->
    (forall i, ~ ragged cs (chunk_bytes content cs i) \/ first_empty (chunk_bytes content cs i) <= 1024) ->
    i0 ∈ todo a -> (forall ip, ~ has ip i0) ->
    lexec own h (offers own has i0 K content cs) (mkL LCheck c f ∅) n out b ->
    ((4 + K) * length (todo_before i0 a) <= n ->
       forall k, k < length content -> k < N.to_nat i0 * cs -> default [] (file_at (l_fs b) (a_path a)) !! k = content !! k)
    /\ (forall d, d ∈ out -> exists host port i, d = request host port h i /\ i ∈ todo a /\ (i <= i0)%N)
    /\ l_pc b <> LDone
    /\ (forall resps dg, offers own has i0 K content cs (l_pc b) resps dg -> is_Some (lstep own h resps dg b)).
Proof. exact C86_offered_lemma. Qed.
Print Assumptions C86_as_far_as_offered_partial.
(** and there are such executions of any length *)
Theorem C86_offered_runs_partial :
  forall cwd dir dl A c f h a cs content own has i0 K hs n,
    reached cwd dir dl A c f -> A !! h = Some a ->
    0 < cs -> a_chunk a = Z.of_nat cs -> a_count a = Z.of_nat ((length content + cs - 1) / cs) -> (a_count a <= 65536)%Z ->
    can_write f (a_path a) -> parent (a_path a) <> dir -> right_so_far content cs f a ->
    (forall i, ~ ragged cs (chunk_bytes content cs i) \/ first_empty (chunk_bytes content cs i) <= 1024) ->
    i0 ∈ todo a -> (forall ip, ~ has ip i0) ->
    (forall ip i, has ip i \/ ~ has ip i) -> Forall (good own) hs -> length hs <= K -> (forall i, (i < i0)%N -> someone_has has i hs) ->
    exists out b, lexec own h (offers own has i0 K content cs) (mkL LCheck c f ∅) n out b.
Proof. exact C86_offered_runs_lemma. Qed.
Print Assumptions C86_offered_runs_partial.
(** a file of two chunks of which a host offers the first: it is there after one round, and two
    rounds later the second one has been asked for four times *)
Fixpoint ex_half (k : nat) (a : lworld) (out : list dgram) : option (lworld * list dgram) :=
  match k with
  | O => Some (a, out)
  | S k' =>
      match lstep ex_own hnew SwarmProofs2.ex_many (Some match l_pc a with LChunk 0 (r :: _) => if bool_decide (h_addr r = ex_host) then ex_ds else [] | _ => [] end) a with
      | Some (b, o) => ex_half k' b (out ++ o) | None => None end
  end.
Example C86_run :
  match ex_half 6 (mkL LCheck ex2.1.1 ex2.1.2 ∅) [], ex_half 18 (mkL LCheck ex2.1.1 ex2.1.2 ∅) [] with
  | Some (b, _), Some (b', out') =>
      file_at (l_fs b) (bs "/dl/new") = Some (bs "abc") /\ file_at (l_fs b') (bs "/dl/new") = Some (bs "abc")
      /\ l_pc b' = LCheck
      /\ map dg_data out' = map (fun i => serialize (OpenReq hnew i 1024)) [0; 0; 1; 1; 1; 1]%N
  | _, _ => False
  end.
Proof. vm_compute. repeat split; reflexivity. Qed.
