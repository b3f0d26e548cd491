(** Properties of uploads at the level of single accesses to memory (C111-C113). *)
From Verif Require Import WorkersProofs2 ChunkProofs.

(** *** C111 (partial): an upload that is requested once: at every moment of every interleaving of its
    handler, its worker and the handlers of acknowledgements, what has been sent is the beginning of the
    chunk's packet stream *)
Theorem C111_one_request_partial :
  forall l cs i cap K n, (Z.of_nat cs < 4294967296)%Z -> (Z.of_nat i < 65536)%Z -> (cap < 65536)%N ->
    kexec l cs i cap K n [] ->
    let bytes := chunk_bytes l cs i in let sent := g_sent (k_mem K) in
    sent = map (stream (sha1 bytes) bytes) (seq 0 (length sent)).
Proof. intros l cs i cap K n H1 H2 H3. exact (C111_one_lemma l cs i H1 H2 cap H3 K n). Qed.
Print Assumptions C111_one_request_partial.
(** and when the goroutines are at rest, the upload is in a state that Transfer.v reaches by handling one
    acknowledgement after the other: C45-C50 hold for it *)
Theorem C111_one_at_a_time_partial :
  forall l cs i cap K n, (Z.of_nat cs < 4294967296)%Z -> (Z.of_nat i < 65536)%Z -> (cap < 65536)%N ->
    kexec l cs i cap K n [] -> Forall (resting (k_mem K)) (k_thr K) ->
    exists s, uploads_acked l cs i cap s (g_sent (k_mem K)) n
      /\ sd_ws s = g_ws (k_mem K) /\ sd_acks s = g_acks (k_mem K) /\ sd_tok s = g_tok (k_mem K)
      /\ sd_workers s = sum_list_with at_select (k_thr K) /\ sd_stuck s = sum_list_with at_term (k_thr K).
Proof. intros l cs i cap K n H1 H2 H3. exact (C111_rest_lemma l cs i H1 H2 cap H3 K n). Qed.
Print Assumptions C111_one_at_a_time_partial.
(** however often chunks are requested: every packet carries at most 1024 bytes of the file in a row, or is
    the header of a chunk that was requested, with bytes of the file *)
Theorem C111_bytes_of_the_file :
  forall l cs i cap K n rs, (Z.of_nat cs < 4294967296)%Z -> (Z.of_nat i < 65536)%Z ->
    Forall (fun r => length r.1 = 20) rs -> kexec l cs i cap K n rs ->
    Forall (fun p => piece l 1024 p.2
      \/ exists r, r ∈ (sha1 (chunk_bytes l cs i), Z.of_nat (length (chunk_bytes l cs i))) :: rs /\ header_for l r p)
      (g_sent (k_mem K)).
Proof. exact C111_bytes_lemma. Qed.
Print Assumptions C111_bytes_of_the_file.
(** (refuted): the request comes twice; a packet says 1000 and does not carry what the chunk has there *)
Theorem C111_wrong_offset_refuted : exists l cs i cap K n,
  kexec l cs i cap K n [(sha1 (chunk_bytes l cs i), Z.of_nat (length (chunk_bytes l cs i)))]
  /\ n <= length (g_sent (k_mem K))
  /\ exists p, p ∈ g_sent (k_mem K) /\ p.1 = 1000%N /\ length p.2 = 76 /\ ~ true_packet (chunk_bytes l cs i) p.
Proof. exact C111_refuted_lemma. Qed.
Print Assumptions C111_wrong_offset_refuted.

(** one request, window 2, one acknowledgement: the header and two packets, and the worker waits *)
Example C111_case : on_run ex_bytes 2100 0 2 [VGo 0 10 true; VAck; VGo 1 25 true] (replicate 20 x61)
  (fun K => bool_decide (map fst (g_sent (k_mem K)) = [0%N; 1000%N; 2024%N])
    && bool_decide (map (fun p => length p.2) (g_sent (k_mem K)) = [1024; 1024; 76])
    && bool_decide (Forall (true_packet (chunk_bytes ex_bytes 2100 0)) (g_sent (k_mem K)))
    && match k_thr K with [_; TWorker WSelect] => true | _ => false end) = true.
Proof. vm_compute. reflexivity. Qed.
(** the execution of the refutation: the packet has the bytes at 2024 *)
Example C111_run : on_run ex_bytes 2100 0 2 ex_mix (replicate 20 x61)
  (fun K => match g_sent (k_mem K) with
            | [_; _; p; q] => bool_decide (p = (1000%N, take 1024 (drop 1000 ex_bytes)))
                && bool_decide (q = (1000%N, take 76 (drop 2024 ex_bytes)))
            | _ => false end) = true.
Proof. vm_compute. reflexivity. Qed.

(** *** C112 (partial): requested once, at every moment at most [cap] packets more than acknowledgements *)
Theorem C112_window_partial :
  forall l cs i cap K n, (Z.of_nat cs < 4294967296)%Z -> (Z.of_nat i < 65536)%Z -> (1 <= cap < 65536)%N ->
    kexec l cs i cap K n [] -> length (g_sent (k_mem K)) <= N.to_nat cap + n.
Proof. intros l cs i cap K n H1 H2 [H3 H4]. exact (C112_one_lemma l cs i H1 H2 cap H4 K n H3). Qed.
Print Assumptions C112_window_partial.
(** (refuted): requested twice with a window of 4, two acknowledgements, 13 packets *)
Theorem C112_window_refuted : exists l cs i cap K n,
  kexec l cs i cap K n [(sha1 (chunk_bytes l cs i), Z.of_nat (length (chunk_bytes l cs i)))]
  /\ cap = 4%N /\ n = 2 /\ length (g_sent (k_mem K)) = 13.
Proof. exact C112_refuted_lemma. Qed.
Print Assumptions C112_window_refuted.

(** the bound is reached in the middle of a kick: one request, window 2 *)
Example C112_case : on_run ex_bytes 2100 0 2 [VGo 0 10 true; VAck; VGo 1 21 true] (replicate 20 x61)
  (fun K => (length (g_sent (k_mem K)) =? 3)%nat && (g_ws (k_mem K) =? 1)%N
    && match k_thr K with [_; TWorker (WInc 0)] => true | _ => false end) = true.
Proof. vm_compute. reflexivity. Qed.
(** the 13 packets: their offsets; no two are the same, all in flight but two headers *)
Example C112_run : on_run ex_long (40 * 1000) 0 4 ex_window (replicate 20 x61)
  (fun K => bool_decide (map fst (g_sent (k_mem K)) = 0%N :: 0%N :: map (fun k => (1000 + 1024 * N.of_nat k)%N) (seq 0 11))) = true.
Proof. vm_compute. reflexivity. Qed.

(** *** C113 (partial): requested once, no goroutine of the upload panics *)
Theorem C113_no_panic_partial :
  forall l cs i cap K n, (Z.of_nat cs < 4294967296)%Z -> (Z.of_nat i < 65536)%Z -> (cap < 65536)%N ->
    kexec l cs i cap K n [] -> ~ kdies l cap K.
Proof. intros l cs i cap K n H1 H2 H3. exact (C113_one_lemma l cs i H1 H2 cap H3 K n). Qed.
Print Assumptions C113_no_panic_partial.
(** (refuted): the request comes twice; the daemon dies slicing a buffer with a negative length *)
Theorem C113_daemon_dies_refuted : exists l cs i cap K n,
  kexec l cs i cap K n [(sha1 (chunk_bytes l cs i), Z.of_nat (length (chunk_bytes l cs i)))]
  /\ n <= length (g_sent (k_mem K)) /\ kdies l cap K.
Proof. exact C113_refuted_lemma. Qed.
Print Assumptions C113_daemon_dies_refuted.
(** (refuted): so can the daemon that asked, although every packet arrives, in order *)
Theorem C113_requester_dies_refuted : exists l cs i cap K n w,
  kexec l cs i cap K n [(sha1 (chunk_bytes l cs i), Z.of_nat (length (chunk_bytes l cs i)))]
  /\ n <= length (g_sent (k_mem K)) /\ recv_all new_recv (g_sent (k_mem K)) = Panic w.
Proof. exact C113_peer_refuted_lemma. Qed.
Print Assumptions C113_requester_dies_refuted.

(** the daemon dies with three packets sent; a step earlier goroutine 1 could not die *)
Example C113_case : on_run ex_bytes 2100 0 4 ex_crash (replicate 20 x61)
  (fun K => match kmove ex_bytes 4 3 true K, kmove ex_bytes 4 1 true K with Some None, Some (Some _) => true | _, _ => false end
    && (s_off (g_sec (k_mem K)) =? 3048)%Z && (s_limit (g_sec (k_mem K)) =? 2100)%Z) = true.
Proof. vm_compute. reflexivity. Qed.
(** the second packet starts at 0, so the requester takes it for a header of a chunk of size 0 *)
Example C113_run : on_run ex_zeros 4096 0 4 ex_rewound (replicate 20 x61)
  (fun K => match g_sent (k_mem K) with
            | [p; q; r] => bool_decide (q = (0%N, replicate 1024 x00)) && bool_decide (r = (1024%N, replicate 1024 x00))
            | _ => false end) = true.
Proof. vm_compute. reflexivity. Qed.
