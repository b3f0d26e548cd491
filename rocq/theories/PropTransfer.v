(** Properties of chunk transfers (C45-C52; C53 is in PropServer.v).
    Throughout, a file has contents [l], chunk size [cs] (a uint32), and the chunk
    transferred is number [i] (a uint16) with bytes [chunk_bytes l cs i]; [cap] is
    the receiver's window. *)
From Verif Require Import TransferProofs SenderProofs RecvProofs SysProofs ChunkProofs.

(** *** C45: whatever acknowledgements arrive, whichever writes fail, what has been
    sent is a prefix of the chunk's packet stream *)
Theorem C45_sender_follows_the_stream :
  forall l cs i cap s ps, (Z.of_nat cs < 4294967296)%Z -> (Z.of_nat i < 65536)%Z ->
    uploads l cs i cap s ps ->
    let pk := stream (sha1 (chunk_bytes l cs i)) (chunk_bytes l cs i) in
    exists m, ps = map pk (seq 0 (S m))
      /\ forall w ps', sstep s (SKick w) = SDead ps' -> exists m', ps ++ ps' = map pk (seq 0 (S m')).
Proof. intros l cs i cap s ps H1 H2 H. exact (C45_lemma l cs i H1 H2 cap s ps H). Qed.
Print Assumptions C45_sender_follows_the_stream.

(** a file of 3 bytes, window 2: header, one acknowledgement, two empty packets *)
Example C45_case :
  let l := [x61; x62; x63] in
  match new_chunk_reader 9 (FRegular l) (chunk_section 0 4096) with
  | Some rd =>
      match kickstart (cr_hash rd) (cr_size rd) (new_sender (FRegular l) rd 2) true with
      | (s, Ok p) =>
          match sstep s SAck with
          | SGo s1 _ =>
              match sstep s1 (SKick None) with
              | SGo s2 ps => bool_decide (p = (0%N, cr_hash rd ++ [x00; x00; x00; x03; x61; x62; x63]))
                  && bool_decide (ps = [(3%N, []); (3%N, [])]) && (sd_stuck s2 =? 1)%nat
              | _ => false
              end
          | _ => false
          end
      | _ => false
      end
  | None => false
  end = true.
Proof. vm_compute. reflexivity. Qed.

(** *** C46: at any time at most [cap] packets are not matched by an
    acknowledgement (so if each acknowledgement answers a different packet, at most
    [cap] are outstanding) *)
Theorem C46_window_respected :
  forall l cs i cap s ps n, (Z.of_nat cs < 4294967296)%Z -> (Z.of_nat i < 65536)%Z -> (1 <= cap < 65536)%N ->
    uploads_acked l cs i cap s ps n -> length ps <= N.to_nat cap + n.
Proof. intros l cs i cap s ps n H1 H2 H3. exact (C46_lemma l cs i H1 H2 cap H3 s ps n). Qed.
Print Assumptions C46_window_respected.
(** with a window of zero only the header is ever sent *)
Theorem C46_zero_window :
  forall l cs i s ps, (Z.of_nat cs < 4294967296)%Z -> (Z.of_nat i < 65536)%Z -> uploads l cs i 0 s ps ->
    ps = [stream (sha1 (chunk_bytes l cs i)) (chunk_bytes l cs i) 0].
Proof. intros l cs i s ps H1 H2. exact (zero_window l cs i s ps H1 H2). Qed.
Print Assumptions C46_zero_window.

(** the bound is reached: after [k] acknowledgements taken one by one, cap + k packets *)
Example C46_case : exists s ps, uploads_acked (replicate 3500 x61) 4096 0 2 s ps 2 /\ length ps = 4.
Proof.
  destruct (reached_run (replicate 3500 x61) 4096 0 ltac:(done) ltac:(done) 2 ltac:(done) 1) as (s & ps & H & _).
  { apply Nat.leb_le. vm_compute. reflexivity. }
  destruct H as (H & _ & -> & _). exists s, (map (stream (sha1 (chunk_bytes (replicate 3500 x61) 4096 0)) (chunk_bytes (replicate 3500 x61) 4096 0)) (seq 0 (N.to_nat 2 + 2))).
  split; [exact H|]. rewrite map_length, seq_length. reflexivity.
Qed.

(** *** C47 (refuted): a chunk that stops short of the chunk size inside a packet
    and does not fit in the window: the worker may take its cancellation token
    before sending the end packet.  All packets sent are acknowledged, no worker is
    left, and packet [first_empty] was not sent. *)
Theorem C47_end_packet_skipped_refuted :
  forall l cs i cap, (Z.of_nat cs < 4294967296)%Z -> (Z.of_nat i < 65536)%Z -> (1 <= cap < 65536)%N ->
    ragged cs (chunk_bytes l cs i) -> N.to_nat cap < first_empty (chunk_bytes l cs i) ->
    exists s ps n, uploads_acked l cs i cap s ps n /\ quiet s /\ n = length ps
      /\ length ps = first_empty (chunk_bytes l cs i).
Proof. intros l cs i cap H1 H2 H3. exact (C47_refuted_lemma l cs i H1 H2 cap H3). Qed.
Print Assumptions C47_end_packet_skipped_refuted.
(** with the protocol's window of 1024 and chunk size of 4 MiB: every last chunk
    longer than 1048552 bytes whose length minus 1000 is not a multiple of 1024 *)
Theorem C47_end_packet_skipped_in_practice_refuted :
  forall l cs i, Z.of_nat cs = 4194304%Z -> (Z.of_nat i < 65536)%Z ->
    (1048552 < Z.of_nat (length (chunk_bytes l cs i)) < 4194304)%Z ->
    ((Z.of_nat (length (chunk_bytes l cs i)) - 1000) mod 1024 <> 0)%Z ->
    exists s ps n, uploads_acked l cs i 1024 s ps n /\ quiet s /\ n = length ps
      /\ length ps = first_empty (chunk_bytes l cs i).
Proof.
  intros l cs i H1 H2 H3 H4. apply C47_end_packet_skipped_refuted; [lia|done|done| |].
  - apply ragged_Z; lia.
  - apply first_empty_Z. lia.
Qed.
Print Assumptions C47_end_packet_skipped_in_practice_refuted.
(** otherwise the end packet has been sent once all packets are acknowledged and
    the workers have nothing left to do *)
Theorem C47_end_packet_sent_partial :
  forall l cs i cap s ps n, (Z.of_nat cs < 4294967296)%Z -> (Z.of_nat i < 65536)%Z -> (1 <= cap < 65536)%N ->
    ~ ragged cs (chunk_bytes l cs i) \/ first_empty (chunk_bytes l cs i) <= N.to_nat cap ->
    uploads_acked l cs i cap s ps n -> quiet s -> length ps <= n ->
    first_empty (chunk_bytes l cs i) < length ps.
Proof. intros l cs i cap s ps n H1 H2 H3. exact (C47_lemma l cs i H1 H2 cap H3 s ps n). Qed.
Print Assumptions C47_end_packet_sent_partial.
(** and the workers do get there: each of their steps uses up something *)
Theorem C47_workers_settle :
  forall s e s' ps, e <> SAck -> sstep s e = SGo s' ps ->
    sd_acks s' + sd_workers s' < sd_acks s + sd_workers s.
Proof. exact work_ends. Qed.
Print Assumptions C47_workers_settle.

(** 1001 bytes, window 1: header and one byte are sent, then nothing *)
Example C47_case : exists s ps n, uploads_acked (replicate 1001 x61) 4096 0 1 s ps n /\ quiet s /\ n = length ps /\ length ps = 2.
Proof.
  assert (length (chunk_bytes (replicate 1001 x61) 4096 0) = 1001) as Hl by (vm_compute; reflexivity).
  destruct (C47_end_packet_skipped_refuted (replicate 1001 x61) 4096 0 1) as (s & ps & n & H1 & H2 & H3 & H4).
  - done.
  - done.
  - done.
  - unfold ragged. rewrite Hl. split; [split; apply Nat.ltb_lt; vm_compute; reflexivity|vm_compute; done].
  - unfold first_empty. rewrite Hl. apply Nat.ltb_lt. vm_compute. reflexivity.
  - exists s, ps, n. unfold first_empty in H4. rewrite Hl in H4. replace (S ((1001 - 1000 + 1023) / 1024)) with 2 in H4 by (vm_compute; reflexivity). done.
Qed.

(** *** C48 (refuted): for every chunk and window there is an execution in which
    the worker blocks for ever; if the window exceeds the stream, it always does *)
Theorem C48_worker_may_block_refuted :
  forall l cs i cap, (Z.of_nat cs < 4294967296)%Z -> (Z.of_nat i < 65536)%Z -> (1 <= cap < 65536)%N ->
    exists s ps n, uploads_acked l cs i cap s ps n /\ n <= length ps /\ sd_workers s = 0 /\ sd_stuck s = 1.
Proof. intros l cs i cap H1 H2 H3. exact (blocks_lemma l cs i H1 H2 cap H3). Qed.
Print Assumptions C48_worker_may_block_refuted.
Theorem C48_worker_always_blocks_refuted :
  forall l cs i cap s ps n, (Z.of_nat cs < 4294967296)%Z -> (Z.of_nat i < 65536)%Z -> (1 <= cap < 65536)%N ->
    first_eof cs (chunk_bytes l cs i) < N.to_nat cap ->
    uploads_acked l cs i cap s ps n -> quiet s -> 1 <= n ->
    sd_workers s = 0 /\ sd_stuck s = 1.
Proof. intros l cs i cap s ps n H1 H2 H3 H4. exact (always_blocks_lemma l cs i H1 H2 cap H3 s ps n H4). Qed.
Print Assumptions C48_worker_always_blocks_refuted.
Theorem C48_blocked_for_ever :
  forall s e s' ps, sd_workers s = 0 -> sstep s e = SGo s' ps ->
    ps = [] /\ sd_workers s' = 0 /\ sd_stuck s' = sd_stuck s.
Proof. exact stuck_forever. Qed.
Print Assumptions C48_blocked_for_ever.
(** exactly when it exits: having sent one packet whose read reported the end of
    the file, and no more; this can happen whenever the window is small enough *)
Theorem C48_worker_exit_partial :
  forall l cs i cap, (Z.of_nat cs < 4294967296)%Z -> (Z.of_nat i < 65536)%Z -> (1 <= cap < 65536)%N ->
    let E := first_eof cs (chunk_bytes l cs i) in
    (forall s ps n, uploads_acked l cs i cap s ps n -> quiet s -> length ps <= n ->
      sd_workers s = 0 /\ (sd_stuck s = 0 /\ length ps = S E \/ sd_stuck s = 1 /\ S E < length ps))
    /\ (N.to_nat cap <= E -> exists s ps n, uploads_acked l cs i cap s ps n /\ quiet s /\ n = length ps
          /\ length ps = S E /\ sd_stuck s = 0).
Proof.
  intros l cs i cap H1 H2 H3. split.
  - intros s ps n Ha Hq Hn. destruct (settled l cs i H1 H2 cap H3 s ps n Ha Hq Hn) as (Hw & _ & Hs). exact (conj Hw Hs).
  - exact (exits_lemma l cs i H1 H2 cap H3).
Qed.
Print Assumptions C48_worker_exit_partial.
(** see C45_case: sd_stuck is 1 after the first acknowledgement *)
Example C48_case :
  first_eof 4096 (chunk_bytes [x61; x62; x63] 4096 0) = 1 /\ first_eof 4096 (chunk_bytes (replicate 1001 x61) 4096 0) = 1
  /\ first_eof 1001 (chunk_bytes (replicate 1001 x61) 1001 0) = 2.
Proof. vm_compute. done. Qed.

(** *** C49: the receiver given the header and then any data packets of the chunk,
    in any order, with repetitions and losses; it saves at the first end packet *)
Theorem C49_receiver_assembles :
  forall h bytes ks, hash_wf h -> (Z.of_nat (length bytes) < 4294967296)%Z -> bytes <> [] ->
    Forall (fun k => 1 <= k < first_empty bytes) ks ->
    exists buf, recv_all new_recv (map (stream h bytes) (0 :: ks)) = Ok (RMore (mkRecv (Some h) buf))
      /\ assembled bytes (0 :: ks) buf
      /\ forall k rest, first_empty bytes <= k ->
           recv_all new_recv (map (stream h bytes) (0 :: ks) ++ stream h bytes k :: rest)
           = Ok (RSave buf (bool_decide (sha1 buf = h))).
Proof. intros h bytes ks H1 H2 H3 H4. exact (C49_lemma h bytes H1 H2 ks H3 H4). Qed.
Print Assumptions C49_receiver_assembles.
(** nothing missing: the chunk itself *)
Theorem C49_complete :
  forall bytes ks buf, (forall k, k < first_empty bytes -> k ∈ ks) -> assembled bytes ks buf -> buf = bytes.
Proof. exact assembled_full. Qed.
Print Assumptions C49_complete.
(** packets survive the wire: serialised, received into the 1029-byte buffer, parsed *)
Theorem C49_wire :
  forall h bytes ks, hash_wf h -> (Z.of_nat (length bytes) < 4294967296)%Z ->
    parse_all (map wire (map (stream h bytes) ks)) = Ok (map (stream h bytes) ks).
Proof. intros h bytes ks H1 H2. exact (wire_ok h bytes H1 H2 ks). Qed.
Print Assumptions C49_wire.

(** 3000 bytes, packet 1 lost, packet 2 received twice *)
Example C49_case :
  let bytes := replicate 3000 x61 in
  match recv_all new_recv (map (stream zero_hash bytes) [0; 2; 2; 3]) with
  | Ok (RSave buf _) => bool_decide (buf = replicate 1000 x61 ++ replicate 1024 x00 ++ replicate 976 x61)
  | _ => false
  end = true.
Proof. vm_compute. reflexivity. Qed.

(** *** C50: over channels that lose nothing and keep the order, every execution,
    also with the receiver giving up at any point, saves the right chunk or
    nothing, and nobody crashes *)
Theorem C50_only_the_chunk_is_saved :
  forall l cs i cap a b, (Z.of_nat cs < 4294967296)%Z -> (Z.of_nat i < 65536)%Z -> (1 <= cap < 65536)%N ->
    chunk_bytes l cs i <> [] -> ystart l cs i cap a -> rtc ystep_t a b ->
    (forall buf ok, y_recv b = RDone buf ok -> buf = chunk_bytes l cs i /\ ok = true) /\ y_recv b <> RCrash.
Proof. intros l cs i cap a b H1 H2 H3 H4. exact (safe_lemma l cs i H1 H2 cap H3 H4 a b). Qed.
Print Assumptions C50_only_the_chunk_is_saved.
(** every execution ends, after a bounded number of steps *)
Theorem C50_transfer_ends :
  forall l cs i cap a b k, (Z.of_nat cs < 4294967296)%Z -> (Z.of_nat i < 65536)%Z -> (1 <= cap < 65536)%N ->
    chunk_bytes l cs i <> [] -> ystart l cs i cap a -> nsteps ystep k a b ->
    k <= 3 * first_empty (chunk_bytes l cs i) + 4.
Proof. intros l cs i cap a b k H1 H2 H3 H4. exact (bounded_lemma l cs i H1 H2 cap H3 H4 a b k). Qed.
Print Assumptions C50_transfer_ends.
(** and at the end the chunk is saved, except for chunks of C47 *)
Theorem C50_chunk_delivered_partial :
  forall l cs i cap a b, (Z.of_nat cs < 4294967296)%Z -> (Z.of_nat i < 65536)%Z -> (1 <= cap < 65536)%N ->
    chunk_bytes l cs i <> [] ->
    ~ ragged cs (chunk_bytes l cs i) \/ first_empty (chunk_bytes l cs i) <= N.to_nat cap ->
    ystart l cs i cap a -> rtc ystep a b -> (forall c, ~ ystep b c) ->
    y_recv b = RDone (chunk_bytes l cs i) true.
Proof. intros l cs i cap a b H1 H2 H3 H4. exact (live_lemma l cs i H1 H2 cap H3 H4 a b). Qed.
Print Assumptions C50_chunk_delivered_partial.
(** for those the transfer can stop with the receiver still waiting *)
Theorem C50_chunk_not_delivered_refuted :
  forall l cs i cap, (Z.of_nat cs < 4294967296)%Z -> (Z.of_nat i < 65536)%Z -> (1 <= cap < 65536)%N ->
    chunk_bytes l cs i <> [] ->
    ragged cs (chunk_bytes l cs i) -> N.to_nat cap < first_empty (chunk_bytes l cs i) ->
    exists a b, ystart l cs i cap a /\ rtc ystep a b /\ (forall c, ~ ystep b c) /\ exists r, y_recv b = RRun r.
Proof. intros l cs i cap H1 H2 H3 H4. exact (lost_lemma l cs i H1 H2 cap H3 H4). Qed.
Print Assumptions C50_chunk_not_delivered_refuted.

(** a transfer can start *)
Example C50_case : exists a, ystart [x61; x62; x63] 4096 0 1024 a.
Proof. apply start_exists; done. Qed.

(** *** C51 (refuted): the hash check only prints; whatever is assembled is saved *)
Theorem C51_mismatch_saved_refuted :
  forall h buf, hash_wf h -> 0 < length buf <= 1000 ->
    recv_all new_recv [(0%N, h ++ be 4 (N.of_nat (length buf)) ++ buf); (N.of_nat (length buf), [])]
    = Ok (RSave buf (bool_decide (sha1 buf = h))).
Proof. exact C51_lemma. Qed.
Print Assumptions C51_mismatch_saved_refuted.
(** What is saved, for any packets: what the packets since the last announcement say, of
    the announced length.  A mismatch with the announced hash is always noticed
    and reported. *)
Theorem C51_noticed_partial :
  forall ps buf ok, recv_all new_recv ps = Ok (RSave buf ok) ->
    exists mid e rest h, ps = mid ++ e :: rest /\ end_packet e /\ Forall (fun p => ~ end_packet p) mid /\ told mid h buf
      /\ ok = bool_decide (sha1 buf = h).
Proof. exact C51_noticed_lemma. Qed.
Print Assumptions C51_noticed_partial.
(** a second announcement, then two packets of which the second wins in part *)
Example C51_run :
  recv_all new_recv [(0%N, zero_hash ++ be 4 1 ++ [x61]); (0%N, zero_hash ++ be 4 6 ++ [x62; x63]); (2%N, [x64; x65; x66]); (3%N, [x67]); (9%N, [])]
  = Ok (RSave [x62; x63; x64; x67; x66; x00] false).
Proof. vm_compute. reflexivity. Qed.
Example C51_case :
  recv_all new_recv [(0%N, zero_hash ++ be 4 1 ++ [x61]); (1%N, [])] = Ok (RSave [x61] false).
Proof. vm_compute. reflexivity. Qed.

(** *** C52 (refuted): exactly the datagram sequences that crash the daemon.  The
    reading goroutine panics on a datagram of fewer than 5 bytes; downloadChunk
    panics on the first packet that is [bad] for the size announced so far, unless
    an end packet comes first. *)
Theorem C52_short_datagram_crashes_refuted :
  forall ds, is_panic (parse_all ds) <-> Exists (fun d => length d < 5) ds.
Proof. exact C52_parse_lemma. Qed.
Print Assumptions C52_short_datagram_crashes_refuted.
Theorem C52_bad_packet_crashes_refuted :
  forall ps, is_panic (recv_all new_recv ps) <->
    exists pre p post, ps = pre ++ p :: post /\ Forall (fun q => ~ end_packet q) pre /\ bad (announced pre) p.
Proof. exact C52_lemma. Qed.
Print Assumptions C52_bad_packet_crashes_refuted.
Example C52_case :
  is_panic (parse_all [[]]) /\ is_panic (recv_all new_recv [(5%N, [])]) /\ is_panic (recv_all new_recv [(0%N, [x00])])
  /\ is_panic (recv_all new_recv [(0%N, zero_hash ++ be 4 1 ++ [x61]); (2%N, [x62])]).
Proof. repeat split; eexists; vm_compute; reflexivity. Qed.
