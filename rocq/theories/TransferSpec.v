(** Specification vocabulary for chunk transfers. *)
From Verif Require Export Transfer ChunkSpec.

(** The fixed sequence of packets that carries a chunk: packet 0 is the header,
    then 1024 bytes at a time, then empty packets for ever. *)
Definition stream_pos (bytes : list byte) (k : nat) : nat := Nat.min (1000 + 1024 * k) (length bytes).
Definition stream (h : hash) (bytes : list byte) (k : nat) : packet :=
  match k with
  | O => (0%N, h ++ be 4 (N.of_nat (length bytes)) ++ take 1000 bytes)
  | S j => let o := stream_pos bytes j in (N.of_nat o, take 1024 (drop o bytes))
  end.
(** the number of the first empty packet *)
Definition first_empty (bytes : list byte) : nat := S ((length bytes - 1000 + 1023) / 1024).
(** the chunk stops short of the chunk size in the middle of a packet (so that
    reading it reports the end of the file together with the last bytes) *)
Definition ragged (cs : nat) (bytes : list byte) : Prop :=
  1000 < length bytes < cs /\ (length bytes - 1000) mod 1024 <> 0.
Global Instance ragged_dec cs bytes : Decision (ragged cs bytes).
Proof. unfold ragged. apply _. Defined.

(** the number of the first packet whose read reports the end of the file: the
    last data packet if that stops short, else the first empty packet *)
Definition first_eof (cs : nat) (bytes : list byte) : nat :=
  if decide (ragged cs bytes) then first_empty bytes - 1 else first_empty bytes.

(** ** One upload: all executions *)
(** [uploads l cs i cap s ps]: an upload of chunk [i] of a file [l] (chunk size
    [cs]) to a receiver with window [cap] is in state [s], having sent [ps] *)
Inductive uploads (l : list byte) (cs i : nat) (cap : N) : sender -> list packet -> Prop :=
| up_start fuel rd s p : new_chunk_reader fuel (FRegular l) (chunk_section (Z.of_nat i) (Z.of_nat cs)) = Some rd ->
    kickstart (cr_hash rd) (cr_size rd) (new_sender (FRegular l) rd cap) true = (s, Ok p) ->
    uploads l cs i cap s [p]
| up_step s ps e s' ps' : uploads l cs i cap s ps -> sstep s e = SGo s' ps' -> uploads l cs i cap s' (ps ++ ps').
(** no step of a worker is possible any more *)
Definition quiet (s : sender) : Prop := forall w, sstep s (SKick w) = SNo /\ sstep s SCancel = SNo.
(** the same without failing writes, counting the acknowledgements that arrived *)
Inductive uploads_acked (l : list byte) (cs i : nat) (cap : N) : sender -> list packet -> nat -> Prop :=
| ua_start fuel rd s p : new_chunk_reader fuel (FRegular l) (chunk_section (Z.of_nat i) (Z.of_nat cs)) = Some rd ->
    kickstart (cr_hash rd) (cr_size rd) (new_sender (FRegular l) rd cap) true = (s, Ok p) ->
    uploads_acked l cs i cap s [p] 0
| ua_ack s ps n s' : uploads_acked l cs i cap s ps n -> sstep s SAck = SGo s' [] -> uploads_acked l cs i cap s' ps (S n)
| ua_work s ps n e s' ps' : uploads_acked l cs i cap s ps n -> e = SKick None \/ e = SCancel -> sstep s e = SGo s' ps' ->
    uploads_acked l cs i cap s' (ps ++ ps') n.

(** ** Receiving *)
(** byte [b] of the chunk is in packet [k] *)
Definition covers (bytes : list byte) (k b : nat) : Prop :=
  b < length bytes /\
  match k with O => b < 1000 | S j => stream_pos bytes j <= b < stream_pos bytes j + 1024 end.
Global Instance covers_dec bytes k b : Decision (covers bytes k b).
Proof. unfold covers. destruct k; apply _. Defined.

(** ** A whole transfer over channels that deliver in order and lose nothing *)
Inductive rstate := RRun (r : recv) | RDone (buf : list byte) (ok : bool) | RTimeout | RCrash.
Record sys := mkSys { y_sender : sender; y_data : list packet; y_ups : nat; y_recv : rstate }.
Inductive ystep : sys -> sys -> Prop :=
(** a worker of the sender acts *)
| ys_work s e s' ps d u r : e = SKick None \/ e = SCancel -> sstep s e = SGo s' ps ->
    ystep (mkSys s d u r) (mkSys s' (d ++ ps) u r)
(** an acknowledgement arrives *)
| ys_ack s s' d u r : sstep s SAck = SGo s' [] -> ystep (mkSys s d (S u) r) (mkSys s' d u r)
(** the receiver takes the next packet *)
| ys_more s p d u r r' : recv_packet r p = Ok (RMore r') ->
    ystep (mkSys s (p :: d) u (RRun r)) (mkSys s d (S u) (RRun r'))
| ys_save s p d u r buf ok : recv_packet r p = Ok (RSave buf ok) ->
    ystep (mkSys s (p :: d) u (RRun r)) (mkSys s d u (RDone buf ok))
| ys_crash s p d u r w : recv_packet r p = Panic w ->
    ystep (mkSys s (p :: d) u (RRun r)) (mkSys s d u RCrash).
(** the same, and the receiver may give up at any time *)
Inductive ystep_t : sys -> sys -> Prop :=
| yt_step a b : ystep a b -> ystep_t a b
| yt_timeout s d u r : ystep_t (mkSys s d u (RRun r)) (mkSys s d u RTimeout).
(** the sender has just sent the header *)
Definition ystart (l : list byte) (cs i : nat) (cap : N) (a : sys) : Prop :=
  exists fuel rd s p, new_chunk_reader fuel (FRegular l) (chunk_section (Z.of_nat i) (Z.of_nat cs)) = Some rd
    /\ kickstart (cr_hash rd) (cr_size rd) (new_sender (FRegular l) rd cap) true = (s, Ok p)
    /\ a = mkSys s [p] 0 (RRun new_recv).
(** a packet as a datagram *)
Definition wire (p : packet) : list byte := serialize (Data p.1 p.2).

(** ** What the receiver holds *)
(** the chunk at every byte some packet of [ks] carries, zero elsewhere *)
Definition assembled (bytes : list byte) (ks : list nat) (buf : list byte) : Prop :=
  length buf = length bytes /\
  forall b, b < length bytes ->
    buf !! b = if decide (Exists (fun k => covers bytes k b) ks) then bytes !! b else Some x00.

(** ** Packets that crash the receiver *)
Definition end_packet (p : packet) : Prop := p.1 <> 0%N /\ p.2 = [].
(** the size announced by the last header among [ps] *)
Fixpoint announced (ps : list packet) : option N :=
  match ps with
  | [] => None
  | p :: ps' =>
      match announced ps' with
      | Some n => Some n
      | None => if decide (p.1 = 0%N) then Some (unbe (take 4 (drop 20 p.2))) else None
      end
  end.
(** [bad size p]: a header that is too short; an end packet or data before any
    header; data beyond the announced size *)
Definition bad (size : option N) (p : packet) : Prop :=
  if decide (p.1 = 0%N) then length p.2 < 24
  else match size with
  | None => True
  | Some n => p.2 <> [] /\ (n < p.1)%N
  end.

(** ** Packets from anybody *)
(** what packet [p] says about byte [b] of the chunk; the first packet (offset 0) begins
    with 20 bytes of hash and 4 bytes of size *)
Definition says_byte (p : packet) (b : nat) : option byte :=
  if decide (p.1 = 0%N) then p.2 !! (24 + b)
  else if decide (N.to_nat p.1 <= b) then p.2 !! (b - N.to_nat p.1) else None.
(** the last one that says something counts; zero otherwise *)
Definition told_byte (ps : list packet) (b : nat) : byte := default x00 (last (omap (fun p => says_byte p b) ps)).
(** [ps] announced [h] and [size] last, and [buf] is what the packets since then say *)
Definition told (ps : list packet) (h : hash) (buf : list byte) : Prop :=
  exists pre d post, let hdr := (0%N, h ++ be 4 (N.of_nat (length buf)) ++ d) in
    ps = pre ++ hdr :: post /\ length h = 20 /\ (N.of_nat (length buf) < 4294967296)%N
    /\ Forall (fun p => p.1 <> 0%N) post
    /\ forall b, b < length buf -> buf !! b = Some (told_byte (hdr :: post) b).
