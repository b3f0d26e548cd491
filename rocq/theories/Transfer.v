(** Model of one chunk transfer: senderConnection.go, recvConnection.go and
    downloadChunk (serverStartDownload.go:97-145). *)
From Verif Require Export Chunk Messages.

(** a DataPacket: offset and data *)
Notation packet := (N * list byte)%type.

(** ** Sender *)
(** senderConnection.go:12-20 SenderConnection together with its goroutines.
    packetChan and the goroutines of ContinueUpload that wait to put an
    acknowledgement into it are one counter: kick ignores the acknowledgement's
    contents (senderConnection.go:96), so neither their order nor the capacity of
    the channel matters to the worker.  A worker handles one acknowledgement
    atomically.  (This is exact while there is at most one worker, i.e. after one
    kickstart; two workers would race on the fields.) *)
Record sender := mkSender {
  sd_file : fobj; sd_rd : creader;
  sd_ws : N; sd_cap : N;
  sd_acks : nat;        (* acknowledgements waiting *)
  sd_tok : bool;        (* cancelChan holds its one token *)
  sd_workers : nat;     (* workers waiting at the select *)
  sd_stuck : nat }.     (* workers blocked in terminate *)

(** senderConnection.go:22-36 NewSenderConnection *)
Definition new_sender (f : fobj) (rd : creader) (cap : N) : sender :=
  mkSender f rd 0 cap 0 false 0 0.

(** senderConnection.go:41-88 kickstart; [wok] tells whether WriteTo succeeds.
    uint16 arithmetic wraps.  Result: the packet sent, or the error returned. *)
Definition kickstart (h : hash) (size : Z) (s : sender) (wok : bool) : sender * res packet :=
  let rd := cr_reset (sd_rd s) in
  let with_rd rd ws w := mkSender (sd_file s) rd ws (sd_cap s) (sd_acks s) (sd_tok s) w (sd_stuck s) in
  match cr_read (sd_file s) rd 1000 with
  | Panic p => (s, Panic p)
  | Err e => (s, Err e)
  | Ok ((d, _, e), rd') =>
      if decide (e = Some EFail) then (with_rd rd' (sd_ws s) (sd_workers s), Err "read error")
      else
        let buf := put 20 24 (be 4 (u32_of_int size)) (put 0 20 (hash_slice h) (zeros 1024)) in
        let data := take (24 + length d) (put 24 1024 d buf) in
        if wok then (with_rd rd' ((sd_ws s + 1) mod 65536)%N (S (sd_workers s)), Ok (0%N, data))
        else (with_rd rd' (sd_ws s) (sd_workers s), Err "write error")
  end.

(** senderConnection.go:102-121, the loop of kick, [n] iterations to go; [w] is the
    number of packets after which WriteTo fails, if it does.  Result: packets
    sent, number of io.EOF results (deferred terminates), the reader, and whether
    kick leaves with an error. *)
Fixpoint kick_loop (n : nat) (f : fobj) (rd : creader) (w : option nat) : list packet * nat * creader * bool :=
  match n with
  | O => ([], 0, rd, false)
  | S n' =>
      match cr_read f rd 1024 with
      | Panic _ | Err _ => ([], 0, rd, true)
      | Ok ((d, off, e), rd') =>
          if decide (e = Some EFail) then ([], 0, rd', true)
          else
            let t := if decide (e = Some EOF) then 1 else 0 in
            match w with
            | Some O => ([], t, rd', true)
            | _ =>
                let '(ps, ts, rd'', err) := kick_loop n' f rd' (option_map pred w) in
                ((off, d) :: ps, t + ts, rd'', err)
            end
      end
  end.
(** senderConnection.go:96-124 kick as called by a worker (73-85) that has taken an
    acknowledgement.  The deferred terminates (90-92, 107) run when kick leaves, also on
    errors; cancelChan has room for one token, so the second one blocks the worker
    for good.  An error makes the worker panic (line 79): [true] in the result. *)
Definition kick (s : sender) (w : option nat) : sender * list packet * bool :=
  let ws := ((sd_ws s + 65535) mod 65536)%N in
  let '(ps, ts, rd, err) := kick_loop (N.to_nat (sd_cap s - ws)) (sd_file s) (sd_rd s) w in
  let toks := (if sd_tok s then 1 else 0) + ts in
  let blocked := (1 <? toks)%nat in
  (mkSender (sd_file s) rd (ws + N.of_nat (length ps))%N (sd_cap s) (sd_acks s) (0 <? toks)%nat
     (if blocked then pred (sd_workers s) else sd_workers s)
     (if blocked then S (sd_stuck s) else sd_stuck s),
   ps, err && negb blocked).

(** what can happen to a started upload: an acknowledgement arrives
    (serverContinueUpload.go:30), a worker takes one, or a worker takes the token
    and returns (senderConnection.go:81-82) *)
Inductive sevent := SAck | SKick (w : option nat) | SCancel.
Inductive sres := SNo | SGo (s : sender) (ps : list packet) | SDead (ps : list packet).
Definition set_acks (s : sender) (n : nat) : sender :=
  mkSender (sd_file s) (sd_rd s) (sd_ws s) (sd_cap s) n (sd_tok s) (sd_workers s) (sd_stuck s).
Definition sstep (s : sender) (e : sevent) : sres :=
  match e with
  | SAck => SGo (set_acks s (S (sd_acks s))) []
  | SKick w =>
      if decide (0 < sd_workers s /\ 0 < sd_acks s) then
        let '(s', ps, dies) := kick (set_acks s (pred (sd_acks s))) w in
        if dies then SDead ps else SGo s' ps
      else SNo
  | SCancel =>
      if decide (0 < sd_workers s /\ sd_tok s = true) then
        SGo (mkSender (sd_file s) (sd_rd s) (sd_ws s) (sd_cap s) (sd_acks s) false (pred (sd_workers s)) (sd_stuck s)) []
      else SNo
  end.

(** ** Receiver *)
(** recvConnection.go:12-19 RecvConnection, the fields downloadChunk uses; the
    counter bytesReceived is never read *)
Record recv := mkRecv { rc_hash : option hash; rc_buf : list byte }.
(** recvConnection.go:42-49: nothing received yet (a nil buffer has length 0) *)
Definition new_recv : recv := mkRecv None [].
Inductive rstep :=
| RMore (r : recv)                 (* go on; an acknowledgement is sent *)
| RSave (buf : list byte) (ok : bool). (* SaveChunk(buf), done; [ok]: the hash matched *)
(** serverStartDownload.go:111-141: one packet *)
Definition recv_packet (r : recv) (p : packet) : res rstep :=
  let '(off, data) := p in
  if decide (off = 0%N) then
    let! (h, size, d) := split_packet data in
    Ok (RMore (mkRecv (Some h) (gocopy (zeros (N.to_nat size)) d)))
  else if decide (data = []) then
    match rc_hash r with
    | None => Panic "nil dereference"
    | Some h => Ok (RSave (rc_buf r) (bool_decide (from_slice zero_hash (sha1 (rc_buf r)) = h)))
    end
  else if decide ((off <= N.of_nat (length (rc_buf r)))%N) then
    let o := N.to_nat off in
    Ok (RMore (mkRecv (rc_hash r) (take o (rc_buf r) ++ gocopy (drop o (rc_buf r)) data)))
  else Panic "slice bounds out of range".
(** serverStartDownload.go:105-142: packets in the order they are received, until
    one of them ends the loop or the read times out: still waiting, or saved *)
Fixpoint recv_all (r : recv) (ps : list packet) : res rstep :=
  match ps with
  | [] => Ok (RMore r)
  | p :: ps' =>
      let! x := recv_packet r p in
      match x with
      | RMore r' => recv_all r' ps'
      | RSave buf ok => Ok (RSave buf ok)
      end
  end.
(** recvConnection.go:54-68: datagrams as they arrive, each parsed by the reading
    goroutine *)
Fixpoint parse_all (ds : list (list byte)) : res (list packet) :=
  match ds with
  | [] => Ok []
  | d :: ds' =>
      let! p := parse_data (udp_clipped 1029 d) in
      let! ps := parse_all ds' in
      Ok (p :: ps)
  end.
