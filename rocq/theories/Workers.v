(** Model of one upload served by several goroutines at once: every request from the
    same address and port runs kickstart on the same SenderConnection and starts one more
    worker (serverStartUpload.go:42-46, senderConnection.go:41-88), and nothing locks its
    fields.  Here every access to windowSize, to the position of the reader and to the
    channels is a step of its own.  Simplified: the file is a regular file that does not
    change, WriteTo succeeds, an access is atomic and all goroutines see accesses in one order;
    packetChan and the handlers that wait to put an acknowledgement into it are one
    counter, as in Transfer.v. *)
From Verif Require Export Transfer.

(** the fields of SenderConnection that change (senderConnection.go:12-20; [g_sec] is
    reader.Reader), and what has been sent *)
Record wmem := mkWm { g_sec : section; g_ws : N; g_acks : nat; g_tok : bool; g_sent : list packet }.
Definition set_sec (m : wmem) (s : section) : wmem := mkWm s (g_ws m) (g_acks m) (g_tok m) (g_sent m).
Definition set_ws (m : wmem) (w : N) : wmem := mkWm (g_sec m) w (g_acks m) (g_tok m) (g_sent m).
Definition set_ack (m : wmem) (a : nat) : wmem := mkWm (g_sec m) (g_ws m) a (g_tok m) (g_sent m).
Definition set_tok (m : wmem) (b : bool) : wmem := mkWm (g_sec m) (g_ws m) (g_acks m) b (g_sent m).
Definition add_sent (m : wmem) (p : packet) : wmem := mkWm (g_sec m) (g_ws m) (g_acks m) (g_tok m) (g_sent m ++ [p]).

(** where a call of ChunkReader.Read is: chunkReader.go:35-39 and SectionReader.Read of Go 1.17 *)
Inductive rpc :=
| RdOffset                                              (* chunkReader.go:36 *)
| RdLimit (o : N)                                       (* if s.off >= s.limit *)
| RdClip (o : N)                                        (* max := s.limit - s.off *)
| RdAt (o : N) (n : nat)                                (* s.r.ReadAt(p, s.off), len(p) = n *)
| RdLoad (o : N) (d : list byte) (e : option rerr)      (* s.off += int64(n), reading s.off *)
| RdStore (o : N) (d : list byte) (e : option rerr) (x : Z).  (* and storing x *)
(** chunkReader.go:35-39: one step of Read into a buffer of [n] bytes; [None]: a panic *)
Definition rnext (l : list byte) (n : nat) (s : section) (p : rpc) : option (section * (rpc + (N * list byte * option rerr))) :=
  match p with
  | RdOffset =>
      let o := (s_off s - s_base s)%Z in
      if (4294967295 <? o)%Z then None else Some (s, inl (RdLimit (u32_of_int o)))
  | RdLimit o => Some (s, if (s_limit s <=? s_off s)%Z then inr (o, [], Some EOF) else inl (RdClip o))
  | RdClip o =>
      let max := (s_limit s - s_off s)%Z in
      if (max <? Z.of_nat n)%Z
      then if (max <? 0)%Z then None (* p[0:max] *) else Some (s, inl (RdAt o (Z.to_nat max)))
      else Some (s, inl (RdAt o n))
  | RdAt o k => let '(d, e) := read_at (FRegular l) k (s_off s) in Some (s, inl (RdLoad o d e))
  | RdLoad o d e => Some (s, inl (RdStore o d e (s_off s + Z.of_nat (length d))%Z))
  | RdStore o d e x => Some (mkSection (s_base s) x (s_limit s), inr (o, d, e))
  end.

(** where a handler in kickstart is *)
Inductive hpc :=
| HReset              (* senderConnection.go:45, chunkReader.go:42 *)
| HRead (p : rpc)     (* line 56 *)
| HSend (d : list byte)  (* line 66 *)
| HInc                (* line 71, reading windowSize *)
| HIncS (v : N)       (* and storing it *)
| HEnd.               (* line 87 *)
(** where a worker is; [t] counts the deferred calls of terminate (line 107) *)
Inductive wkpc :=
| WSelect             (* senderConnection.go:75 *)
| WDec                (* line 97, reading windowSize *)
| WDecS (v : N)       (* and storing it *)
| WTest (t : nat)     (* line 102 *)
| WRead (t : nat) (p : rpc)  (* line 104 *)
| WSend (t : nat) (o : N) (d : list byte)  (* line 115 *)
| WInc (t : nat)      (* line 120, reading windowSize *)
| WIncS (t : nat) (v : N)    (* and storing it *)
| WTerm (t : nat)     (* lines 123, 90-92 *)
| WEnd.               (* line 82 *)
(** a handler with the hash and size of the chunk it was asked for (serverStartUpload.go:46), or a worker *)
Inductive wthread := THandler (h : hash) (size : Z) (p : hpc) | TWorker (p : wkpc).

(** senderConnection.go:47-64: the data of the first packet *)
Definition first_data (h : hash) (size : Z) (d : list byte) : list byte :=
  take (24 + length d) (put 24 1024 d (put 20 24 (be 4 (u32_of_int size)) (put 0 20 (hash_slice h) (zeros 1024)))).
(** senderConnection.go:41-88 kickstart: one step; the last component is what is started.
    Line 48 of chunkReader.go reads the position again; its result is not used. *)
Definition hnext (l : list byte) (h : hash) (size : Z) (m : wmem) (p : hpc) : option (option (wmem * hpc * list wthread)) :=
  match p with
  | HReset => Some (Some (set_sec m (sec_rewind (g_sec m)), HRead RdOffset, []))
  | HRead r =>
      Some match rnext l 1000 (g_sec m) r with
           | None => None
           | Some (s, inl r') => Some (set_sec m s, HRead r', [])
           | Some (s, inr (_, d, e)) =>
               Some (set_sec m s, if decide (e = Some EFail) then HEnd else HSend d, [])
           end
  | HSend d => Some (Some (add_sent m (0%N, first_data h size d), HInc, []))
  | HInc => Some (Some (m, HIncS ((g_ws m + 1) mod 65536)%N, []))
  | HIncS v => Some (Some (set_ws m v, HEnd, [TWorker WSelect]))
  | HEnd => None
  end.
(** senderConnection.go:73-85, 90-124, the worker: one step; [b]: which case of the select is
    taken.  [None]: it waits, or has returned; [Some None]: the process dies. *)
Definition wnext (l : list byte) (cap : N) (b : bool) (m : wmem) (p : wkpc) : option (option (wmem * wkpc)) :=
  match p with
  | WSelect =>
      if b then match g_acks m with S a => Some (Some (set_ack m a, WDec)) | O => None end
      else if g_tok m then Some (Some (set_tok m false, WEnd)) else None
  | WDec => Some (Some (m, WDecS ((g_ws m + 65535) mod 65536)%N))
  | WDecS v => Some (Some (set_ws m v, WTest 0))
  | WTest t => Some (Some (m, if (g_ws m <? cap)%N then WRead t RdOffset else WTerm t))
  | WRead t r =>
      Some match rnext l 1024 (g_sec m) r with
           | None => None
           | Some (s, inl r') => Some (set_sec m s, WRead t r')
           | Some (s, inr (o, d, e)) =>
               match e with
               | None => Some (set_sec m s, WSend t o d)
               | Some EOF => Some (set_sec m s, WSend (S t) o d)
               | Some EFail => None  (* line 79 *)
               end
           end
  | WSend t o d => Some (Some (add_sent m (o, d), WInc t))
  | WInc t => Some (Some (m, WIncS t ((g_ws m + 1) mod 65536)%N))
  | WIncS t v => Some (Some (set_ws m v, WTest t))
  | WTerm O => Some (Some (m, WSelect))
  | WTerm (S t) => if g_tok m then None else Some (Some (set_tok m true, WTerm t))
  | WEnd => None
  end.
(** one step of a goroutine of senderConnection.go *)
Definition tmove (l : list byte) (cap : N) (b : bool) (m : wmem) (t : wthread) : option (option (wmem * wthread * list wthread)) :=
  match t with
  | THandler h size p =>
      match hnext l h size m p with
      | None => None | Some None => Some None
      | Some (Some (m', p', ts)) => Some (Some (m', THandler h size p', ts))
      end
  | TWorker p =>
      match wnext l cap b m p with
      | None => None | Some None => Some None
      | Some (Some (m', p')) => Some (Some (m', TWorker p', []))
      end
  end.
(** the upload and all goroutines that have worked on it *)
Record kstate := mkK { k_mem : wmem; k_thr : list wthread }.
(** the next step of goroutine [j] (senderConnection.go:41-124) *)
Definition kmove (l : list byte) (cap : N) (j : nat) (b : bool) (K : kstate) : option (option kstate) :=
  match k_thr K !! j with
  | None => None
  | Some t =>
      match tmove l cap b (k_mem K) t with
      | None => None | Some None => Some None
      | Some (Some (m', t', ts)) => Some (Some (mkK m' (<[j := t']> (k_thr K) ++ ts)))
      end
  end.
(** serverStartUpload.go:43-46: the handler of the first request, with its reader, is about
    to call kickstart on the connection it made *)
Definition kstart (rd : creader) : kstate :=
  mkK (mkWm (cr_sec rd) 0 0 false []) [THandler (cr_hash rd) (cr_size rd) HReset].
(** serverContinueUpload.go:30: an acknowledgement *)
Definition kack (K : kstate) : kstate := mkK (set_ack (k_mem K) (S (g_acks (k_mem K)))) (k_thr K).
(** serverStartUpload.go:46: a further request, for a chunk with hash [h] and size [size] *)
Definition krequest (K : kstate) (h : hash) (size : Z) : kstate := mkK (k_mem K) (k_thr K ++ [THandler h size HReset]).
