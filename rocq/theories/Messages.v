(** Model of flu/messages: the message types, their wire format and the parser. *)
From Verif Require Export GoBase Hash.

(** A flu message (the structs of flu/messages).  Integers are natural numbers
    whose width is recorded by [msg_typed]; Go pointers to hashes are the hashes
    (no caller in /repo passes a nil hash). *)
Record lfentry := mkEntry {          (* msgListFiles.go:44-52 ListFilesEntry *)
  e_size : N;                        (* SizeInBytes uint64 *)
  e_count : N;                       (* ChunkCount uint32 *)
  e_chunk : N;                       (* ChunkSizeInBytes uint32 *)
  e_down : N;                        (* ChunksDownloaded uint32 *)
  e_hash : hash;
  e_name : list byte }.              (* FileName string *)

Inductive message :=
| DiscReq (reqid : N) (h : hash) (chunks : list N)                     (* msgDiscoverHosts.go:11-22 *)
| DiscResp (addr : list byte) (port : N) (reqid : N) (chunks : list N) (* msgDiscoverHosts.go:62-67 *)
| ListReq (reqid : N) (h : hash)                                       (* msgListFiles.go:11-15 *)
| ListResp (reqid : N) (files : list lfentry)                          (* msgListFiles.go:70-73 *)
| OpenReq (h : hash) (chunk : N) (cap : N)                             (* msgConnection.go:9-13 *)
| Data (offset : N) (data : list byte)                                 (* msgDataPacket.go:18-21 *)
| Ack (offset : N).                                                    (* msgDataPacket.go:67-69 *)

(** What Go's types guarantee about every message value. *)
Definition u16 (n : N) : Prop := (n < 65536)%N.
Definition u32 (n : N) : Prop := (n < 4294967296)%N.
Definition u64 (n : N) : Prop := (n < 18446744073709551616)%N.
Definition entry_typed (e : lfentry) : Prop :=
  u64 (e_size e) /\ u32 (e_count e) /\ u32 (e_chunk e) /\ u32 (e_down e) /\ hash_wf (e_hash e).
Definition msg_typed (m : message) : Prop :=
  match m with
  | DiscReq r h cs => u16 r /\ hash_wf h /\ Forall u16 cs
  | DiscResp a p r cs => length a = 4 /\ u16 p /\ u16 r /\ Forall u16 cs
  | ListReq r h => u16 r /\ hash_wf h
  | ListResp r fs => u16 r /\ Forall entry_typed fs
  | OpenReq h c w => hash_wf h /\ u16 c /\ u16 w
  | Data o d => u32 o
  | Ack o => u32 o
  end.

(** messageTypes.go:10-16 and the Type() methods (msgDiscoverHosts.go:52-54,
    100-102, msgListFiles.go:34-36,76-78, msgConnection.go:34-36,
    msgDataPacket.go:24-26,83-85) *)
Definition msg_type (m : message) : N :=
  match m with
  | DiscReq _ _ _ => 0 | DiscResp _ _ _ _ => 1 | ListReq _ _ => 2 | ListResp _ _ => 3
  | OpenReq _ _ _ => 4 | Data _ _ => 5 | Ack _ => 6
  end.
(** The ResponseType() methods: msgDiscoverHosts.go:57-59 (DiscoverHostRequest),
    msgListFiles.go:39-41 (ListFilesRequest), msgConnection.go:39-41. *)
Definition response_type_disc : N := 1.
Definition response_type_list : N := 3.
Definition response_type_open : N := 5.

(** [copy(l[a:b], src)] and [binary.BigEndian.PutUintK(l[a:b], _)] (the latter
    writes K/8 bytes at the start of the sub-slice, which every caller makes long
    enough): [put a b src l] is [l] afterwards. *)
Definition put (a b : nat) (src : list byte) (l : list byte) : list byte :=
  take a l ++ gocopy (take (b - a) (drop a l)) src ++ drop b l.

(** make([]byte, n) *)
Definition zeros (n : nat) : list byte := replicate n x00.

(** the loop [for i, c := range chunks { PutUint16(chunks[2i:2i+2], c) }]
    (msgDiscoverHosts.go:41-45, 89-93), i the next index *)
Fixpoint put_chunks (i : nat) (cs : list N) (l : list byte) : list byte :=
  match cs with
  | [] => l
  | c :: cs' => put_chunks (S i) cs' (put (i * 2) (i * 2 + 2) (be 2 c) l)
  end.

(** msgDiscoverHosts.go:25-49 *)
Definition ser_disc_req (reqid : N) (h : hash) (cs : list N) : list byte :=
  let r := zeros 24 in
  let r := <[0 := Nb 0]> r in
  let r := put 1 3 (be 2 reqid) r in
  let r := put 3 23 (hash_slice h) r in
  let r := <[23 := Nb (N.of_nat (length cs))]> r in
  r ++ put_chunks 0 cs (zeros (length cs * 2)).

(** msgDiscoverHosts.go:70-97 *)
Definition ser_disc_resp (addr : list byte) (port reqid : N) (cs : list N) : list byte :=
  let r := zeros 10 in
  let r := <[0 := Nb 1]> r in
  let r := put 1 3 (be 2 reqid) r in
  let r := put 3 7 addr r in
  let r := put 7 9 (be 2 port) r in
  let r := <[9 := Nb (N.of_nat (length cs))]> r in
  r ++ put_chunks 0 cs (zeros (length cs * 2)).

(** msgListFiles.go:18-31 *)
Definition ser_list_req (reqid : N) (h : hash) : list byte :=
  let r := zeros 23 in
  let r := <[0 := Nb 2]> r in
  let r := put 1 3 (be 2 reqid) r in
  put 3 23 h r.

(** utils.go:72-82 SerializeString255: copy() bounds the name to len(result)-1 *)
Definition ser_string (s : list byte) : list byte :=
  let n := if (255 <? length s)%nat then 255 else length s in
  let r := zeros (1 + n) in
  let copied := Nat.min (length r - 1) (length s) in
  let r := put 1 (length r) s r in
  <[0 := Nb (N.of_nat copied)]> r.

(** msgListFiles.go:55-67 *)
Definition ser_entry (e : lfentry) : list byte :=
  let name := ser_string (e_name e) in
  let r := zeros 40 in
  let r := put 0 8 (be 8 (e_size e)) r in
  let r := put 8 12 (be 4 (e_count e)) r in
  let r := put 12 16 (be 4 (e_chunk e)) r in
  let r := put 16 20 (be 4 (e_down e)) r in
  let r := put 20 40 (e_hash e) r in
  r ++ name.

(** msgListFiles.go:81-98; uint16(len(r.Files)) keeps the low 16 bits *)
Definition ser_list_resp (reqid : N) (files : list lfentry) : list byte :=
  let r := zeros 5 in
  let r := <[0 := Nb 3]> r in
  let r := put 1 3 (be 2 reqid) r in
  let r := put 3 5 (be 2 (N.of_nat (length files) mod 65536)) r in
  foldl (fun acc e => acc ++ ser_entry e) r files.

(** msgConnection.go:15-31 *)
Definition ser_open (h : hash) (chunk cap : N) : list byte :=
  let r := zeros 32 in
  let r := <[0 := Nb 4]> r in
  let r := put 1 21 (hash_slice h) r in
  let r := put 21 23 (be 2 chunk) r in
  put 23 32 (be 2 cap) r.

(** msgDataPacket.go:29-42 *)
Definition ser_data (offset : N) (data : list byte) : list byte :=
  let r := zeros (5 + length data) in
  let r := <[0 := Nb 5]> r in
  let r := put 1 5 (be 4 offset) r in
  put 5 (5 + length data) data r.

(** msgDataPacket.go:71-81 *)
Definition ser_ack (offset : N) : list byte :=
  let r := zeros 5 in
  let r := <[0 := Nb 6]> r in
  put 1 5 (be 4 offset) r.

(** the Serialize method of the Message interface (messageTypes.go:4-7) *)
Definition serialize (m : message) : list byte :=
  match m with
  | DiscReq r h cs => ser_disc_req r h cs
  | DiscResp a p r cs => ser_disc_resp a p r cs
  | ListReq r h => ser_list_req r h
  | ListResp r fs => ser_list_resp r fs
  | OpenReq h c w => ser_open h c w
  | Data o d => ser_data o d
  | Ack o => ser_ack o
  end.

(** ** byteReader (utils.go:12-67).  The buffer is fixed; each method takes the
    index and returns the value and the new index.  Both callers of Parse pass a
    buffer whose capacity is its length, so slicing beyond the length panics. *)
Definition rd_byte (d : list byte) (i : nat) : res (byte * nat) :=   (* 17-21 *)
  match d !! i with
  | Some b => Ok (b, i + 1)
  | None => Panic "index out of range"
  end.
Definition rd_slice (d : list byte) (i n : nat) : res (list byte) :=
  if decide (i + n <= length d) then Ok (take n (drop i d))
  else Panic "slice bounds out of range".
Definition rd_bytes (n : nat) (d : list byte) (i : nat) : res (list byte * nat) :=  (* 23-27 *)
  let! s := rd_slice d i n in Ok (s, i + n).
Definition rd_hash (d : list byte) (i : nat) : res (hash * nat) :=    (* 29-33 *)
  let! s := rd_slice d i 20 in Ok (from_slice zero_hash s, i + 20).
Definition rd_u16 (d : list byte) (i : nat) : res (N * nat) :=        (* 35-39 *)
  let! s := rd_slice d i 2 in Ok (unbe s, i + 2).
Definition rd_u32 (d : list byte) (i : nat) : res (N * nat) :=        (* 41-45 *)
  let! s := rd_slice d i 4 in Ok (unbe s, i + 4).
Definition rd_u64 (d : list byte) (i : nat) : res (N * nat) :=        (* 47-51 *)
  let! s := rd_slice d i 8 in Ok (unbe s, i + 8).
(** the loop of readSliceUint16 (56-58), [n] iterations left *)
Fixpoint rd_u16s (n : nat) (d : list byte) (i : nat) : res (list N * nat) :=
  match n with
  | O => Ok ([], i)
  | S n' =>
      let! (v, i) := rd_u16 d i in
      let! (vs, i) := rd_u16s n' d i in
      Ok (v :: vs, i)
  end.
Definition rd_slice_u16 (d : list byte) (i : nat) : res (list N * nat) :=  (* 53-60 *)
  let! (n, i) := rd_byte d i in
  rd_u16s (N.to_nat (bN n)) d i.
Definition rd_string (d : list byte) (i : nat) : res (list byte * nat) :=  (* 62-67 *)
  let! (n, i) := rd_byte d i in
  let n := N.to_nat (bN n) in
  let! s := rd_slice d i n in
  Ok (s, i + n).

(** parse.go:46-53: one entry; Go evaluates the calls left to right *)
Definition rd_entry (d : list byte) (i : nat) : res (lfentry * nat) :=
  let! (size, i) := rd_u64 d i in
  let! (count, i) := rd_u32 d i in
  let! (chunk, i) := rd_u32 d i in
  let! (down, i) := rd_u32 d i in
  let! (h, i) := rd_hash d i in
  let! (name, i) := rd_string d i in
  Ok (mkEntry size count chunk down h name, i).
(** parse.go:45-54 *)
Fixpoint rd_entries (n : nat) (d : list byte) (i : nat) : res (list lfentry * nat) :=
  match n with
  | O => Ok ([], i)
  | S n' =>
      let! (e, i) := rd_entry d i in
      let! (es, i) := rd_entries n' d i in
      Ok (e :: es, i)
  end.

(** parse.go:6-77 Parse *)
Definition parse (d : list byte) : res message :=
  let! (ty, i) := rd_byte d 0 in
  match bN ty with
  | 0 =>
      let! (r, i) := rd_u16 d i in
      let! (h, i) := rd_hash d i in
      let! (cs, i) := rd_slice_u16 d i in
      Ok (DiscReq r h cs)
  | 1 =>
      let! (r, i) := rd_u16 d i in
      let! (a, i) := rd_bytes 4 d i in
      let! (p, i) := rd_u16 d i in
      let! (cs, i) := rd_slice_u16 d i in
      Ok (DiscResp a p r cs)
  | 2 =>
      let! (r, i) := rd_u16 d i in
      let! (h, i) := rd_hash d i in
      Ok (ListReq r h)
  | 3 =>
      let! (r, i) := rd_u16 d i in
      let! (n, i) := rd_u16 d i in
      let! (es, i) := rd_entries (N.to_nat n) d i in
      Ok (ListResp r es)
  | 4 =>
      let! (h, i) := rd_hash d i in
      let! (c, i) := rd_u16 d i in
      let! (w, i) := rd_u16 d i in
      Ok (OpenReq h c w)
  | 6 =>
      let! (o, i) := rd_u32 d i in
      Ok (Ack o)
  | _ => Err "Message of unknown type discarded"
  end%N.

(** msgDataPacket.go:58-63 ParseAsDataPacket.  The argument is buffer[:n] of a
    longer buffer, so data[1:5] is checked against the capacity and data[5:]
    against the length. *)
Definition parse_data (s : slice) : res (N * list byte) :=
  let! o := sl_range s 1 5 in
  let! d := sl_from s 5 in
  Ok (unbe o, d).

(** msgDataPacket.go:47-53 Split.  (Data has spare capacity up to the end of the
    1029-byte buffer: Data = data[5:], so [0:20] and [20:24] are checked against
    the capacity and [24:] against the length; the last check dominates whenever
    the capacity is at least the length, which it always is.) *)
Definition split_packet (data : list byte) : res (hash * N * list byte) :=
  if decide (24 <= length data) then
    Ok (gocopy zero_hash (take 20 data), unbe (take 4 (drop 20 data)), drop 24 data)
  else Panic "slice bounds out of range".

(** ** What arrives: the kernel copies the datagram into a zeroed buffer of [n]
    bytes and drops what does not fit (main.go:91-95, serverListFilesOnHost.go:40-45:
    the byte count is ignored, so the parser sees the zero padding). *)
Definition udp_buffer (n : nat) (datagram : list byte) : list byte :=
  gocopy (zeros n) datagram.
(** recvConnection.go:56-65: a 1029-byte buffer clipped to the datagram. *)
Definition udp_clipped (n : nat) (datagram : list byte) : slice :=
  mkSlice (udp_buffer n datagram) (Nat.min n (length datagram)).
