(** Specification vocabulary for chunks and readers. *)
From Verif Require Export Chunk.

(** the bytes of chunk [i] of a file *)
Definition chunk_bytes (contents : list byte) (chunkSize i : nat) : list byte :=
  take chunkSize (drop (i * chunkSize) contents).

(** Repeated Read calls with buffer sizes [ns]: all results in order. *)
Fixpoint read_all (f : fobj) (c : creader) (ns : list nat) : res (list (list byte * N * option rerr)) :=
  match ns with
  | [] => Ok []
  | n :: ns' =>
      let! (r, c') := cr_read f c n in
      let! rs := read_all f c' ns' in
      Ok (r :: rs)
  end.

(** What a sequence of reads with buffer sizes [ns] should return, standing at
    position [pos] of a chunk [bytes] of a file with chunk size [cs]: the next
    min(n, remaining) bytes, tagged with the position; io.EOF at the chunk's
    nominal end, or together with the last bytes when the file ends before it. *)
Fixpoint expected_reads (bytes : list byte) (cs : nat) (pos : nat) (ns : list nat)
  : list (list byte * N * option rerr) :=
  match ns with
  | [] => []
  | n :: ns' =>
      let d := take (Nat.min n (cs - pos)) (drop pos bytes) in
      let eof := (cs <=? pos)%nat || (length d <? Nat.min n (cs - pos))%nat in
      (d, N.of_nat pos, if eof then Some EOF else None)
        :: expected_reads bytes cs (pos + length d) ns'
  end.
