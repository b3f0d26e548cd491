(** Model of file reading: io.SectionReader over an os.File, ChunkReader
    (common/chunkReader.go), HashFile (common/utils.go) and the number of chunks
    of a file (catalogue/progressFile.go:79-83). *)
From Verif Require Export GoBase Sha1 Hash.

(** An opened file: a regular file with its contents, or something every read of
    which fails with an error other than io.EOF (a directory, a failing disk). *)
Inductive fobj := FRegular (contents : list byte) | FBroken.

Inductive rerr := EOF | EFail.
Global Instance rerr_eq_dec : EqDecision rerr.
Proof. solve_decision. Defined.

(** os.File.ReadAt(b, off) with len(b) = n: reads until b is full, the end of the
    file (io.EOF) or an error; a negative offset is an error.  Result: the bytes
    read and the error. *)
Definition read_at (f : fobj) (n : nat) (off : Z) : list byte * option rerr :=
  if (off <? 0)%Z then ([], Some EFail)
  else match f with
  | FBroken => ([], if (n =? 0)%nat then None else Some EFail)
  | FRegular l =>
      let d := take n (drop (Z.to_nat off) l) in
      (d, if (length d <? n)%nat then Some EOF else None)
  end.

(** io.SectionReader (Go 1.17): base, current offset, limit *)
Record section := mkSection { s_base : Z; s_off : Z; s_limit : Z }.
(** io.NewSectionReader(fd, off, n) *)
Definition new_section (off n : Z) : section := mkSection off off (wrap64 (off + n)).
(** SectionReader.Read into a buffer of n bytes *)
Definition sec_read (f : fobj) (s : section) (n : nat) : (list byte * option rerr) * section :=
  if (s_limit s <=? s_off s)%Z then (([], Some EOF), s)
  else
    let max := (s_limit s - s_off s)%Z in
    let m := if (max <? Z.of_nat n)%Z then Z.to_nat max else n in
    let '(d, e) := read_at f m (s_off s) in
    ((d, e), mkSection (s_base s) (s_off s + Z.of_nat (length d)) (s_limit s)).
(** SectionReader.Seek(0, io.SeekStart) *)
Definition sec_rewind (s : section) : section := mkSection (s_base s) (s_base s) (s_limit s).

(** chunkReader.go:12-16 ChunkReader *)
Record creader := mkReader { cr_sec : section; cr_hash : hash; cr_size : Z }.

(** chunkReader.go:18-33 Offset: Seek(0, io.SeekCurrent) returns off - base *)
Definition cr_offset (c : creader) : res N :=
  let o := (s_off (cr_sec c) - s_base (cr_sec c))%Z in
  if (4294967295 <? o)%Z then Panic "ChunkReader cannot yield offset" else Ok (u32_of_int o).

(** chunkReader.go:35-39 Read with a buffer of n bytes: the bytes, the offset and
    the error, and the reader afterwards *)
Definition cr_read (f : fobj) (c : creader) (n : nat) : res ((list byte * N * option rerr) * creader) :=
  let! off := cr_offset c in
  let '((d, e), s) := sec_read f (cr_sec c) n in
  Ok ((d, off, e), mkReader s (cr_hash c) (cr_size c)).

(** chunkReader.go:41-53 Reset (cannot fail: the offset afterwards is 0) *)
Definition cr_reset (c : creader) : creader := mkReader (sec_rewind (cr_sec c)) (cr_hash c) (cr_size c).

(** chunkReader.go:61-79: the hashing loop; [fuel] bounds the iterations of the
    model ([None]: still looping).  [acc] is what was written to the hash so far;
    [size] is its length.  Only io.EOF ends the loop. *)
Fixpoint ncr_loop (fuel : nat) (f : fobj) (s : section) (acc : list byte) : option (list byte * section) :=
  match fuel with
  | O => None
  | S fuel' =>
      let '((d, e), s') := sec_read f s 4096 in
      let acc := acc ++ d in
      if decide (e = Some EOF) then Some (acc, s') else ncr_loop fuel' f s' acc
  end.
(** chunkReader.go:55-89 NewChunkReader *)
Definition new_chunk_reader (fuel : nat) (f : fobj) (s : section) : option creader :=
  match ncr_loop fuel f s [] with
  | Some (acc, s') => Some (mkReader (sec_rewind s') (from_slice zero_hash (sha1 acc)) (Z.of_nat (length acc)))
  | None => None
  end.

(** common/utils.go:13-44 HashFile, after os.Open succeeded.  f.Read(hashBuffer)
    may return fewer than the 4096 requested bytes; [ks] lists how many bytes each
    call returns (clipped to 1..min(4096, what is left)); at the end of the file it
    returns (0, io.EOF); on a broken file the first Read fails.  [None]: [ks]
    exhausted before the end (not a complete execution). *)
Fixpoint hash_loop (ks : list nat) (rest acc : list byte) : option (list byte) :=
  match rest with
  | [] => Some acc
  | _ =>
      match ks with
      | [] => None
      | k :: ks' =>
          let n := Nat.min 4096 (Nat.min (length rest) (Nat.max 1 k)) in
          hash_loop ks' (drop n rest) (acc ++ take n rest)
      end
  end.
Definition hash_file (ks : list nat) (f : fobj) : option (res hash) :=
  match f with
  | FBroken => Some (Err "read error")
  | FRegular l =>
      match hash_loop ks l [] with
      | Some acc => Some (Ok (from_slice zero_hash (sha1 acc)))
      | None => None
      end
  end.

(** progressFile.go:79-83: the number of chunks of a file.  Go's / and % truncate
    towards zero and panic on a zero divisor. *)
Definition chunk_count (size chunkSize : Z) : res Z :=
  if (chunkSize =? 0)%Z then Panic "integer divide by zero"
  else
    let n := Z.quot size chunkSize in
    Ok (if (Z.rem size chunkSize =? 0)%Z then n else n + 1)%Z.

(** indexRecord.go:81-87: the section for a chunk (after the held-chunk check and
    os.Open, see Catalogue.v) *)
Definition chunk_section (chunk chunkSize : Z) : section := new_section (wrap64 (chunk * chunkSize)) chunkSize.
