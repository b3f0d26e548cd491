(** Properties C23-C25 and C73: reading and hashing chunks and files. *)
From Verif Require Import Chunk ChunkSpec ChunkProofs.

(** *** C23: the reader of chunk i covers exactly the bytes
    [i*cs, (i+1)*cs) of the file: size, SHA-1, and every sequence of reads. *)
Theorem C23_chunk_reader_is_exact :
  forall contents cs i fuel,
    (Z.of_nat cs < 4294967296)%Z -> (Z.of_nat i < 65536)%Z ->
    length (chunk_bytes contents cs i) < fuel ->
    exists c, new_chunk_reader fuel (FRegular contents) (chunk_section (Z.of_nat i) (Z.of_nat cs)) = Some c
      /\ cr_size c = Z.of_nat (length (chunk_bytes contents cs i))
      /\ cr_hash c = sha1 (chunk_bytes contents cs i)
      /\ forall ns, read_all (FRegular contents) c ns = Ok (expected_reads (chunk_bytes contents cs i) cs 0 ns).
Proof. exact C23_lemma. Qed.
Print Assumptions C23_chunk_reader_is_exact.

(** ... in particular the bytes returned by any sequence of reads, put together,
    are the beginning of the chunk (all of it once the sizes suffice). *)
Theorem C23_reads_concatenate_to_the_chunk :
  forall contents cs i ns,
    (Z.of_nat cs < 4294967296)%Z -> (Z.of_nat i < 65536)%Z ->
    forall fuel c,
    new_chunk_reader fuel (FRegular contents) (chunk_section (Z.of_nat i) (Z.of_nat cs)) = Some c ->
    exists rs, read_all (FRegular contents) c ns = Ok rs
      /\ concat (map (fun r => r.1.1) rs) = take (foldr Nat.add 0 ns) (chunk_bytes contents cs i).
Proof. exact C23_concat_lemma. Qed.
Print Assumptions C23_reads_concatenate_to_the_chunk.

Example C23_case :
  let f := [x61; x62; x63; x64; x65; x66; x67] in
  chunk_bytes f 3 1 = [x64; x65; x66]
  /\ chunk_bytes f 3 2 = [x67]
  /\ (exists c, new_chunk_reader 5 (FRegular f) (chunk_section 2 3) = Some c
        /\ cr_size c = 1%Z
        /\ read_all (FRegular f) c [1; 2; 2] = Ok [([x67], 0%N, None); ([], 1%N, Some EOF); ([], 1%N, Some EOF)])
  /\ (exists c, new_chunk_reader 5 (FRegular f) (chunk_section 1 3) = Some c
        /\ read_all (FRegular f) c [2; 2; 2] = Ok [([x64; x65], 0%N, None); ([x66], 2%N, None); ([], 3%N, Some EOF)]).
Proof.
  split; [reflexivity|]. split; [reflexivity|].
  split; eexists; (split; [vm_compute; reflexivity|]); [split|]; vm_compute; reflexivity.
Qed.

(** *** C24: chunks partition the file *)
Theorem C24_chunks_partition_the_file :
  forall contents cs, 0 < cs ->
    exists n, chunk_count (Z.of_nat (length contents)) (Z.of_nat cs) = Ok (Z.of_nat n)
      /\ n = (length contents + cs - 1) / cs
      /\ concat (map (chunk_bytes contents cs) (seq 0 n)) = contents
      /\ (forall i, i < n -> chunk_bytes contents cs i <> [])
      /\ (forall i, S i < n -> length (chunk_bytes contents cs i) = cs)
      /\ (forall i, n <= i -> chunk_bytes contents cs i = []).
Proof. exact C24_lemma. Qed.
Print Assumptions C24_chunks_partition_the_file.
(** what the readers of the chunks return, put together, is the file *)
Theorem C24_readers_partition_the_file :
  forall contents cs n, 0 < cs -> (Z.of_nat cs < 4294967296)%Z ->
    chunk_count (Z.of_nat (length contents)) (Z.of_nat cs) = Ok (Z.of_nat n) -> (Z.of_nat n <= 65536)%Z ->
    exists pieces,
      Forall2 (fun i piece => exists c,
          new_chunk_reader (S (length contents)) (FRegular contents) (chunk_section (Z.of_nat i) (Z.of_nat cs)) = Some c
          /\ cr_size c = Z.of_nat (length piece) /\ cr_hash c = sha1 piece
          /\ forall ns, cs <= foldr Nat.add 0 ns -> exists rs, read_all (FRegular contents) c ns = Ok rs
               /\ concat (map (fun r => r.1.1) rs) = piece)
        (seq 0 n) pieces
      /\ concat pieces = contents /\ Forall (fun piece => piece <> []) pieces
      /\ forall i piece, S i < n -> pieces !! i = Some piece -> length piece = cs.
Proof.
  intros contents cs n Hcs Hbig Hn Hmax. destruct (C24_lemma contents cs Hcs) as (n' & Hn' & E & Hcat & Hne & Hlen & _).
  assert (n' = n) as -> by (rewrite Hn in Hn'; injection Hn'; lia). exists (map (chunk_bytes contents cs) (seq 0 n)).
  split; [|split; [done|split]].
  - apply Forall2_fmap_r, Forall_Forall2_diag, Forall_forall. intros i Hi. apply elem_of_seq in Hi.
    destruct (C23_lemma contents cs i (S (length contents)) Hbig ltac:(lia)) as (c & Hc & Hs & Hh & _).
    { unfold chunk_bytes. rewrite take_length, drop_length. lia. }
    exists c. split; [done|]. split; [done|]. split; [done|]. intros ns Hns.
    destruct (C23_concat_lemma contents cs i ns Hbig ltac:(lia) _ c Hc) as (rs & Hr & Hx). exists rs. split; [done|].
    rewrite Hx. apply take_ge. unfold chunk_bytes. rewrite take_length. lia.
  - apply Forall_fmap, Forall_forall. intros i Hi. apply elem_of_seq in Hi. apply Hne. lia.
  - intros i piece Hi Hp. rewrite list_lookup_fmap in Hp. rewrite lookup_seq_lt in Hp by lia. injection Hp as <-. apply Hlen. done.
Qed.
Print Assumptions C24_readers_partition_the_file.

Example C24_case :
  chunk_count 7 3 = Ok 3%Z /\ chunk_count 6 3 = Ok 2%Z /\ chunk_count 0 3 = Ok 0%Z
  /\ chunk_count 4194305 4194304 = Ok 2%Z.
Proof. repeat split. Qed.

(** *** C25: HashFile hashes the whole file, however the reads are split up *)
Theorem C25_hash_file_is_sha1_of_contents :
  forall ks contents r, hash_file ks (FRegular contents) = Some r -> r = Ok (sha1 contents).
Proof. exact C25_lemma. Qed.
Print Assumptions C25_hash_file_is_sha1_of_contents.

Theorem C25_hash_file_terminates :
  forall ks contents, length contents <= length ks ->
    hash_file ks (FRegular contents) = Some (Ok (sha1 contents)).
Proof. exact C25_term_lemma. Qed.
Print Assumptions C25_hash_file_terminates.

Example C25_case :
  hash_file [1; 7; 4500] (FRegular [x61; x62; x63]) = Some (Ok (sha1 [x61; x62; x63]))
  /\ hash_file [1; 1] (FRegular [x61; x62; x63]) = None
  /\ hash_file [] FBroken = Some (Err "read error").
Proof. split; [vm_compute; reflexivity|]. split; reflexivity. Qed.

(** *** C73 (refuted): when reads fail with an error other than io.EOF the hashing
    loop of NewChunkReader never ends, for any chunk and any amount of time; its
    caller GetChunkReader holds the catalogue lock meanwhile. *)
Theorem C73_serving_a_chunk_always_returns_refuted :
  forall cs i fuel, 0 < cs -> (Z.of_nat cs < 4294967296)%Z -> (Z.of_nat i < 65536)%Z ->
    new_chunk_reader fuel FBroken (chunk_section (Z.of_nat i) (Z.of_nat cs)) = None.
Proof. exact C73_lemma. Qed.
Print Assumptions C73_serving_a_chunk_always_returns_refuted.

(** ... whereas on a readable regular file it always ends *)
Theorem C73_serving_a_readable_chunk_returns_partial :
  forall contents cs i, (Z.of_nat cs < 4294967296)%Z -> (Z.of_nat i < 65536)%Z ->
    exists fuel c, new_chunk_reader fuel (FRegular contents) (chunk_section (Z.of_nat i) (Z.of_nat cs)) = Some c.
Proof. exact C73_ok_lemma. Qed.
Print Assumptions C73_serving_a_readable_chunk_returns_partial.

Example C73_case : new_chunk_reader 20 FBroken (chunk_section 3 4194304) = None
  /\ new_chunk_reader 1 FBroken (chunk_section 3 0) <> None.
Proof. split; [vm_compute; reflexivity|]. vm_compute. discriminate. Qed.
