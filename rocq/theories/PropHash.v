(** Properties C14-C16: common/sha1Hash.go, and test vectors for SHA-1. *)
From Verif Require Import HashProofs.

(** C14. Text form: round trip, exact acceptance set, unchanged on error, injective. *)
Theorem C14_hash_text_roundtrip : forall h0 h, hash_wf h0 -> hash_wf h ->
  from_string_safe h0 (hash_string h) = (h, None).
Proof. exact C14_roundtrip_lemma. Qed.
Print Assumptions C14_hash_text_roundtrip.
Theorem C14_hash_text_acceptance : forall h0 s, hash_wf h0 ->
  (length s = 40 /\ Forall is_hex s ->
     exists h, from_string_safe h0 s = (h, None) /\ hash_wf h /\ hash_string h = map lower s) /\
  (~ (length s = 40 /\ Forall is_hex s) -> exists e, from_string_safe h0 s = (h0, Some e)).
Proof. exact C14_accepts_lemma. Qed.
Print Assumptions C14_hash_text_acceptance.
Theorem C14_hash_text_injective : forall a b, hash_string a = hash_string b -> a = b.
Proof. exact C14_string_inj_lemma. Qed.
Print Assumptions C14_hash_text_injective.
Theorem C14_hash_text_shape : forall h, hash_wf h ->
  length (hash_string h) = 40 /\ Forall is_hex (hash_string h) /\ map lower (hash_string h) = hash_string h.
Proof. exact C14_string_shape_lemma. Qed.
Print Assumptions C14_hash_text_shape.
(** FromString (the unchecked variant) panics exactly on odd-length or non-hex text. *)
Theorem C14_from_string_panics : forall h0 s, hash_wf h0 ->
  (is_panic (from_string h0 s) <-> ~ (Nat.even (length s) = true /\ Forall is_hex s)) /\
  (forall h, hash_wf h -> from_string h0 (hash_string h) = Ok h).
Proof. exact C14_from_string_lemma. Qed.
Print Assumptions C14_from_string_panics.
Example C14_case :
  from_string_safe zero_hash (replicate 38 x30 ++ [x41; x66]) = (replicate 19 x00 ++ [xaf], None) /\
  hash_string (replicate 19 x00 ++ [xaf]) = replicate 38 x30 ++ [x61; x66] /\
  (from_string_safe zero_hash (replicate 39 x30 ++ [x67])).1 = zero_hash.
Proof. vm_compute. split_and!; reflexivity. Qed.

(** C15. Blank. *)
Theorem C15_is_blank_iff : forall h, hash_wf h -> (is_blank h = true <-> h = replicate 20 xff).
Proof. exact C15_lemma. Qed.
Print Assumptions C15_is_blank_iff.
Theorem C15_blank_is_blank : forall h, hash_wf h ->
  hash_blank h = replicate 20 xff /\ is_blank (hash_blank h) = true.
Proof. exact C15_blank_lemma. Qed.
Print Assumptions C15_blank_is_blank.
Example C15_case : is_blank (replicate 8 xff ++ [xfe] ++ replicate 11 xff) = false /\ hash_wf (hash_blank zero_hash).
Proof. vm_compute. split; reflexivity. Qed.

(** C16. Slices. *)
Theorem C16_slices : forall h s, hash_wf h ->
  (length s = 20 -> from_slice_safe h s = (s, None) /\ from_slice h s = s) /\
  (length s <> 20 -> exists e, from_slice_safe h s = (h, Some e)) /\
  hash_slice h = h /\ hash_slice_copy h = h /\
  (forall i, from_slice h s !! i =
     if decide (i < 20) then (if decide (i < length s) then s !! i else h !! i) else None).
Proof. exact C16_lemma. Qed.
Print Assumptions C16_slices.
Example C16_case : from_slice zero_hash [x01; x02] = [x01; x02] ++ replicate 18 x00.
Proof. vm_compute. reflexivity. Qed.

(** Test vectors tying [sha1] to the standard (FIPS 180-4 / RFC 3174): "", "abc",
    the 56-byte two-block message, and 64 bytes 0x61. *)
Definition hexs (s : string) : list byte := list_byte_of_string s.
Example sha1_empty : hash_string (sha1 []) = hexs "da39a3ee5e6b4b0d3255bfef95601890afd80709".
Proof. vm_compute. reflexivity. Qed.
Example sha1_abc : hash_string (sha1 (hexs "abc")) = hexs "a9993e364706816aba3e25717850c26c9cd0d89d".
Proof. vm_compute. reflexivity. Qed.
Example sha1_two_blocks : hash_string (sha1 (hexs "abcdbcdecdefdefgefghfghighijhijkijkljklmklmnlmnomnopnopq"))
  = hexs "84983e441c3bd26ebaae4aa1f95129e5e54670f1".
Proof. vm_compute. reflexivity. Qed.
Example sha1_64 : hash_string (sha1 (replicate 64 x61)) = hexs "0098ba824b5c16427bd7a1122a5a442a25ec644d".
Proof. vm_compute. reflexivity. Qed.
