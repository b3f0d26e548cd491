(** SHA-1 (FIPS 180-4), a concrete implementation of what Go's crypto/sha1
    computes: sha1.New(), then Write calls, then Sum(nil) returns [sha1] of the
    concatenation of the written bytes (the streaming interface itself, standard
    library code, is modelled by that one fact).  Used at common/utils.go:20-46
    (HashFile), common/chunkReader.go:55-82 (NewChunkReader) and
    flu/recvConnection.go (hash check). *)
From Verif Require Export GoBase.
From Coq Require Import ZifyBool ZifyNat ZifyN.

Definition w32 (n : N) : N := (n mod p32)%N.
Definition rol (k n : N) : N := w32 (N.lor (N.shiftl n k) (N.shiftr n (32 - k))).
Definition not32 (n : N) : N := N.lxor n 4294967295.

(** Padding: 0x80, zeros up to 56 mod 64, then the bit length as 8 bytes. *)
Definition sha1_pad (m : list byte) : list byte :=
  let len := N.of_nat (length m) in
  m ++ [x80] ++ replicate (N.to_nat ((119 - len mod 64) mod 64)) x00 ++ be 8 (8 * len).

Fixpoint group (k : nat) (fuel : nat) (l : list byte) : list (list byte) :=
  match fuel with
  | O => []
  | S f => match l with [] => [] | _ => take k l :: group k f (drop k l) end
  end.

(** Message schedule, newest word first. *)
Fixpoint sha1_expand (n : nat) (ws : list N) : list N :=
  match n with
  | O => ws
  | S n' =>
      let w := rol 1 (N.lxor (N.lxor (nth 2 ws 0%N) (nth 7 ws 0%N)) (N.lxor (nth 13 ws 0%N) (nth 15 ws 0%N))) in
      sha1_expand n' (w :: ws)
  end.
Definition sha1_schedule (block : list byte) : list N :=
  rev (sha1_expand 64 (rev (map unbe (group 4 16 block)))).

Definition sha1_f (t : N) (b c d : N) : N * N :=
  if (t <? 20)%N then (N.lor (N.land b c) (N.land (not32 b) d), 1518500249%N)
  else if (t <? 40)%N then (N.lxor (N.lxor b c) d, 1859775393%N)
  else if (t <? 60)%N then (N.lor (N.lor (N.land b c) (N.land b d)) (N.land c d), 2400959708%N)
  else (N.lxor (N.lxor b c) d, 3395469782%N).
Definition sha1_state : Type := N * N * N * N * N.
Fixpoint sha1_rounds (t : N) (ws : list N) (s : sha1_state) : sha1_state :=
  match ws with
  | [] => s
  | w :: ws' =>
      let '(a, b, c, d, e) := s in
      let '(f, k) := sha1_f t b c d in
      sha1_rounds (t + 1) ws' (w32 (rol 5 a + f + e + k + w)%N, a, rol 30 b, c, d)
  end.
Definition sha1_block (h : sha1_state) (block : list byte) : sha1_state :=
  let '(a, b, c, d, e) := h in
  let '(a', b', c', d', e') := sha1_rounds 0 (sha1_schedule block) h in
  (w32 (a + a'), w32 (b + b'), w32 (c + c'), w32 (d + d'), w32 (e + e'))%N.
Definition sha1_init : sha1_state :=
  (1732584193, 4023233417, 2562383102, 271733878, 3285377520)%N.
Definition sha1 (m : list byte) : list byte :=
  let p := sha1_pad m in
  let '(a, b, c, d, e) := foldl sha1_block sha1_init (group 64 (S (length p / 64)) p) in
  be 4 a ++ be 4 b ++ be 4 c ++ be 4 d ++ be 4 e.

Lemma sha1_length m : length (sha1 m) = 20.
Proof.
  unfold sha1. destruct (foldl _ _ _) as [[[[a b] c] d] e].
  rewrite !app_length, !be_length. done.
Qed.
Global Opaque sha1.
