(** Go basics shared by the whole model: bytes, fixed-width integers, big-endian
    encoding, panics, slices.  Nothing here is specific to flu; it is the part
    of the Go language and of encoding/binary that the modelled code uses. *)
From Coq Require Export Strings.Byte.
From Coq Require Import ZifyBool ZifyNat ZifyN.
From stdpp Require Export prelude strings list gmap.
From stdpp Require Import countable.
Global Open Scope list_scope.

(** A Go call either returns a value, returns a non-nil error, or panics.
    A panic that nobody recovers terminates the whole process; no code in /repo
    calls recover().  The strings only document the cause. *)
Inductive res (A : Type) : Type :=
| Ok (a : A)
| Err (why : string)
| Panic (why : string).
Arguments Ok {A} a.
Arguments Err {A} why.
Arguments Panic {A} why.

Definition rbind {A B} (x : res A) (f : A -> res B) : res B :=
  match x with Ok a => f a | Err e => Err e | Panic p => Panic p end.
Notation "'let!' x := a 'in' b" := (rbind a (fun x => b))
  (at level 200, x pattern, a at level 100, b at level 200, right associativity).

Definition is_panic {A} (x : res A) : Prop := exists p, x = Panic p.
Definition is_err {A} (x : res A) : Prop := exists e, x = Err e.

(** ** Bytes *)
Global Instance byte_eq_dec : EqDecision byte.
Proof. intros x y. destruct (Byte.byte_eq_dec x y); [left|right]; done. Defined.

Definition bN (b : byte) : N := Byte.to_N b.
(** Go's conversion byte(n) / uint8(n): keep the low 8 bits. *)
Definition Nb (n : N) : byte :=
  match Byte.of_N (n mod 256) with Some b => b | None => x00 end.

Lemma bN_lt b : (bN b < 256)%N.
Proof. unfold bN. pose proof (Byte.to_N_bounded b). lia. Qed.
Lemma Nb_bN b : Nb (bN b) = b.
Proof.
  unfold Nb. rewrite N.mod_small by apply bN_lt. unfold bN.
  rewrite Byte.of_to_N. done.
Qed.
Lemma bN_Nb n : bN (Nb n) = (n mod 256)%N.
Proof.
  unfold Nb. assert (n mod 256 < 256)%N as Hlt by (apply N.mod_lt; lia).
  destruct (Byte.of_N (n mod 256)) as [b|] eqn:E.
  - apply Byte.to_of_N in E. exact E.
  - apply Byte.of_N_None_iff in E. lia.
Qed.
Lemma bN_inj a b : bN a = bN b -> a = b.
Proof. intros H. rewrite <- (Nb_bN a), <- (Nb_bN b), H. done. Qed.
Lemma Nb_mod n m : (n mod 256 = m mod 256)%N -> Nb n = Nb m.
Proof. unfold Nb. intros ->. done. Qed.

Global Instance byte_countable : Countable byte.
Proof.
  refine (inj_countable' bN Nb _). intros x. apply Nb_bN.
Defined.

(** ** encoding/binary.BigEndian *)
(** PutUint16/32/64 (k = 2, 4, 8): the k low bytes of n, most significant first. *)
Fixpoint be (k : nat) (n : N) : list byte :=
  match k with
  | O => []
  | S k' => be k' (n / 256) ++ [Nb n]
  end.
(** Uint16/32/64: big-endian value of a byte string. *)
Definition unbe (l : list byte) : N := foldl (fun acc b => acc * 256 + bN b)%N 0%N l.

Lemma be_length k n : length (be k n) = k.
Proof. revert n; induction k as [|k IH]; intros n; simpl; [done|]. rewrite app_length, IH; simpl; lia. Qed.
Lemma unbe_app l b : unbe (l ++ [b]) = (unbe l * 256 + bN b)%N.
Proof. unfold unbe. rewrite foldl_app. done. Qed.
Lemma unbe_be k n : unbe (be k n) = (n mod 256 ^ N.of_nat k)%N.
Proof.
  revert n; induction k as [|k IH]; intros n.
  - simpl. rewrite N.mod_1_r. done.
  - cbn [be]. rewrite unbe_app, IH, bN_Nb.
    rewrite Nat2N.inj_succ, N.pow_succ_r by lia.
    rewrite N.mod_mul_r by (try apply N.pow_nonzero; lia). lia.
Qed.
Lemma unbe_be_small k n : (n < 256 ^ N.of_nat k)%N -> unbe (be k n) = n.
Proof. intros H. rewrite unbe_be, N.mod_small; done. Qed.
Lemma unbe_lt l : (unbe l < 256 ^ N.of_nat (length l))%N.
Proof.
  induction l as [|b l IH] using rev_ind; [done|].
  rewrite unbe_app, app_length, Nat2N.inj_add, N.pow_add_r. simpl length.
  change (256 ^ N.of_nat 1)%N with 256%N. pose proof (bN_lt b). lia.
Qed.
Lemma be_unbe l : be (length l) (unbe l) = l.
Proof.
  induction l as [|b l IH] using rev_ind; [done|].
  rewrite app_length, unbe_app. simpl length. rewrite Nat.add_1_r. cbn [be].
  f_equal.
  - rewrite N.div_add_l by lia. rewrite (N.div_small (bN b)) by apply bN_lt.
    rewrite N.add_0_r. exact IH.
  - f_equal. rewrite <- (Nb_bN b) at 2. apply Nb_mod.
    rewrite N.add_comm, N.mod_add by lia. done.
Qed.
Lemma be_mod k n : be k (n mod 256 ^ N.of_nat k) = be k n.
Proof. rewrite <- unbe_be. rewrite <- (be_length k n) at 1. apply be_unbe. Qed.
Lemma be_inj k n m : (n < 256 ^ N.of_nat k)%N -> (m < 256 ^ N.of_nat k)%N -> be k n = be k m -> n = m.
Proof. intros Hn Hm H. rewrite <- (unbe_be_small k n), <- (unbe_be_small k m), H; done. Qed.

Definition p16 : N := 65536.
Definition p32 : N := 4294967296.
Definition p63 : N := 9223372036854775808.
Definition p64 : N := 18446744073709551616.

(** ** Integer conversions (all platforms considered are 64-bit) *)
(** int(x) / int64(x) of a uint64. *)
Definition int_of_u64 (x : N) : Z :=
  if (x <? p63)%N then Z.of_N x else (Z.of_N x - Z.of_N p64)%Z.
(** uint64(i) of an int. *)
Definition u64_of_int (i : Z) : N := Z.to_N (i mod Z.of_N p64).
(** uint16(i), uint32(i) of an int. *)
Definition u16_of_int (i : Z) : N := Z.to_N (i mod 65536).
Definition u32_of_int (i : Z) : N := Z.to_N (i mod 4294967296).
(** signed 64-bit wrap-around of an arithmetic result *)
Definition wrap64 (i : Z) : Z := ((i + 9223372036854775808) mod 18446744073709551616 - 9223372036854775808)%Z.

Lemma int_of_u64_small x : (x < p63)%N -> int_of_u64 x = Z.of_N x.
Proof. unfold int_of_u64. destruct (N.ltb_spec x p63); lia. Qed.
Lemma wrap64_small i : (-9223372036854775808 <= i < 9223372036854775808)%Z -> wrap64 i = i.
Proof. intros H. unfold wrap64. rewrite Z.mod_small; lia. Qed.
Lemma u64_of_int_nonneg i : (0 <= i < 18446744073709551616)%Z -> u64_of_int i = Z.to_N i.
Proof. intros H. unfold u64_of_int. rewrite Z.mod_small; [done|]. unfold p64; lia. Qed.
Lemma int_u64_int i : (-9223372036854775808 <= i < 9223372036854775808)%Z -> int_of_u64 (u64_of_int i) = i.
Proof.
  intros H. unfold u64_of_int, int_of_u64, p63, p64.
  destruct (decide (0 <= i)%Z) as [Hi|Hi].
  - rewrite Z.mod_small by lia. destruct (N.ltb_spec (Z.to_N i) 9223372036854775808); lia.
  - assert (i mod Z.of_N 18446744073709551616 = i + 18446744073709551616)%Z as ->.
    { rewrite <- (Z_mod_plus_full i 1). rewrite Z.mod_small; lia. }
    destruct (N.ltb_spec (Z.to_N (i + 18446744073709551616)) 9223372036854775808); lia.
Qed.
Lemma u16_of_int_small i : (0 <= i < 65536)%Z -> u16_of_int i = Z.to_N i.
Proof. intros H. unfold u16_of_int. rewrite Z.mod_small; done. Qed.

(** ** copy(dst, src): overwrite the first min(len dst, len src) elements *)
Definition gocopy {A} (dst src : list A) : list A :=
  take (length dst) src ++ drop (length src) dst.

Lemma gocopy_length {A} (dst src : list A) : length (gocopy dst src) = length dst.
Proof. unfold gocopy. rewrite app_length, take_length, drop_length. lia. Qed.
Lemma gocopy_full {A} (dst src : list A) : length dst = length src -> gocopy dst src = src.
Proof. intros H. unfold gocopy. rewrite take_ge, drop_ge, app_nil_r by lia. done. Qed.
Lemma gocopy_lookup {A} (dst src : list A) i :
  gocopy dst src !! i = if decide (i < length dst) then
      (if decide (i < length src) then src !! i else dst !! i) else None.
Proof.
  unfold gocopy.
  destruct (decide (i < length dst)) as [H|H].
  - destruct (decide (i < length src)) as [H'|H'].
    + rewrite lookup_app_l by (rewrite take_length; lia). rewrite lookup_take by lia. done.
    + rewrite lookup_app_r by (rewrite take_length; lia).
      rewrite lookup_drop, take_length. f_equal. lia.
  - apply lookup_ge_None_2. rewrite app_length, take_length, drop_length. lia.
Qed.

(** ** Byte slices with spare capacity.  [arr] is the backing array from the
    slice's first element to its capacity, [slen] the length.  Indexing is
    checked against the length, re-slicing s[a:b] against the capacity. *)
Record slice := mkSlice { arr : list byte; slen : nat }.
Definition slice_wf (s : slice) : Prop := slen s <= length (arr s).
Definition slice_bytes (s : slice) : list byte := take (slen s) (arr s).
(** a slice whose capacity equals its length *)
Definition exact_slice (l : list byte) : slice := mkSlice l (length l).

(** s[i] *)
Definition sl_index (s : slice) (i : nat) : res byte :=
  if decide (i < slen s) then
    match arr s !! i with Some b => Ok b | None => Panic "index" end
  else Panic "index out of range".
(** the bytes of s[a:b] *)
Definition sl_range (s : slice) (a b : nat) : res (list byte) :=
  if decide (a <= b /\ b <= length (arr s)) then Ok (take (b - a) (drop a (arr s)))
  else Panic "slice bounds out of range".
(** the bytes of s[a:] *)
Definition sl_from (s : slice) (a : nat) : res (list byte) :=
  if decide (a <= slen s) then Ok (drop a (slice_bytes s))
  else Panic "slice bounds out of range".
