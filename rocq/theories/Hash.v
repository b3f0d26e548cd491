(** Model of common/sha1Hash.go and of encoding/hex as it uses it.
    A Sha1Hash is its 20 bytes ([list byte] of length 20, the length being an
    invariant of the Go array type). *)
From Verif Require Export GoBase.

(** (a notation, so that list lemmas and maps keyed by hashes apply directly) *)
Notation hash := (list byte).
Definition hash_wf (h : hash) : Prop := length h = 20.
(** A freshly declared common.Sha1Hash{} (Go zero value). *)
Definition zero_hash : hash := replicate 20 x00.

(** encoding/hex: hextable = "0123456789abcdef" *)
Definition hex_digit (n : N) : byte := Nb (if (n <? 10)%N then 48 + n else 87 + n).
(** hex.EncodeToString *)
Fixpoint hex_encode (l : list byte) : list byte :=
  match l with
  | [] => []
  | b :: l' => hex_digit (bN b / 16) :: hex_digit (bN b mod 16) :: hex_encode l'
  end.
(** encoding/hex fromHexChar: '0'-'9', 'a'-'f', 'A'-'F' *)
Definition from_hex_char (c : byte) : option N :=
  let n := bN c in
  if ((48 <=? n) && (n <=? 57))%N then Some (n - 48)%N
  else if ((97 <=? n) && (n <=? 102))%N then Some (n - 97 + 10)%N
  else if ((65 <=? n) && (n <=? 70))%N then Some (n - 65 + 10)%N
  else None.
(** hex.DecodeString: pairs from the left; the first bad character is an error;
    a left-over character is an error (InvalidByteError or ErrLength). *)
Fixpoint hex_decode (s : list byte) : res (list byte) :=
  match s with
  | [] => Ok []
  | [c] => Err "encoding/hex: odd length or invalid byte"
  | p :: q :: s' =>
      match from_hex_char p, from_hex_char q with
      | Some a, Some b => let! r := hex_decode s' in Ok (Nb (N.lor (N.shiftl a 4) b) :: r)
      | _, _ => Err "encoding/hex: invalid byte"
      end
  end.

(** sha1Hash.go:22-24 String *)
Definition hash_string (h : hash) : list byte := hex_encode h.
(** sha1Hash.go:27-29 Slice, 32-36 SliceCopy (the values; Slice aliases h) *)
Definition hash_slice (h : hash) : list byte := h.
Definition hash_slice_copy (h : hash) : list byte := gocopy (replicate 20 x00) h.

(** sha1Hash.go:41-49 FromString: panics on invalid hex, otherwise overwrites
    the first min(20, n) bytes.  Result: the new hash. *)
Definition from_string (h : hash) (s : list byte) : res hash :=
  match hex_decode s with
  | Ok bs => Ok (gocopy h bs)
  | Err e => Panic e
  | Panic p => Panic p
  end.
(** sha1Hash.go:53-66 FromStringSafe: the receiver after the call and the error. *)
Definition from_string_safe (h : hash) (s : list byte) : hash * option string :=
  match hex_decode s with
  | Ok bs => if (length bs =? 20)%nat then (gocopy h bs, None) else (h, Some "Expected 20-byte string"%string)
  | Err e => (h, Some e)
  | Panic e => (h, Some e)
  end.
(** sha1Hash.go:71-74 FromSlice *)
Definition from_slice (h : hash) (s : list byte) : hash := gocopy h s.
(** sha1Hash.go:78-85 FromSliceSafe *)
Definition from_slice_safe (h : hash) (s : list byte) : hash * option string :=
  if (length s =? 20)%nat then (gocopy h s, None) else (h, Some "Expected 20-byte string"%string).
(** sha1Hash.go:89-94 Blank: overwrites each of the 20 bytes with 255 *)
Definition hash_blank (h : hash) : hash := map (fun _ => xff) h.
(** sha1Hash.go:98-103 IsBlank *)
Definition is_blank (h : hash) : bool :=
  let c1 := unbe (take 8 h) in
  let c2 := unbe (take 8 (drop 8 h)) in
  let c3 := unbe (take 4 (drop 16 h)) in
  ((c1 =? 18446744073709551615) && (c1 =? c2) && (c3 =? 4294967295))%N.
