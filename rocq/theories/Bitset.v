(** Model of common/bitset/bitset.go (definitions only).
    A []uint64 is a list of N (every element below 2^64 in reachable states),
    an int is a Z.  Memory exhaustion (make/append of absurd sizes) is not
    modelled.  Bitsets are values here; aliasing of backing arrays is modelled
    separately in BitsetHeap.v. *)
From Verif Require Export GoBase.
From stdpp Require Export list_numbers.

(** common/bitset/bitset.go:16-19  type Bitset struct *)
Record bitset := mkBitset { bdata : list N; bsize : Z }.

(** l[i] for a Go index expression on a []uint64; None = index out of range.
    (Guarded so that it computes quickly even for huge i.) *)
Definition nth_N (l : list N) (i : N) : option N :=
  if (i <? N.of_nat (length l))%N then l !! N.to_nat i else None.
Definition nth_Z (l : list N) (i : Z) : option N :=
  if (i <? 0)%Z then None else nth_N l (Z.to_N i).

(** for _, i := range of consecutive ints, body may panic. *)
Fixpoint for_list {S} (l : list Z) (body : Z -> S -> res S) (s : S) : res S :=
  match l with
  | [] => Ok s
  | i :: l' => let! s' := body i s in for_list l' body s'
  end.

(** bitset.go:58-63  Get *)
Definition bget (b : bitset) (x : N) : res bool :=
  if (Z.of_nat (length (bdata b)) <=? Z.quot (int_of_u64 x) 64)%Z then Ok false
  else match nth_N (bdata b) (x / 64) with
       | Some w => Ok (negb (N.land w (N.shiftl 1 (x mod 64)) =? 0)%N)
       | None => Panic "index out of range"
       end.

(** bitset.go:67-76  Set *)
Definition bset (b : bitset) (x : N) : res bitset :=
  let offset := Z.quot (int_of_u64 x) 64 in
  let len := Z.of_nat (length (bdata b)) in
  let data := if (len - 1 <? offset)%Z
              then bdata b ++ replicate (Z.to_nat (offset - (len - 1))) 0%N
              else bdata b in
  match nth_N data (x / 64) with
  | Some w =>
      Ok (mkBitset (<[N.to_nat (x / 64) := N.lor w (N.shiftl 1 (x mod 64))]> data)
                   (Z.max (bsize b) (wrap64 (int_of_u64 x + 1))))
  | None => Panic "index out of range"
  end.

(** bitset.go:113-120  Unset.  The subtraction is uint64 subtraction (wraps). *)
Definition bunset (b : bitset) (x : N) : res bitset :=
  let offset := Z.quot (int_of_u64 x) 64 in
  if (Z.of_nat (length (bdata b)) <=? offset)%Z then Ok b
  else match nth_Z (bdata b) offset with
       | Some w =>
           Ok (mkBitset (<[Z.to_nat offset := ((w + p64 - N.shiftl 1 (x mod 64)) mod p64)%N]> (bdata b))
                        (bsize b))
       | None => Panic "index out of range"
       end.

(** bitset.go:23-36  NewBitset *)
Definition new_bitset (size : Z) : res bitset :=
  if (size <? 0)%Z then Panic "Bitmaps cannot have a negative size"
  else
    let r := mkBitset [] size in
    if (0 <? size)%Z then
      let maxIndex := u64_of_int (size - 1) in
      let! r1 := bset r maxIndex in
      bunset r1 maxIndex
    else Ok r.

(** bitset.go:40-42  Size *)
Definition bsize_of (b : bitset) : Z := bsize b.

(** bitset.go:45-54  Count: inner loop over one word (a uint64 has at most 64
    bits, so 64 iterations always suffice) and outer loop over the words. *)
Fixpoint popcount_loop (fuel : nat) (unit result : N) : N :=
  match fuel with
  | O => result
  | S f => if (0 <? unit)%N
           then popcount_loop f (N.shiftr unit 1) (result + N.land unit 1)
           else result
  end.
Definition bcount (b : bitset) : Z :=
  Z.of_N (foldl (fun result unit => popcount_loop 64 unit result) 0%N (bdata b)).

(** The word with bits 0..lastIndex set, as written at bitset.go:90 and 108:
    (((1 << lastIndex) - 1) << 1) | 1 in uint64.  A negative shift panics. *)
Definition max_u64 : N := 18446744073709551615.
Definition last_mask (lastIndex : Z) : res N :=
  if (lastIndex <? 0)%Z then Panic "negative shift amount"
  else Ok (N.lor (N.shiftl ((N.shiftl 1 (Z.to_N lastIndex) mod p64 + p64 - 1) mod p64) 1 mod p64) 1).

(** data[i] = v *)
Definition upd_Z (l : list N) (i : Z) (v : N) : res (list N) :=
  match nth_Z l i with
  | Some _ => Ok (<[Z.to_nat i := v]> l)
  | None => Panic "index out of range"
  end.

(** bitset.go:79-92  Fill *)
Definition bfill (b : bitset) : res bitset :=
  if (bsize b =? 0)%Z then Ok b
  else
    let maxOffset := Z.quot (bsize b - 1) 64 in
    let! data := for_list (seqZ 0 maxOffset) (fun i d => upd_Z d i max_u64) (bdata b) in
    let lastIndex := Z.rem (bsize b - 1) 64 in
    let! m := last_mask lastIndex in
    let! data' := upd_Z data maxOffset m in
    Ok (mkBitset data' (bsize b)).

(** bitset.go:95-109  Full *)
Fixpoint all_max (l : list Z) (data : list N) : res bool :=
  match l with
  | [] => Ok true
  | i :: l' => match nth_Z data i with
               | None => Panic "index out of range"
               | Some w => if (w =? max_u64)%N then all_max l' data else Ok false
               end
  end.
Definition bfull (b : bitset) : res bool :=
  if (bsize b =? 0)%Z then Ok true
  else
    let maxOffset := Z.quot (bsize b - 1) 64 in
    let! a := all_max (seqZ 0 maxOffset) (bdata b) in
    if a then
      let lastIndex := Z.rem (bsize b - 1) 64 in
      match nth_Z (bdata b) maxOffset with
      | None => Panic "index out of range"
      | Some w => let! m := last_mask lastIndex in Ok (w =? m)%N
      end
    else Ok false.

(** bitset.go:286-291  shorterFirst *)
Definition shorter_first (a b : bitset) : bitset * bitset :=
  if (length (bdata a) <? length (bdata b))%nat then (a, b) else (b, a).

(** bitset.go:122-136  b.Union(a) *)
Definition bunion (b a : bitset) : bitset :=
  let '(shorter, longer) := shorter_first a b in
  mkBitset (zip_with N.lor (bdata shorter) (bdata longer)
            ++ drop (length (bdata shorter)) (bdata longer)) 0.

(** bitset.go:138-148  b.Intersect(a) *)
Definition bintersect (b a : bitset) : bitset :=
  let '(shorter, longer) := shorter_first a b in
  mkBitset (zip_with N.land (bdata shorter) (bdata longer)) 0.

(** bitset.go:168-185  filledRanges.  Loop state: (result, rStart, rEnd). *)
Definition filled_body (b : bitset) (i : Z) (s : list N * Z * Z) : res (list N * Z * Z) :=
  let '(result, rStart, rEnd) := s in
  let! g := bget b (u64_of_int i) in
  if g then Ok (result, rStart, i)
  else
    let result' := if (rStart <=? rEnd)%Z
                   then result ++ [u16_of_int rStart; u16_of_int rEnd] else result in
    Ok (result', (i + 1)%Z, rEnd).
Definition filled_ranges (b : bitset) (start end_ : Z) : res (list N) :=
  let! s := for_list (seqZ start (end_ - start + 1)) (filled_body b) ([], start, (start - 1)%Z) in
  let '(result, rStart, rEnd) := s in
  Ok (if (rStart <=? rEnd)%Z then result ++ [u16_of_int rStart; u16_of_int rEnd] else result).

(** bitset.go:150-160  Overlap; ranges[i+1] panics on an odd-length list. *)
Fixpoint boverlap (b : bitset) (ranges : list N) : res (list N) :=
  match ranges with
  | [] => Ok []
  | [_] => Panic "index out of range"
  | start :: end_ :: rest =>
      let! r := filled_ranges b (Z.of_N start) (Z.of_N end_) in
      let! rs := boverlap b rest in
      Ok (r ++ rs)
  end.

(** bitset.go:162-166  Ranges *)
Definition branges (b : bitset) : res (list N) := filled_ranges b 0 (bsize b).

(** common/range.go:4-16  Range *)
Record range := mkRange { r_start : N; r_end : N }.

(** bitset.go:187-207  UnfilledRanges *)
Definition unfilled_body (b : bitset) (i : Z) (s : list range * Z * Z) : res (list range * Z * Z) :=
  let '(result, rStart, rEnd) := s in
  let! g := bget b (u64_of_int i) in
  if negb g then Ok (result, rStart, i)
  else
    let result' := if (rStart <=? rEnd)%Z
                   then result ++ [mkRange (u16_of_int rStart) (u16_of_int rEnd)] else result in
    Ok (result', (i + 1)%Z, rEnd).
Definition bunfilled_ranges (b : bitset) : res (list range) :=
  let! s := for_list (seqZ 0 (bsize b)) (unfilled_body b) ([], 0%Z, (-1)%Z) in
  let '(result, rStart, rEnd) := s in
  Ok (if (rStart <=? rEnd)%Z then result ++ [mkRange (u16_of_int rStart) (u16_of_int rEnd)] else result).

(** bitset.go:209-222  UnfilledItems: the loop stops when the result reaches the
    requested capacity or i reaches uint64(size). *)
Fixpoint unfilled_items_loop (l : list Z) (b : bitset) (count : nat) (result : list N) : res (list N) :=
  match l with
  | [] => Ok result
  | i :: l' =>
      if (length result <? count)%nat then
        let! g := bget b (u64_of_int i) in
        unfilled_items_loop l' b count (if g then result else result ++ [u16_of_int i])
      else Ok result
  end.
Definition bunfilled_items (b : bitset) (count : Z) : res (list N) :=
  if (count <? 0)%Z then Panic "makeslice: cap out of range"
  else unfilled_items_loop (seqZ 0 (Z.of_N (u64_of_int (bsize b)))) b (Z.to_nat count) [].

(** bitset.go:238-253  Serialize *)
Definition bserialize (b : bitset) : list byte :=
  be 8 (u64_of_int (bsize b)) ++ concat (map (be 8) (bdata b)).

(** bitset.go:255-273  Deserialize.  data[:8] followed by data[8:] panics exactly
    when fewer than 8 bytes are present (data[:8] alone may succeed within the
    capacity of the slice returned by os.ReadFile, data[8:] never does). *)
Definition bdeserialize (data : list byte) : res bitset :=
  if (length data <? 8)%nat then Panic "slice bounds out of range"
  else
    let size := int_of_u64 (unbe (take 8 data)) in
    let l := length (drop 8 data) in
    if negb (Nat.modulo l 8 =? 0)%nat then Err "data segment of bitset data must be a multiple of 8"
    else
      Ok (mkBitset (map (fun i => unbe (take 8 (drop (8 + i * 8) data))) (seq 0 (Nat.div l 8))) size).

(** bitset.go:275-280  Copy (as values; see BitsetHeap.v for the aliasing view) *)
Definition bcopy (b : bitset) : bitset := mkBitset (bdata b) (bsize b).
