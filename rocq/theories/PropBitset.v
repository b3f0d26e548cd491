(** Properties C01-C13: common/bitset/bitset.go.  Vocabulary: BitsetSpec.v. *)
From Verif Require Import BitsetHeap.

(** C01. Any legal history behaves as a finite set plus a size. *)
Theorem C01_bitset_is_a_set : forall n os,
  (0 <= n < 9223372036854775808)%Z -> legal os (∅, n) ->
  exists b0 b, new_bitset n = Ok b0 /\ run_ops os b0 = Ok b /\
    let '(X, m) := spec_ops os (∅, n) in
    bsize_of b = m /\ bcount b = Z.of_nat (size X) /\
    forall x, (x < p63)%N -> bget b x = Ok (bool_decide (x ∈ X)).
Proof. exact C01_lemma. Qed.
Print Assumptions C01_bitset_is_a_set.
Example C01_case : legal [BSet 3; BSet 70; BUnset 3; BFill; BUnset 64] (∅, 5%Z).
Proof.
  cbn [legal fst spec_op]. split_and!; try (unfold p63; lia); done.
Qed.
Example C01_case_value :
  match (let! b := new_bitset 5 in run_ops [BSet 3; BSet 70; BUnset 3; BSet 64] b) with
  | Ok b => bsize_of b = 71%Z /\ bcount b = 2%Z /\ bget b 64 = Ok true /\ bget b 3 = Ok false
  | _ => False end.
Proof. vm_compute. repeat split; reflexivity. Qed.

(** C02, full statement (false): Unset(x) never changes other members and makes
    x a non-member.  Counterexample: Unset(0) on a fresh bitset of size 64 makes
    all 64 indices members. *)
Theorem C02_unset_nonmember_refuted :
  exists b b', api_reach b /\ (forall x, ~ mem b x) /\ bunset b 0 = Ok b' /\
    (forall x, (x < 64)%N -> mem b' x).
Proof. exact C02_refuted_lemma. Qed.
Print Assumptions C02_unset_nonmember_refuted.
(** Worse, it happens for every non-member below Size(): Unset turns it into a member. *)
Theorem C02_unset_nonmember_always_sets : forall b x,
  api_reach b -> (Z.of_N x < bsize_of b)%Z -> ~ mem b x ->
  exists b', bunset b x = Ok b' /\ bsize_of b' = bsize_of b /\ mem b' x.
Proof. exact C02_nonmember_lemma. Qed.
Print Assumptions C02_unset_nonmember_always_sets.
(** Guarded positive part: Unset of a member removes exactly it (missing: non-members). *)
Theorem C02_unset_member_partial : forall b x, api_reach b -> mem b x ->
  exists b', bunset b x = Ok b' /\ bsize_of b' = bsize_of b /\
    forall y, mem b' y <-> mem b y /\ y <> x.
Proof. exact C02_member_lemma. Qed.
Print Assumptions C02_unset_member_partial.
(** and Unset beyond the allocated words is a no-op. *)
Theorem C02_unset_outside_noop : forall b x, api_reach b -> (x < p63)%N ->
  (bsize_of b + 63 < Z.of_N x)%Z -> bunset b x = Ok b.
Proof. exact C02_outside_lemma. Qed.
Print Assumptions C02_unset_outside_noop.
Example C02_case : exists b, api_reach b /\ mem b 7 /\ ~ mem b 8 /\ (8 < bsize_of b)%Z.
Proof.
  destruct (new_bitset 9) as [b0| |] eqn:E0; [|by vm_compute in E0..].
  destruct (bset b0 7) as [b1| |] eqn:E1; [|by vm_compute in E0; injection E0 as <-; vm_compute in E1..].
  exists b1. split_and!.
  - eapply ar_set; [eapply ar_new; [|exact E0]; lia| |exact E1]. unfold p63; lia.
  - vm_compute in E0; injection E0 as <-; vm_compute in E1; injection E1 as <-. reflexivity.
  - vm_compute in E0; injection E0 as <-; vm_compute in E1; injection E1 as <-. by vm_compute.
  - vm_compute in E0; injection E0 as <-; vm_compute in E1; injection E1 as <-. reflexivity.
Qed.

(** C03. Out-of-range accesses, exactly.  Below 2^63 Get and Set are total; at
    and above 2^63 Set always panics, and Get panics except on an empty bitset
    with one of the 63 highest indices. *)
Theorem C03_out_of_range_partial : forall b x, api_reach b -> (x < p64)%N ->
  ((x < p63)%N -> exists r, bget b x = Ok r) /\
  ((x < p63)%N -> (bsize_of b + 63 < Z.of_N x)%Z -> bget b x = Ok false) /\
  ((x < p63 - 1)%N -> exists b', bset b x = Ok b' /\ api_reach b') /\
  ((p63 <= x)%N -> is_panic (bset b x) /\
     (is_panic (bget b x) <-> (0 < bsize_of b)%Z \/ (x <= p64 - 64)%N)).
Proof. exact C03_lemma. Qed.
Print Assumptions C03_out_of_range_partial.
(** The full claim (every uint64 index) is false. *)
Theorem C03_get_total_refuted : exists b x, api_reach b /\ (x < p64)%N /\ is_panic (bget b x).
Proof. exact C03_refuted_lemma. Qed.
Print Assumptions C03_get_total_refuted.
(** 70 indices: 3 is held, 75 and 1000 are not, setting 1000 makes room; 2^63 is fatal, 2^64-1 only for a bitset that is not empty *)
Example C03_case : match (let! b := new_bitset 70 in bset b 3) with
  | Ok b => bget b 3 = Ok true /\ bget b 75 = Ok false /\ bget b 1000 = Ok false
      /\ (let! b' := bset b 1000 in bget b' 1000) = Ok true
      /\ is_panic (bset b 9223372036854775808) /\ is_panic (bget b 9223372036854775808) /\ is_panic (bget b 18446744073709551615)
  | _ => False end
  /\ (let! b := new_bitset 0 in bget b 18446744073709551615) = Ok false.
Proof. vm_compute. repeat split; eauto. Qed.

(** C04. Full and Fill. *)
Theorem C04_full_fill : forall b, api_reach b ->
  (exists r, bfull b = Ok r /\ (r = true <-> forall y, (Z.of_N y < bsize_of b)%Z -> mem b y)) /\
  (exists b', bfill b = Ok b' /\ bsize_of b' = bsize_of b /\ bfull b' = Ok true /\
     forall y, mem b' y <-> (Z.of_N y < bsize_of b)%Z).
Proof. exact C04_lemma. Qed.
Print Assumptions C04_full_fill.
(** Count never exceeds Size, and equals it exactly when Full. *)
Theorem C04_count_size : forall b, api_reach b ->
  (bcount b <= bsize_of b)%Z /\ (bfull b = Ok true <-> bcount b = bsize_of b).
Proof. exact C04_count_lemma. Qed.
Print Assumptions C04_count_size.
Example C04_case : match (let! b := new_bitset 128 in bfill b) with
  | Ok b => bfull b = Ok true /\ bcount b = 128%Z | _ => False end.
Proof. vm_compute. split; reflexivity. Qed.

(** C05. Ranges. *)
Theorem C05_ranges_exact : forall b, api_reach b -> (bsize_of b <= 65536)%Z ->
  exists ps, branges b = Ok (flatten ps) /\ separated 0 ps /\ (forall x, covered ps x <-> mem b x).
Proof. exact C05_lemma. Qed.
Print Assumptions C05_ranges_exact.
Example C05_case : match (let! b := new_bitset 100 in run_ops [BSet 0; BSet 1; BSet 63; BSet 64; BSet 99] b) with
  | Ok b => branges b = Ok [0;1;63;64;99;99]%N | _ => False end.
Proof. vm_compute. reflexivity. Qed.

(** C06. Overlap of well-formed requests, and exactly which requests panic. *)
Theorem C06_overlap_exact : forall b qs, api_reach b ->
  Forall (fun q => q.1 < 65536 /\ q.2 < 65536)%N qs ->
  exists pss, boverlap b (flatten qs) = Ok (flatten (concat pss)) /\
    Forall2 (fun q ps => separated q.1 ps /\
               (forall x, covered ps x <-> (q.1 <= x <= q.2)%N /\ mem b x)) qs pss.
Proof. exact C06_lemma. Qed.
Print Assumptions C06_overlap_exact.
Theorem C06_overlap_panics_iff_odd : forall b l, Forall (fun v => v < 65536)%N l ->
  (is_panic (boverlap b l) <-> Nat.odd (length l) = true) /\ ~ is_err (boverlap b l).
Proof. exact C06_odd_lemma. Qed.
Print Assumptions C06_overlap_panics_iff_odd.
Example C06_case : match (let! b := new_bitset 100 in run_ops [BSet 3; BSet 4; BSet 60] b) with
  | Ok b => boverlap b [0;3;50;70;9;2]%N = Ok [3;3;60;60]%N /\ is_panic (boverlap b [0]%N) | _ => False end.
Proof. vm_compute. split; [reflexivity|by eexists]. Qed.

(** C07. Missing ranges and missing items. *)
Theorem C07_missing_ranges_exact : forall b, api_reach b -> (bsize_of b <= 65536)%Z ->
  exists ps, bunfilled_ranges b = Ok (map (fun p => mkRange p.1 p.2) ps) /\ separated 0 ps /\
    (forall x, covered ps x <-> (Z.of_N x < bsize_of b)%Z /\ ~ mem b x).
Proof. exact C07_ranges_lemma. Qed.
Print Assumptions C07_missing_ranges_exact.
Theorem C07_missing_items_smallest : forall b k, api_reach b -> (bsize_of b <= 65536)%Z -> (0 <= k)%Z ->
  exists l, bunfilled_items b k = Ok l /\ StronglySorted N.lt l /\ (Z.of_nat (length l) <= k)%Z /\
    (forall x, x ∈ l -> (Z.of_N x < bsize_of b)%Z /\ ~ mem b x) /\
    (forall x, (Z.of_N x < bsize_of b)%Z -> ~ mem b x -> x ∉ l ->
       Z.of_nat (length l) = k /\ forall y, y ∈ l -> (y < x)%N).
Proof. exact C07_items_lemma. Qed.
Print Assumptions C07_missing_items_smallest.
Example C07_case : match (let! b := new_bitset 6 in run_ops [BSet 0; BSet 3] b) with
  | Ok b => bunfilled_ranges b = Ok [mkRange 1 2; mkRange 4 5]%N /\ bunfilled_items b 3 = Ok [1;2;4]%N
  | _ => False end.
Proof. vm_compute. split; reflexivity. Qed.

(** C08, full statement (false): for more than 65536 indices the missing ranges
    may name only held chunks. *)
Theorem C08_missing_ranges_large_refuted : exists b, api_reach b /\ (65536 < bsize_of b)%Z /\ mem b 0 /\
  bunfilled_ranges b = Ok [mkRange 0 0] /\ ~ mem b 65536.
Proof. exact C08_lemma. Qed.
Print Assumptions C08_missing_ranges_large_refuted.
(** What holds for every size: the ranges are the exact missing ranges reduced mod 65536. *)
Theorem C08_missing_ranges_mod_partial : forall b, api_reach b ->
  exists ps, bunfilled_ranges b = Ok (map (fun p => mkRange (p.1 mod 65536) (p.2 mod 65536))%N ps) /\
    separated 0 ps /\ (forall x, covered ps x <-> (Z.of_N x < bsize_of b)%Z /\ ~ mem b x).
Proof. exact C08_mod_lemma. Qed.
Print Assumptions C08_missing_ranges_mod_partial.
(** 10 indices of which 2, 3 and 9 are held: the ranges are exact *)
Example C08_case : (let! b := new_bitset 10 in let! b := run_ops [BSet 2; BSet 3; BSet 9] b in bunfilled_ranges b) = Ok [mkRange 0 1; mkRange 4 8].
Proof. vm_compute. reflexivity. Qed.

(** C09. Union and Intersect are pointwise (operands are values, so unchanged). *)
Theorem C09_union_intersect : forall a b x, (x < p63)%N ->
  exists ga gb, bget a x = Ok ga /\ bget b x = Ok gb /\
    bget (bunion a b) x = Ok (ga || gb) /\ bget (bintersect a b) x = Ok (ga && gb).
Proof. exact C09_lemma. Qed.
Print Assumptions C09_union_intersect.
Example C09_case : bget (bunion (mkBitset [5%N] 3) (mkBitset [2%N; 1%N] 65)) 64 = Ok true /\
  bget (bintersect (mkBitset [5%N] 3) (mkBitset [6%N; 1%N] 65)) 2 = Ok true.
Proof. vm_compute. split; reflexivity. Qed.

(** C10, full statement (false): the result's Size() covers its members.  In
    fact Size() is always 0 and Full() always true. *)
Theorem C10_union_size_refuted : exists a b, api_reach a /\ api_reach b /\ mem (bunion a b) 1 /\
  bsize_of (bunion a b) = 0%Z /\ bfull (bunion a b) = Ok true /\ ~ mem (bunion a b) 0.
Proof. exact C10_refuted_lemma. Qed.
Print Assumptions C10_union_size_refuted.
Theorem C10_result_size_always_zero : forall a b,
  bsize_of (bunion a b) = 0%Z /\ bsize_of (bintersect a b) = 0%Z /\
  bfull (bunion a b) = Ok true /\ bfull (bintersect a b) = Ok true.
Proof. exact C10_lemma. Qed.
Print Assumptions C10_result_size_always_zero.
(** the union of {0, 2} and {1, 64} has four members and the size 0 *)
Example C10_case : let u := bunion (mkBitset [5%N] 3) (mkBitset [2%N; 1%N] 65) in
  bcount u = 4%Z /\ bget u 64 = Ok true /\ bsize_of u = 0%Z /\ bfull u = Ok true.
Proof. vm_compute. repeat split. Qed.

(** C11. Serialization round trip (any word contents that fit uint64, any int size). *)
Theorem C11_serialize_roundtrip : forall b,
  Forall (fun w => w < p64)%N (bdata b) -> (-9223372036854775808 <= bsize b < 9223372036854775808)%Z ->
  bdeserialize (bserialize b) = Ok b.
Proof. exact bdeserialize_serialize. Qed.
Print Assumptions C11_serialize_roundtrip.
Theorem C11_serialize_injective : forall a b, api_reach a -> api_reach b ->
  bserialize a = bserialize b -> a = b.
Proof. exact C11_inj_lemma. Qed.
Print Assumptions C11_serialize_injective.
Example C11_case : bdeserialize (bserialize (mkBitset [513%N; 1%N] 70)) = Ok (mkBitset [513%N; 1%N] 70).
Proof. vm_compute. reflexivity. Qed.

(** C12. Deserialize of arbitrary bytes. *)
Theorem C12_deserialize_outcomes : forall data,
  (length data < 8 -> is_panic (bdeserialize data)) /\
  (8 <= length data -> length data mod 8 <> 0 -> is_err (bdeserialize data)) /\
  (8 <= length data -> length data mod 8 = 0 -> exists b, bdeserialize data = Ok b /\ bserialize b = data).
Proof. exact bdeserialize_cases. Qed.
Print Assumptions C12_deserialize_outcomes.
Example C12_case : is_panic (bdeserialize [x00]) /\ is_err (bdeserialize (replicate 9 x00)) /\
  bdeserialize (replicate 15 x00 ++ [x07] ++ replicate 8 x00) = Ok (mkBitset [7%N; 0%N] 0).
Proof. vm_compute. split_and!; [by eexists|by eexists|reflexivity]. Qed.

(** C13. Copies are isolated: after Copy, any interleaving of mutations of the
    original and of the copy leaves each side as if only its own calls had been
    made (whatever capacities append chooses). *)
Theorem C13_copy_isolated : forall newcap os h a h1 c h' a' c',
  hvalid h a -> hcopy h a = (h1, c) -> hrun newcap os h1 a c = Ok (h', a', c') ->
  hview h1 a = hview h a /\
  run_ops (ops_of false os) (hview h a) = Ok (hview h' a') /\
  run_ops (ops_of true os) (hview h a) = Ok (hview h' c').
Proof. exact C13_lemma. Qed.
Print Assumptions C13_copy_isolated.
Theorem C13_copy_runs : forall newcap os h a b ra rb,
  hvalid h a -> hvalid h b -> hptr a <> hptr b ->
  run_ops (ops_of false os) (hview h a) = Ok ra ->
  run_ops (ops_of true os) (hview h b) = Ok rb ->
  exists h' a' b', hrun newcap os h a b = Ok (h', a', b').
Proof. exact hrun_total. Qed.
Print Assumptions C13_copy_runs.
(** Non-vacuity: with spare capacity and growth on both sides. *)
Example C13_case :
  let h := <[0 := [1; 0; 0; 0]%N]> ∅ : gmap nat (list N) in
  let a := mkH 0 1 3 in
  let '(h1, c) := hcopy h a in
  hvalid h a /\
  match hrun (fun n => n) [(false, BSet 70); (true, BSet 71); (true, BSet 400); (false, BSet 2)] h1 a c with
  | Ok (h', a', c') => hview h' a' = mkBitset [5; 64]%N 71 /\
                       hview h' c' = mkBitset [1; 128; 0; 0; 0; 0; 65536]%N 401
  | _ => False end.
Proof. vm_compute. split; [|split; reflexivity]. eexists. split; [reflexivity|]. repeat constructor. Qed.
(** A copy that only duplicated the slice header would not be isolated. *)
Example C13_shallow_not_isolated :
  let h := <[0 := [1; 0]%N]> ∅ : gmap nat (list N) in
  let a := mkH 0 1 3 in
  let '(h1, c) := hshallow h a in
  match hrun (fun n => n) [(true, BSet 2)] h1 a c with
  | Ok (h', a', c') => hview h' a' <> hview h a
  | _ => False end.
Proof. vm_compute. congruence. Qed.
