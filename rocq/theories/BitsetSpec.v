(** Specification vocabulary for the bitset properties.  Only [mem], [api_reach]
    and [run_ops] mention the model (they say what "observable through the API"
    means); everything else is plain sets and lists. *)
From Verif Require Export Bitset.

(** [mem b x]: Get(x) returns true. *)
Definition mem (b : bitset) (x : N) : Prop := bget b x = Ok true.

(** Mutating calls of the API. *)
Inductive bop := BSet (x : N) | BUnset (x : N) | BFill.
Definition run_op (o : bop) (b : bitset) : res bitset :=
  match o with BSet x => bset b x | BUnset x => bunset b x | BFill => bfill b end.
Fixpoint run_ops (os : list bop) (b : bitset) : res bitset :=
  match os with [] => Ok b | o :: os' => let! b' := run_op o b in run_ops os' b' end.

(** The abstract object: a finite set of indices and a size. *)
Definition all_below (n : Z) : gset N := list_to_set (map Z.to_N (seqZ 0 n)).
Definition spec_op (o : bop) (s : gset N * Z) : gset N * Z :=
  let '(X, n) := s in
  match o with
  | BSet x => ({[x]} ∪ X, Z.max n (Z.of_N x + 1))
  | BUnset x => (X ∖ {[x]}, n)
  | BFill => (all_below n, n)
  end.
Definition spec_ops (os : list bop) (s : gset N * Z) : gset N * Z := foldl (fun s o => spec_op o s) s os.
(** Calls covered by the refinement: indices below 2^63-1, and Unset only of a
    current member (see C02 for what happens otherwise). *)
Fixpoint legal (os : list bop) (s : gset N * Z) : Prop :=
  match os with
  | [] => True
  | o :: os' => match o with
                | BSet x => (x < p63 - 1)%N
                | BUnset x => x ∈ s.1
                | BFill => True
                end /\ legal os' (spec_op o s)
  end.

(** Bitsets a program can obtain through the API (with the same restriction on
    Unset), including through Copy and through a Serialize/Deserialize round trip. *)
Inductive api_reach : bitset -> Prop :=
| ar_new n b : (n < 9223372036854775808)%Z -> new_bitset n = Ok b -> api_reach b
| ar_set b x b' : api_reach b -> (x < p63 - 1)%N -> bset b x = Ok b' -> api_reach b'
| ar_unset b x b' : api_reach b -> mem b x -> bunset b x = Ok b' -> api_reach b'
| ar_fill b b' : api_reach b -> bfill b = Ok b' -> api_reach b'
| ar_copy b : api_reach b -> api_reach (bcopy b)
| ar_load b b' : api_reach b -> bdeserialize (bserialize b) = Ok b' -> api_reach b'.

(** ** Range lists *)
(** [separated lo ps]: the inclusive pairs are non-empty, sorted, start at or
    after [lo], and consecutive pairs neither overlap nor touch. *)
Fixpoint separated (lo : N) (ps : list (N * N)) : Prop :=
  match ps with
  | [] => True
  | (s, e) :: ps' => (lo <= s)%N /\ (s <= e)%N /\ separated (e + 2) ps'
  end.
(** x lies in one of the inclusive pairs. *)
Definition covered (ps : list (N * N)) (x : N) : Prop :=
  exists s e, (s, e) ∈ ps /\ (s <= x <= e)%N.
(** The []uint16 representation of a list of pairs. *)
Definition flatten (ps : list (N * N)) : list N := flat_map (fun p => [p.1; p.2]) ps.
