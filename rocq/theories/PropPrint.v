(** C117: what Bitset.Print shows. *)
From Verif Require Import BitsetPrint.

(** *** C117: Print shows the size in decimal and then, in lines of 64 digits, exactly the members: the
    digit for index 64k+j is the (j+1)th from the right in line k. *)
Theorem C117_print : forall b, api_reach b -> prints (bsize_of b) (mem b) (bprint b).
Proof. exact C117_lemma. Qed.
Print Assumptions C117_print.
(** a text is the print of one size and one set only, so equal prints mean equal sets *)
Theorem C117_print_tells_all : forall n S n' S' t, prints n S t -> prints n' S' t -> n = n' /\ forall x, S x <-> S' x.
Proof. exact C117_tells_lemma. Qed.
Print Assumptions C117_print_tells_all.
Example C117_case :
  match (let! b := new_bitset 5 in run_ops [BSet 3; BSet 70; BSet 64] b) with
  | Ok b => bprint b = str "size: 71" ++ nl
      ++ str "0000000000000000000000000000000000000000000000000000000000001000" ++ nl
      ++ str "0000000000000000000000000000000000000000000000000000000001000001" ++ nl
  | _ => False end.
Proof. vm_compute. reflexivity. Qed.
