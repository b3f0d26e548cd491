(** Specification vocabulary for locks and shared memory. *)
From Verif Require Export Locks.

(** what a goroutine does next *)
Definition about_to (g : goroutine) (a : act) : Prop := exists t, g.2 = a :: t.
(** a data race on [l]: two goroutines use it at the same time and one of them writes *)
Definition race (gs : list goroutine) (l : loc) : Prop :=
  exists i j g g', i <> j /\ gs !! i = Some g /\ gs !! j = Some g' /\ about_to g (Wr l) /\ (about_to g' (Rd l) \/ about_to g' (Wr l)).
(** calls [c] and [d], made by two goroutines that do nothing else, can race on [l] *)
Definition can_race (c d : call) (l : loc) : Prop :=
  exists p q gs, p ∈ paths c /\ q ∈ paths d /\ gmoves [([], p); ([], q)] gs /\ race gs l.
(** calls that use and that write a location *)
Definition uses (c : call) (l : loc) : Prop := exists p, p ∈ paths c /\ (Rd l ∈ p \/ Wr l ∈ p).
Definition writes (c : call) (l : loc) : Prop := exists p, p ∈ paths c /\ Wr l ∈ p.
(** the calls that use a location without its lock *)
Inductive unlocked : call -> loc -> Prop :=
| un_contains l : l = LIndex \/ l = LRecord -> unlocked CContains l
| un_rehash l : l = LIndex \/ l = LRecord -> unlocked CRehash l
| un_start : unlocked CStartUpload LUploads
| un_continue : unlocked CContinueUpload LUploads.
(** all work is done *)
Definition done_all (gs : list goroutine) : Prop := forall i g, gs !! i = Some g -> g.2 = [].
(** how much is left to do *)
Definition todo_count (gs : list goroutine) : nat := sum_list_with (fun g : goroutine => length g.2) gs.
