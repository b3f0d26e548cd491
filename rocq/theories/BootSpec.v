(** Specification vocabulary for the first start of a daemon (C125). *)
From Verif Require Export CrashSpec.

(** [above p d]: path [p] is [d] or one of the directories [d] lies in *)
Inductive above : path -> path -> Prop :=
| ab_self d : above d d
| ab_up p d : above p d -> above (parent p) d.
(** no regular file is in the way of directory [d] *)
Definition way_clear (f : fs) (d : path) : Prop := forall p l, above p d -> f !! p <> Some (NFile l).
