(** Specification vocabulary for entries under concurrent use. *)
From Verif Require Export Fill.

(** the states the daemon can be in, from either beginning *)
Inductive fbegin : fstate -> Prop :=
| fb_fresh n held : held ⊆ all_chunks n -> fbegin (fresh_entry n held)
| fb_restart n d held : d ⊆ held -> held ⊆ all_chunks n -> fbegin (restarted n d held).
Definition freach (s : fstate) : Prop := exists s0, fbegin s0 /\ fsteps s0 s.
(** the chunks that call [i] answered with; [None]: an error *)
Definition answered (s : fstate) (i : nat) (r : option (gset nat)) : Prop := exists k, f_thr s !! i = Some (k, PDone r).
(** call [i] was SaveChunk of [x] and has returned *)
Definition saved (s : fstate) (i x : nat) : Prop := exists r, f_thr s !! i = Some (KSave x, PDone r).
(** nobody is doing anything *)
Definition quiet (s : fstate) : Prop := forall i k p, f_thr s !! i = Some (k, p) -> exists r, p = PDone r.
(** the record has been loaded, and nobody is loading it *)
Definition settled (s : fstate) : Prop :=
  m_ptr (f_mem s) <> None /\ (forall i k, f_thr s !! i <> Some (k, PLoad)) /\ (forall i k o, f_thr s !! i <> Some (k, PAssign o)).
