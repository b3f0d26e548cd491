(** Specification vocabulary for Clean: what should happen to each entry. *)
From Verif Require Export Clean CatalogueSpec.

Definition complete (a : aentry) : Prop := all_below (a_count a) ⊆ a_held a.
Global Instance complete_dec a : Decision (complete a).
Proof. unfold complete. apply _. Defined.
(** what Clean should do with entry [a] of hash [h] given what is on disk, and the
    hash it should report *)
Definition verdict (f : fs) (h : hash) (a : aentry) : action * hash :=
  match file_at f (a_path a) with
  | None => (RemovedMissing, replicate 20 xff)
  | Some l =>
      (if decide (complete a) then if decide (sha1 l = h) then Intact else RemovedChanged else InProgress, sha1 l)
  end.
Definition removes (a : action) : Prop := a = RemovedMissing \/ a = RemovedChanged.
(** the entry stays *)
Definition stays (f : fs) (h : hash) (a : aentry) : Prop :=
  exists l, file_at f (a_path a) = Some l /\ (complete a -> sha1 l = h).
