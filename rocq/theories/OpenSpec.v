(** Specification vocabulary for opening a catalogue whose index file may be anything. *)
From Verif Require Export CatalogueSpec HashProofs.

(** [s] is the text form of [h], in either case *)
Definition spells (s : list byte) (h : hash) : Prop :=
  hash_wf h /\ length s = 40 /\ Forall is_hex s /\ map lower s = hash_string h.
(** the record [r] says what [j] says; its progress is not loaded *)
Definition tells (j : jrec) (r : irec) : Prop :=
  r_path r = j_path j /\ r_size r = j_size j /\ r_chunk r = j_chunk j /\ spells (j_hash j) (r_hash r) /\ r_prog r = None.
(** every hash in the file is 40 hexadecimal digits *)
Definition sound_index (x : jindex) : Prop :=
  forall k j, ji_index x !! k = Some j -> (exists h, spells k h) /\ (exists h, spells (j_hash j) h).
