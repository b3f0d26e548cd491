(** Model of one catalogue entry under concurrent use: catalogue.go takes the lock in
    every method except Contains and Rehash, and getIndexRecord loads the progress
    file when it is first needed.  Here every access to the shared record, the progress
    files in memory and the progress file on disk is a step of its own.
    Simplified: one entry, which is not unshared; a progress file's contents are
    the set of chunks that it lists (C11: loading gives back what was saved); copying and
    updating a bitset is one step; the order in which threads are scheduled is free. *)
From stdpp Require Export prelude list gmap sets fin_sets list_numbers.

(** The methods that use an entry.
    [KPeek]: catalogue.go:170-190 Contains, Rehash, which do not lock.
    [KRead]: catalogue.go:148-166, 241-249 ListFiles, GetChunkReader: errors are returned.
    [KMust]: catalogue.go:193-222 Get, FileComplete, MissingChunks: errors panic.
    [KSave x]: catalogue.go:224-239 SaveChunk of chunk [x].
    [KReg]: catalogue.go:113-143 RegisterDownload.  [KShare]: catalogue.go:63-85 ShareFile. *)
Inductive fkind := KPeek | KRead | KMust | KSave (x : nat) | KReg | KShare.
(** where a method is, and what it returned *)
Inductive fpc :=
| PStart                        (* before the lock, if the method takes it *)
| PTest                         (* catalogue.go:252,260: look the record up, is ProgressFile nil? *)
| PLoad                         (* catalogue.go:261, progressFile.go:108-126 *)
| PAssign (o : nat)             (* catalogue.go:265 *)
| PUse                          (* catalogue.go:189,210,221,248; 232 for SaveChunk *)
| PSet                          (* catalogue.go:237 *)
| PSer                          (* progressFile.go:93 *)
| PTrunc (d : gset nat)         (* progressFile.go:95: os.WriteFile opens with O_TRUNC ... *)
| PWrite (d : gset nat)         (* ... and then writes *)
| PAdd                          (* catalogue.go:72,131, indexFile.go:95-101 *)
| PNew                          (* catalogue.go:77,136 *)
| PFill                         (* catalogue.go:78 *)
| PDone (r : option (gset nat))  (* returned; [None]: an error *)
.
(** the progress file on disk *)
Inductive fdisk := FMissing | FShort | FSet (d : gset nat).
(** [m_count]: number of chunks; [m_index]: whether the index has the record;
    [m_ptr]: its ProgressFile; [m_heap]: the progressFiles in memory; [m_held]: the
    chunks whose bytes are in the file; [m_lock]: the thread that holds Cat.lock *)
Record fmem := mkMem { m_count : nat; m_index : bool; m_ptr : option nat; m_heap : list (gset nat);
  m_disk : fdisk; m_held : gset nat; m_lock : option nat }.
(** all chunks: bitset.go Fill *)
Definition all_chunks (n : nat) : gset nat := set_seq 0 n.
Definition set_lock (m : fmem) (l : option nat) : fmem :=
  mkMem (m_count m) (m_index m) (m_ptr m) (m_heap m) (m_disk m) (m_held m) l.
Definition set_disk (m : fmem) (d : fdisk) : fmem :=
  mkMem (m_count m) (m_index m) (m_ptr m) (m_heap m) d (m_held m) (m_lock m).
Definition set_ptr (m : fmem) (o : nat) : fmem :=
  mkMem (m_count m) (m_index m) (Some o) (m_heap m) (m_disk m) (m_held m) (m_lock m).
Definition new_obj (m : fmem) (d : gset nat) : fmem :=
  mkMem (m_count m) (m_index m) (m_ptr m) (m_heap m ++ [d]) (m_disk m) (m_held m) (m_lock m).
(** the progress that the record shows *)
Definition progress (m : fmem) : gset nat :=
  match m_ptr m with Some o => m_heap m !!! o | None => ∅ end.
Definition set_progress (m : fmem) (f : gset nat -> gset nat) : fmem :=
  match m_ptr m with
  | Some o => mkMem (m_count m) (m_index m) (m_ptr m) (alter f o (m_heap m)) (m_disk m) (m_held m) (m_lock m)
  | None => m
  end.
Definition hold (m : fmem) (x : nat) : fmem :=
  mkMem (m_count m) (m_index m) (m_ptr m) (m_heap m) (m_disk m) (m_held m ∪ {[x]}) (m_lock m).
Definition add_index (m : fmem) : fmem :=
  mkMem (m_count m) true (m_ptr m) (m_heap m) (m_disk m) (m_held m) (m_lock m).

(** whether the method locks *)
Definition locks (k : fkind) : bool := match k with KPeek => false | _ => true end.
(** whether an error of getIndexRecord panics: catalogue.go:198,208,219,229 *)
Definition must (k : fkind) : bool := match k with KMust | KSave _ => true | _ => false end.
(** what the method does after the lock *)
Definition entry_pc (k : fkind) : fpc := match k with KReg | KShare => PAdd | _ => PTest end.
(** the deferred Unlock *)
Definition leave (k : fkind) (m : fmem) : fmem := if locks k then set_lock m None else m.
(** an error of getIndexRecord *)
Definition fail (k : fkind) (m : fmem) : option (fmem * fpc) :=
  if must k then None else Some (leave k m, PDone None).

(** The next step of thread [i].  [None]: it cannot move (it waits for the lock, or has
    returned); [Some None]: the process dies. *)
Definition tnext (i : nat) (k : fkind) (m : fmem) (p : fpc) : option (option (fmem * fpc)) :=
  match p with
  | PStart =>
      if locks k
      then match m_lock m with None => Some (Some (set_lock m (Some i), entry_pc k)) | Some _ => None end
      else Some (Some (m, entry_pc k))
  | PTest =>
      Some (if m_index m
            then match m_ptr m with Some _ => Some (m, PUse) | None => Some (m, PLoad) end
            else fail k m)
  | PLoad =>
      Some match m_disk m with
           | FMissing => fail k m
           | FShort => None   (* progressFile.go:116: Deserialize slices beyond its input, C12 *)
           | FSet d => Some (new_obj m d, PAssign (length (m_heap m)))
           end
  | PAssign o => Some (Some (set_ptr m o, PUse))
  | PUse =>
      Some (Some match k with
                 | KSave x => (hold m x, PSet)
                 | _ => (leave k m, PDone (Some (progress m)))
                 end)
  | PSet => Some (Some (match k with KSave x => set_progress m (fun d => d ∪ {[x]}) | _ => m end, PSer))
  | PSer => Some (Some (m, PTrunc (progress m)))
  | PTrunc d => Some (Some (set_disk m FShort, PWrite d))
  | PWrite d => Some (Some (leave k (set_disk m (FSet d)), PDone (Some d)))
  | PAdd => Some (Some (if m_index m then (leave k m, PDone None) else (add_index m, PNew)))
  | PNew => Some (Some (set_ptr (new_obj m ∅) (length (m_heap m)), match k with KShare => PFill | _ => PSer end))
  | PFill => Some (Some (set_progress m (fun _ => all_chunks (m_count m)), PSer))
  | PDone _ => None
  end.

(** the entry and the calls that have been made so far *)
Record fstate := mkF { f_mem : fmem; f_thr : list (fkind * fpc) }.
(** which calls can be made: FileComplete, MissingChunks and SaveChunk are called after
    Contains or RegisterDownload has found or made the record (serverStartDownload.go:16,
    37,50-53), SaveChunk for a chunk of the file; ShareFile is for a file that is there *)
Definition callable (m : fmem) (k : fkind) : Prop :=
  match k with
  | KMust => m_index m = true
  | KSave x => m_index m = true /\ x < m_count m
  | KShare => all_chunks (m_count m) ⊆ m_held m
  | _ => True
  end.
Inductive fstep : fstate -> fstate -> Prop :=
| f_call m ts k : callable m k -> fstep (mkF m ts) (mkF m (ts ++ [(k, PStart)]))
| f_move m ts i k p m' p' : ts !! i = Some (k, p) -> tnext i k m p = Some (Some (m', p')) ->
    fstep (mkF m ts) (mkF m' (<[i := (k, p')]> ts)).
(** some thread's next step kills the process *)
Definition fdies (s : fstate) : Prop :=
  exists i k p, f_thr s !! i = Some (k, p) /\ tnext i k (f_mem s) p = Some None.
Inductive fsteps : fstate -> fstate -> Prop :=
| fs_nil s : fsteps s s
| fs_snoc s t u : fsteps s t -> fstep t u -> fsteps s u.
(** before the entry exists; [held] is what is in the file *)
Definition fresh_entry (n : nat) (held : gset nat) : fstate := mkF (mkMem n false None [] FMissing held None) [].
(** after the daemon has been started again: the index has the record, the progress
    file is on disk and not loaded (indexFile.go:128-155) *)
Definition restarted (n : nat) (d held : gset nat) : fstate := mkF (mkMem n true None [] (FSet d) held None) [].
