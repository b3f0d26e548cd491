(** Model of the locks of the daemon and of the memory that its goroutines share: for every
    method, the accesses to shared maps and records and the locks taken and given back around
    them.  Simplified: accesses and lock operations only; values are left out, and so is
    waiting for a channel or a socket while a lock is held (server.go:105, see C56, and
    serverStartDownload.go:106); ways that end in a panic are left out, the daemon is gone then;
    there is one record and one lock of a progress file for all files; Cat.Init (catalogue.go:48-58) runs before there
    are goroutines (main.go:55); a goroutine is any sequence of these calls, which includes
    everything that flu/, cli/ and main.go do. *)
From stdpp Require Export prelude list.

(** the mutexes: catalogue.go:21, progressFile.go:16, server.go:28,34,38 *)
Inductive lock := KCat | KProg | KReq | KRes | KTransfer.
(** shared memory: the index (indexFile.go:25), the progress of a record (indexRecord.go:24
    and the bitset it points to, progressFile.go:17), server.go:27,33,39,40 *)
Inductive loc := LIndex | LRecord | LReq | LRes | LDownloads | LUploads.
Inductive act := Acq (k : lock) | Rel (k : lock) | Rd (l : loc) | Wr (l : loc).
#[global] Instance lock_dec : EqDecision lock.
Proof. solve_decision. Defined.
#[global] Instance loc_dec : EqDecision loc.
Proof. solve_decision. Defined.
#[global] Instance act_dec : EqDecision act.
Proof. solve_decision. Defined.

Inductive call :=
| CListFiles | CShareFile | CUnshareFile | CRegister | CContains | CRehash | CGet | CComplete
| CMissing | CSaveChunk | CChunkReader
| CRequestID | CRegisterChan | CUnregisterChan | CDeliver | CStartUpload | CContinueUpload | CDownload.

(** X.Lock() ... defer X.Unlock() *)
Definition locked (k : lock) (l : list act) : list act := Acq k :: l ++ [Rel k].
(** catalogue.go:251-268 getIndexRecord: not found; loaded already; loaded now *)
Definition get_record : list (list act) := [[Rd LIndex]; [Rd LIndex; Rd LRecord]; [Rd LIndex; Rd LRecord; Wr LRecord]].
(** catalogue.go:193-201, 184-190 the same and then export, indexRecord.go:42-50: progressFile.go:72 does not lock *)
Definition contains_paths : list (list act) :=
  [[Rd LIndex]; [Rd LIndex; Rd LRecord; Rd LRecord]; [Rd LIndex; Rd LRecord; Wr LRecord; Rd LRecord]].
(** catalogue.go:251-268, the record is there *)
Definition found : list (list act) := [[Rd LIndex; Rd LRecord]; [Rd LIndex; Rd LRecord; Wr LRecord]].
(** catalogue.go:224-239 SaveChunk: writing fails; otherwise Set (progressFile.go:28-32) and save (lines 92-101) *)
Definition save_paths : list (list act) :=
  map (locked KCat) found
  ++ map (fun p => locked KCat (p ++ [Rd LRecord] ++ locked KProg [Rd LRecord; Wr LRecord] ++ [Rd LRecord])) found.
(** the ways through a method *)
Definition paths (c : call) : list (list act) :=
  match c with
  (* catalogue.go:148-166 *)
  | CListFiles => [locked KCat [Rd LIndex]; locked KCat [Rd LIndex; Rd LRecord; Rd LRecord]; locked KCat [Rd LIndex; Rd LRecord; Wr LRecord; Rd LRecord]]
  (* catalogue.go:63-85, indexFile.go:95-101 and 119-121 *)
  | CShareFile => [locked KCat []; locked KCat [Rd LIndex]; locked KCat [Rd LIndex; Wr LIndex; Rd LIndex]; locked KCat [Rd LIndex; Wr LIndex; Rd LIndex; Wr LRecord; Wr LRecord; Rd LRecord]]
  (* catalogue.go:89-109, indexFile.go:105-108 *)
  | CUnshareFile => map (locked KCat) get_record
      ++ map (fun p => locked KCat (p ++ [Rd LRecord])) found
      ++ map (fun p => locked KCat (p ++ [Rd LRecord; Wr LIndex; Rd LIndex])) found
  (* catalogue.go:113-143 *)
  | CRegister => [locked KCat [Rd LIndex]; locked KCat [Rd LIndex; Wr LIndex; Rd LIndex]; locked KCat [Rd LIndex; Wr LIndex; Rd LIndex; Wr LRecord; Rd LRecord; Rd LRecord]]
  (* catalogue.go:184-190: no lock *)
  | CContains => contains_paths
  (* catalogue.go:170-180: no lock *)
  | CRehash => get_record
  (* catalogue.go:193-201 *)
  | CGet => map (fun p => locked KCat (p ++ [Rd LRecord])) found
  (* catalogue.go:203-211, progressFile.go:22-26 *)
  | CComplete => map (fun p => locked KCat (p ++ [Rd LRecord] ++ locked KProg [Rd LRecord])) found
  (* catalogue.go:214-222: UnfilledRanges does not take the progress file's lock *)
  | CMissing => map (fun p => locked KCat (p ++ [Rd LRecord])) found
  | CSaveChunk => save_paths
  (* catalogue.go:241-249, indexRecord.go:71-74 *)
  | CChunkReader => locked KCat [Rd LIndex] :: map (locked KCat) found ++ map (fun p => locked KCat (p ++ [Rd LRecord])) found
  (* server.go:75-81 *)
  | CRequestID => [locked KReq [Rd LReq; Wr LReq]]
  (* server.go:83-90 *)
  | CRegisterChan => [locked KRes [Wr LRes]]
  (* server.go:92-97 *)
  | CUnregisterChan => [locked KRes [Wr LRes]]
  (* server.go:100-109 *)
  | CDeliver => [locked KRes [Rd LRes]]
  (* serverStartUpload.go:42-46; its calls of the catalogue are separate *)
  | CStartUpload => [[Rd LUploads; Rd LUploads]; [Rd LUploads; Wr LUploads; Rd LUploads]]
  (* serverContinueUpload.go:25 *)
  | CContinueUpload => [[Rd LUploads]]
  (* serverStartDownload.go:65-71: busy with this host; downloadChunk (lines 97-145) saves nothing; it saves (line 131) *)
  | CDownload => [locked KTransfer [Rd LDownloads]; locked KTransfer [Rd LDownloads; Wr LDownloads; Wr LDownloads]]
      ++ map (fun p => locked KTransfer ([Rd LDownloads; Wr LDownloads] ++ p ++ [Wr LDownloads])) save_paths
  end.

(** a goroutine: the locks it holds and what it is going to do *)
Definition goroutine : Type := list lock * list act.
(** what a goroutine that makes calls from [P] can do *)
Inductive program (P : call -> Prop) : list act -> Prop :=
| pr_nil : program P []
| pr_call c p l : P c -> p ∈ paths c -> program P l -> program P (p ++ l).
(** one step of one goroutine; Lock waits until nobody holds the mutex *)
Inductive gmove : list goroutine -> list goroutine -> Prop :=
| g_acq gs i h k t : gs !! i = Some (h, Acq k :: t) -> (forall j g, gs !! j = Some g -> k ∉ g.1) ->
    gmove gs (<[i := (k :: h, t)]> gs)
| g_rel gs i h k t : gs !! i = Some (h, Rel k :: t) -> gmove gs (<[i := (filter (fun x => x <> k) h, t)]> gs)
| g_rd gs i h l t : gs !! i = Some (h, Rd l :: t) -> gmove gs (<[i := (h, t)]> gs)
| g_wr gs i h l t : gs !! i = Some (h, Wr l :: t) -> gmove gs (<[i := (h, t)]> gs).
Inductive gmoves : list goroutine -> list goroutine -> Prop :=
| gm_nil gs : gmoves gs gs
| gm_snoc gs gs' gs'' : gmoves gs gs' -> gmove gs' gs'' -> gmoves gs gs''.
(** the daemon, if only calls from [P] are made: goroutines start at any time *)
Inductive greach (P : call -> Prop) : list goroutine -> Prop :=
| gr_init : greach P []
| gr_go gs l : greach P gs -> program P l -> greach P (gs ++ [([], l)])
| gr_move gs gs' : greach P gs -> gmove gs gs' -> greach P gs'.
