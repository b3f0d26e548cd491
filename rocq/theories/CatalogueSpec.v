(** Specification vocabulary for the catalogue: an abstract map from hashes to
    entries, what each call should answer, and histories of calls.  Of the model
    it mentions only the calls themselves ([crun]) and data types. *)
From Verif Require Export Catalogue BitsetSpec ChunkSpec Utf8.

(** ** The abstract catalogue *)
Record aentry := mkEntry {
  a_path : path; a_size : Z; a_chunk : Z;
  a_count : Z;            (* number of chunks *)
  a_held : gset N }.      (* chunks we hold *)
Notation astate := (gmap (list byte) aentry).

Definition ceil_div (a b : Z) : Z := ((a + b - 1) / b)%Z.
(** an entry for a file all of whose chunks are held / none of whose chunks is *)
Definition full_entry (p : path) (size chunk : Z) : aentry :=
  mkEntry p size chunk (ceil_div size chunk) (all_below (ceil_div size chunk)).
Definition new_entry (p : path) (size chunk : Z) : aentry :=
  mkEntry p size chunk (ceil_div size chunk) ∅.
Definition hold (a : aentry) (i : N) : aentry :=
  mkEntry (a_path a) (a_size a) (a_chunk a) (Z.max (a_count a) (Z.of_N i + 1)) ({[i]} ∪ a_held a).
(** what the API shows of an entry *)
Definition shows (x : export) (h : hash) (a : aentry) : Prop :=
  x_path x = a_path a /\ x_size x = a_size a /\ x_hash x = h /\ x_chunk x = a_chunk a
  /\ bsize_of (x_bits x) = a_count a /\ forall i, mem (x_bits x) i <-> i ∈ a_held a.
(** [new] is [old] with [data] laid over it at offset [off], zeros filling a gap *)
Definition overlay (old : list byte) (off : nat) (data new : list byte) : Prop :=
  forall k, new !! k =
    if decide (off <= k < off + length data) then data !! (k - off)
    else if decide (k < length old) then old !! k
    else if decide (k < off /\ data <> []) then Some x00 else None.

(** ** Calls and their answers *)
Inductive ccall :=
| CShare (p : path)
| CRegister (size count chunk : N) (h : hash) (name : list byte)
| CUnshare (h : hash)
| CSave (h : hash) (i : N) (data : list byte)
| CList (order : list hash)
| CContains (h : hash)
| CRehash (h : hash)
| CReader (fuel : nat) (h : hash) (i : nat)
| CComplete (h : hash)
| CRestart (pid now : Z).
Inductive cans :=
| AOk | AErr
| AExport (x : export)
| AList (l : list export)
| AHash (h : hash)
| AReader (f : fobj) (cr : creader)
| ABool (b : bool).
Definition ans_of {A} (g : A -> cans) (r : res A) : cans := match r with Ok a => g a | _ => AErr end.
Definition finish {A} (o : fs * outcome A) (g : A -> cat * cans) : option (cat * fs * cans) :=
  match o with (f, Done a) => Some ((g a).1, f, (g a).2) | _ => None end.
(** a call made when no I/O fails; [None]: the process died or hangs.
    A restart throws the memory away and opens the same directories again. *)
Definition crun (cwd : path) (c : cat) (f : fs) (q : ccall) : option (cat * fs * cans) :=
  match q with
  | CShare p => finish (run f (share_file cwd c p)) (fun r => (r.1, ans_of (fun _ => AOk) r.2))
  | CRegister size count chunk h name =>
      finish (run f (register_download c size count chunk h name)) (fun r => (r.1, ans_of AExport r.2))
  | CUnshare h => finish (run f (unshare_file c h)) (fun r => (r.1, ans_of (fun _ => AOk) r.2))
  | CSave h i data => finish (run f (save_chunk c h i data)) (fun r => (r.1, ans_of (fun _ => AOk) r.2))
  | CList order => finish (run f (list_files c order)) (fun r => (r.1, ans_of AList r.2))
  | CContains h => finish (run f (contains c h)) (fun r => (r.1, ans_of AExport r.2))
  | CRehash h => finish (run f (rehash c h)) (fun r =>
      (r.1, match r.2 with (Some h', None) => AHash h' | _ => AErr end))
  | CReader fuel h i => finish (run f (get_chunk_reader fuel c h (Z.of_nat i)))
      (fun r => (r.1, ans_of (fun p => AReader p.1 p.2) r.2))
  | CComplete h => finish (run f (file_complete c h)) (fun r => (r.1, ABool r.2))
  | CRestart pid now =>
      match run f (open_cat pid now cwd (c_dir c) (c_dl c)) with
      | (f', Done (Ok c')) => Some (c', f', AOk)
      | _ => None
      end
  end.

(** ** What a call should do *)
(** files outside the catalogue directory [dir] are untouched *)
Definition same_user (dir : path) (f f' : fs) : Prop := forall p, parent p <> dir -> f' !! p = f !! p.
Definition file_at (f : fs) (p : path) : option (list byte) :=
  match f !! p with Some (NFile l) => Some l | _ => None end.
(** a regular file exists or can be created at [p] *)
Definition can_write (f : fs) (p : path) : Prop := f !! parent p = Some NDir /\ f !! p <> Some NDir.

(** [aspec A f q A' f' ans]: call [q] in abstract state [A] with file system [f]
    should lead to [A'] and [f'] with answer [ans]. *)
Definition aspec (cwd dir dl : path) (A : astate) (f : fs) (q : ccall) (A' : astate) (f' : fs) (ans : cans) : Prop :=
  match q with
  | CShare p =>
      same_user dir f f' /\
      match file_at f (abs cwd p) with
      | Some l =>
          match A !! sha1 l with
          | None => A' = <[sha1 l := full_entry (abs cwd p) (Z.of_nat (length l)) 4194304]> A /\ ans = AOk
          | Some _ => A' = A /\ ans = AErr
          end
      | None => A' = A /\ ans = AErr
      end
  | CRegister size _ chunk h name =>
      same_user dir f f' /\
      let a := new_entry (join2 dl name) (Z.of_N size) (Z.of_N chunk) in
      match A !! h with
      | None => A' = <[h := a]> A /\ exists x, ans = AExport x /\ shows x h a
      | Some _ => A' = A /\ ans = AErr
      end
  | CUnshare h =>
      same_user dir f f' /\ A' = delete h A /\ ans = if decide (A !! h = None) then AErr else AOk
  | CSave h i data =>
      match A !! h with
      | None => False
      | Some a =>
          (can_write f (a_path a) /\ ans = AOk /\ A' = <[h := hold a i]> A /\
            exists new, overlay (default [] (file_at f (a_path a))) (N.to_nat i * Z.to_nat (a_chunk a)) data new
              /\ same_user dir (<[a_path a := NFile new]> f) f')
          \/ (~ can_write f (a_path a) /\ ans = AErr /\ A' = A /\ same_user dir f f')
      end
  | CList order =>
      same_user dir f f' /\ A' = A /\
      exists l, ans = AList l /\ Forall2 (fun x h => exists a, A !! h = Some a /\ shows x h a) l order
  | CContains h =>
      same_user dir f f' /\ A' = A /\
      match A !! h with Some a => exists x, ans = AExport x /\ shows x h a | None => ans = AErr end
  | CRehash h =>
      same_user dir f f' /\ A' = A /\
      ans = match A !! h with
            | Some a => match file_at f (a_path a) with Some l => AHash (sha1 l) | None => AErr end
            | None => AErr
            end
  | CReader _ h i =>
      same_user dir f f' /\ A' = A /\
      match A !! h with
      | None => ans = AErr
      | Some a =>
          if decide (N.of_nat i ∈ a_held a) then
            match file_at f (a_path a) with
            | None => ans = AErr
            | Some l => let bytes := chunk_bytes l (Z.to_nat (a_chunk a)) i in
                exists cr, ans = AReader (FRegular l) cr
                  /\ cr_size cr = Z.of_nat (length bytes) /\ cr_hash cr = sha1 bytes
                  /\ forall ns, read_all (FRegular l) cr ns = Ok (expected_reads bytes (Z.to_nat (a_chunk a)) 0 ns)
            end
          else ans = AErr
      end
  | CComplete h =>
      same_user dir f f' /\ A' = A /\
      match A !! h with
      | Some a => ans = ABool (bool_decide (all_below (a_count a) ⊆ a_held a))
      | None => False
      end
  | CRestart _ _ => f' = f /\ A' = A /\ ans = AOk
  end.

(** calls the theorem covers: what the daemon's own code and the type system
    guarantee about the arguments, a peer that announces a positive chunk size, a
    size that fits int64 and an ordinary file name (C40, C41 treat the others), a
    hash known to the catalogue where the method panics on unknown ones, and for a
    restart, names that are valid UTF-8 (C31 treats the others) *)
Definition normal_name (c : list byte) : Prop := c <> [] /\ c <> dot /\ c <> dotdot /\ slash ∉ c.
Definition small (l : list byte) : Prop := (Z.of_nat (length l) < 9223372036854775808)%Z.
Definition allowed (cwd dir dl : path) (A : astate) (f : fs) (q : ccall) : Prop :=
  match q with
  | CShare p => forall l, file_at f (abs cwd p) = Some l -> small l
  | CRegister size _ chunk h name =>
      (size < 9223372036854775808)%N /\ (0 < chunk < 4294967296)%N /\ hash_wf h /\ normal_name name
  | CUnshare _ | CContains _ | CRehash _ => True
  | CSave h i _ => (i < 65536)%N /\ exists a, A !! h = Some a /\ parent (a_path a) <> dir
  | CList order => NoDup order /\ forall h, h ∈ order <-> A !! h <> None
  | CReader fuel h i => (N.of_nat i < 65536)%N /\
      forall a, A !! h = Some a -> f !! a_path a <> Some NDir /\
        forall l, file_at f (a_path a) = Some l -> length l < fuel
  | CComplete h => A !! h <> None
  | CRestart _ _ => valid_utf8 dir /\ forall h a, A !! h = Some a -> valid_utf8 (a_path a)
  end.

(** a history: calls interleaved with changes other programs make to files
    outside the catalogue directory *)
Inductive happening := HCall (q : ccall) | HOutside (f : fs).
Fixpoint behaves (cwd dir dl : path) (A : astate) (c : cat) (f : fs) (hs : list happening) : Prop :=
  match hs with
  | [] => True
  | HCall q :: hs' => allowed cwd dir dl A f q ->
      exists c' f' A' ans, crun cwd c f q = Some (c', f', ans)
        /\ aspec cwd dir dl A f q A' f' ans
        /\ behaves cwd dir dl A' c' f' hs'
  | HOutside f' :: hs' =>
      f' !! dir = f !! dir -> (forall p, parent p = dir -> f' !! p = f !! p) ->
      behaves cwd dir dl A c f' hs'
  end.

(** a daemon started on a directory that has no index yet *)
Definition fresh_start (cwd dir dl : path) (pid now : Z) (f0 f : fs) (c : cat) : Prop :=
  is_rooted cwd = true /\ abs cwd dl <> abs cwd dir /\ valid_utf8 (abs cwd dir)
  /\ (-9223372036854775808 <= pid < 9223372036854775808)%Z
  /\ (-9223372036854775808 <= now < 9223372036854775808)%Z
  /\ (forall p, parent p = abs cwd dir -> p <> abs cwd dir -> f0 !! p = None)
  /\ run f0 (open_cat pid now cwd dir dl) = (f, Done (Ok c)).

(** reachable states: what a daemon started on a fresh directory can get into by
    allowed calls (whose I/O succeeds) and outside changes, together with the
    abstract catalogue that the answers so far amount to *)
Inductive reached (cwd dir dl : path) : astate -> cat -> fs -> Prop :=
| re_start dir0 dl0 pid now f0 f c : fresh_start cwd dir0 dl0 pid now f0 f c ->
    dir = abs cwd dir0 -> dl = abs cwd dl0 -> reached cwd dir dl ∅ c f
| re_call A c f q A' c' f' ans : reached cwd dir dl A c f -> allowed cwd dir dl A f q ->
    crun cwd c f q = Some (c', f', ans) -> aspec cwd dir dl A f q A' f' ans ->
    reached cwd dir dl A' c' f'
| re_outside A c f f' : reached cwd dir dl A c f ->
    f' !! dir = f !! dir -> (forall p, parent p = dir -> f' !! p = f !! p) ->
    reached cwd dir dl A c f'.
(** [inside d p]: the clean path [p] lies below directory [d] *)
Definition inside (d p : path) : Prop := exists rest, rest <> [] /\ p = (if decide (d = [slash]) then [] else d) ++ slash :: rest.

(** saving the chunks [is] of a file with the given contents, in that order *)
Fixpoint saves (cwd : path) (c : cat) (f : fs) (h : hash) (cs : nat) (content : list byte) (is : list nat)
  : option (cat * fs) :=
  match is with
  | [] => Some (c, f)
  | i :: is' =>
      match crun cwd c f (CSave h (N.of_nat i) (chunk_bytes content cs i)) with
      | Some (c', f', AOk) => saves cwd c' f' h cs content is'
      | _ => None
      end
  end.
