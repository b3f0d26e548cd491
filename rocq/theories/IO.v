(** The file system and programs that use it.
    A program is a tree of file-system calls; the daemon's memory is carried
    by the Coq functions between calls.  A call can succeed, can fail (any call
    may fail at any time: full disk, permissions, ...), and the process can be
    killed before, during or after any call.
    Simplifications: no symbolic or hard links, no permissions, no file
    descriptors that outlive a call (a file opened for reading is represented
    by its contents at that moment), a relative path (which the modelled code
    never passes) makes the call fail, and a completed write survives a kill
    (process kill, not power loss). *)
From Verif Require Export Path Chunk.

Inductive node := NFile (contents : list byte) | NDir.
(** a notation, so that map lemmas apply directly *)
Notation fs := (gmap (list byte) node).

(** The calls the code makes:
    OStat     os.Stat            (indexFile.go:38,48 and indexRecord.go:96)
    OMkdirAll os.MkdirAll        (indexFile.go:33)
    ORead     os.ReadFile        (indexFile.go:67, progressFile.go:111)
    OWrite    os.WriteFile       (indexFile.go:84, progressFile.go:95)
    ORemove   os.Remove          (progressFile.go:104)
    OWriteAt  os.OpenFile(O_RDWR|O_CREATE), WriteAt, Close (indexRecord.go:53-66)
    OOpen     os.Open for reading (indexRecord.go:76, utils.go:14) *)
Inductive op :=
| OStat (p : path)
| OMkdirAll (p : path)
| ORead (p : path)
| OWrite (p : path) (data : list byte)
| ORemove (p : path)
| OWriteAt (p : path) (off : Z) (data : list byte)
| OOpen (p : path).

(** [RFail notexist]: an error, [notexist] telling whether os.IsNotExist holds *)
Inductive reply :=
| RFail (notexist : bool)
| ROk
| RData (d : list byte)
| RStat (isdir : bool) (size : Z)
| RObj (f : fobj).

(** the chain of directories from "/" to [p] itself, for a clean absolute [p] *)
Definition chain (p : path) : list path :=
  let cs := List.tl (split_slash p) in
  map (fun k => slash :: join_slash (take k cs)) (seq 0 (S (length cs))).
Definition is_dir (f : fs) (p : path) : bool :=
  match f !! p with Some NDir => true | _ => false end.
Definition is_file (f : fs) (p : path) : bool :=
  match f !! p with Some (NFile _) => true | _ => false end.
(** ENOENT rather than ENOTDIR: nothing on the way is a regular file *)
Definition noent (f : fs) (p : path) : bool :=
  negb (existsb (is_file f) (removelast (chain p))).

(** pwrite(2): overwrite from [off] on, padding a gap with zeros *)
Definition write_at (old : list byte) (off : nat) (data : list byte) : list byte :=
  if decide (data = []) then old
  else take off (old ++ replicate (off - length old) x00) ++ data ++ drop (off + length data) old.
(** the contents of a file, empty when it does not exist yet *)
Definition contents_or_empty (f : fs) (p : path) : list byte :=
  match f !! p with Some (NFile l) => l | _ => [] end.
(** a regular file may be written at [p] *)
Definition writable (f : fs) (p : path) : bool :=
  is_rooted p && is_dir f (parent p) && negb (is_dir f p).

(** what a call does when nothing goes wrong with the disk *)
Definition do_op (f : fs) (o : op) : reply * fs :=
  match o with
  | OStat p =>
      match f !! p with
      | Some NDir => (RStat true 0, f)
      | Some (NFile l) => (RStat false (Z.of_nat (length l)), f)
      | None => (RFail (noent f p), f)
      end
  | OMkdirAll p =>
      if is_dir f p then (ROk, f)
      else if negb (is_rooted p) || existsb (is_file f) (chain p) then (RFail false, f)
      else (ROk, foldr (fun d g => <[d := NDir]> g) f (chain p))
  | ORead p =>
      match f !! p with
      | Some (NFile l) => (RData l, f)
      | Some NDir => (RFail false, f)
      | None => (RFail (noent f p), f)
      end
  | OWrite p data =>
      if writable f p then (ROk, <[p := NFile data]> f) else (RFail false, f)
  | ORemove p =>
      match f !! p with
      | Some (NFile _) => (ROk, delete p f)
      | Some NDir => (RFail false, f)
      | None => (RFail (noent f p), f)
      end
  | OWriteAt p off data =>
      if writable f p then
        if (off <? 0)%Z then (RFail false, <[p := NFile (contents_or_empty f p)]> f)
        else (ROk, <[p := NFile (write_at (contents_or_empty f p) (Z.to_nat off) data)]> f)
      else (RFail false, f)
  | OOpen p =>
      match f !! p with
      | Some (NFile l) => (RObj (FRegular l), f)
      | Some NDir => (RObj FBroken, f)
      | None => (RFail (noent f p), f)
      end
  end.

(** the disk when a call fails for an outside reason, or the process is killed
    during it: a write leaves any prefix of the data behind *)
Inductive partial (f : fs) : op -> fs -> Prop :=
| pa_none o : partial f o f
| pa_write p data k : writable f p = true -> partial f (OWrite p data) (<[p := NFile (take k data)]> f)
| pa_write_at p off data k : writable f p = true -> (0 <= off)%Z ->
    partial f (OWriteAt p off data)
      (<[p := NFile (write_at (contents_or_empty f p) (Z.to_nat off) (take k data))]> f)
| pa_mkdir p k : is_dir f p = false -> is_rooted p = true -> existsb (is_file f) (chain p) = false ->
    partial f (OMkdirAll p) (foldr (fun d g => <[d := NDir]> g) f (take k (chain p))).

(** one call, possibly failing *)
Inductive ostep (f : fs) (o : op) : reply -> fs -> Prop :=
| os_ok r f' : do_op f o = (r, f') -> ostep f o r f'
| os_fault f' : partial f o f' -> ostep f o (RFail false) f'.

(** ** Programs *)
Inductive io (A : Type) : Type :=
| Ret (a : A)
| Die (why : string)           (* panic: the process terminates *)
| Spin                         (* a loop that never ends *)
| Do (o : op) (k : reply -> io A).
Arguments Ret {A} a.
Arguments Die {A} why.
Arguments Spin {A}.
Arguments Do {A} o k.

Fixpoint bind {A B} (m : io A) (f : A -> io B) : io B :=
  match m with
  | Ret a => f a
  | Die w => Die w
  | Spin => Spin
  | Do o k => Do o (fun r => bind (k r) f)
  end.
Notation "'do!' x := a 'in' b" := (bind a (fun x => b))
  (at level 200, x pattern, a at level 100, b at level 200, right associativity).
(** a call as a program *)
Definition call (o : op) : io reply := Do o Ret.
(** a pure Go computation inside a program: its panic ends the process *)
Definition lift {A} (r : res A) : io (res A) :=
  match r with Panic p => Die p | _ => Ret r end.

Inductive outcome (A : Type) : Type := Done (a : A) | Died (why : string) | Hangs.
Arguments Done {A} a.
Arguments Died {A} why.
Arguments Hangs {A}.

(** the run in which no call fails for outside reasons *)
Fixpoint run {A : Type} (f : fs) (m : io A) : fs * outcome A :=
  match m with
  | Ret a => (f, Done a)
  | Die w => (f, Died w)
  | Spin => (f, Hangs)
  | Do o k => let '(r, f') := do_op f o in run f' (k r)
  end.

(** any run, with failing calls *)
Inductive execs {A : Type} : fs -> io A -> fs -> outcome A -> Prop :=
| ru_ret f a : execs f (Ret a) f (Done a)
| ru_die f w : execs f (Die w) f (Died w)
| ru_spin f : execs f Spin f Hangs
| ru_do f o k r f1 f' out : ostep f o r f1 -> execs f1 (k r) f' out -> execs f (Do o k) f' out.

(** the disk states a kill at some point of the run (with possibly failing calls
    before it) can leave *)
Inductive killed {A : Type} : fs -> io A -> fs -> Prop :=
| ki_here f m : killed f m f
| ki_during f o k f' : partial f o f' -> killed f (Do o k) f'
| ki_later f o k r f1 f' : ostep f o r f1 -> killed f1 (k r) f' -> killed f (Do o k) f'.

(** ** Facts about programs *)
Lemma run_bind {A B : Type} (m : io A) (g : A -> io B) f :
  run f (bind m g) = let '(f1, out) := run f m in
    match out with Done a => run f1 (g a) | Died w => (f1, Died w) | Hangs => (f1, Hangs) end.
Proof.
  revert f; induction m as [a|w| |o k IH]; intros f; cbn [bind run]; try done.
  destruct (do_op f o) as [r f']. apply IH.
Qed.
Lemma run_execs {A : Type} (m : io A) f f' out : run f m = (f', out) -> execs f m f' out.
Proof.
  revert f; induction m as [a|w| |o k IH]; intros f; cbn [run].
  - intros [= <- <-]. constructor.
  - intros [= <- <-]. constructor.
  - intros [= <- <-]. constructor.
  - destruct (do_op f o) as [r f1] eqn:E. intros H. eapply ru_do; [apply os_ok; exact E|apply IH; exact H].
Qed.
Lemma execs_bind {A B : Type} (m : io A) (g : A -> io B) f f' out :
  execs f (bind m g) f' out ->
  (exists f1 a, execs f m f1 (Done a) /\ execs f1 (g a) f' out) \/
  (exists w, execs f m f' (Died w) /\ out = Died w) \/ (execs f m f' Hangs /\ out = Hangs).
Proof.
  revert f; induction m as [a|w| |o k IH]; intros f; cbn [bind]; intros H.
  - left. exists f, a. split; [constructor|done].
  - right; left. inversion H; subst. exists w. split; [constructor|done].
  - right; right. inversion H; subst. split; [constructor|done].
  - inversion H as [| | |? ? ? r f1 ? ? Hs Hr]; subst. apply IH in Hr as [(f2 & a & H1 & H2)|[(w & H1 & H2)|(H1 & H2)]].
    + left. exists f2, a. split; [econstructor; done|done].
    + right; left. exists w. split; [econstructor; done|done].
    + right; right. split; [econstructor; done|done].
Qed.
Lemma execs_ret {A : Type} (a : A) f f' out : execs f (Ret a) f' out -> f' = f /\ out = Done a.
Proof. inversion 1; subst; done. Qed.
Lemma execs_die {A : Type} w f f' (out : outcome A) : execs f (Die w) f' out -> f' = f /\ out = Died w.
Proof. inversion 1; subst; done. Qed.
Lemma execs_spin {A : Type} f f' (out : outcome A) : execs f Spin f' out -> f' = f /\ out = Hangs.
Proof. inversion 1; subst; done. Qed.
Lemma execs_do {A : Type} o (k : reply -> io A) f f' out : execs f (Do o k) f' out ->
  exists r f1, ostep f o r f1 /\ execs f1 (k r) f' out.
Proof. inversion 1; subst; eauto. Qed.
Lemma killed_bind {A B : Type} (m : io A) (g : A -> io B) f f' :
  killed f (bind m g) f' -> killed f m f' \/ exists f1 a, execs f m f1 (Done a) /\ killed f1 (g a) f'.
Proof.
  revert f; induction m as [a|w| |o k IH]; intros f; cbn [bind]; intros H.
  - right. exists f, a. split; [constructor|done].
  - left. inversion H; subst. constructor.
  - left. inversion H; subst. constructor.
  - inversion H as [|? ? ? ? Hp|? ? ? r f1 ? Hs Hr]; subst.
    + left. constructor.
    + left. apply ki_during. done.
    + apply IH in Hr as [Hr|(f2 & a & H1 & H2)].
      * left. eapply ki_later; done.
      * right. exists f2, a. split; [econstructor; done|done].
Qed.
Lemma killed_ret {A : Type} (a : A) f f' : killed f (Ret a) f' -> f' = f.
Proof. inversion 1; subst; done. Qed.
Lemma killed_die {A : Type} w f f' : killed f (@Die A w) f' -> f' = f.
Proof. inversion 1; subst; done. Qed.
(** a completed run is one of the points where the process can be killed *)
Lemma execs_killed {A : Type} (m : io A) f f' out : execs f m f' out -> killed f m f'.
Proof. induction 1; [constructor..|]. eapply ki_later; done. Qed.

(** paths a call can change *)
Definition touches (o : op) (p : path) : Prop :=
  match o with
  | OWrite q _ | ORemove q | OWriteAt q _ _ => p = q
  | OMkdirAll q => p ∈ chain q
  | _ => False
  end.
Lemma foldr_dirs_lookup l f p : p ∉ l -> foldr (fun d g => <[d := NDir]> g) f l !! p = (f : fs) !! p.
Proof.
  induction l as [|d l IH]; [done|]. intros H. cbn [foldr]. rewrite lookup_insert_ne by set_solver. apply IH. set_solver.
Qed.
Lemma foldr_dirs_lookup_in l f p : p ∈ l -> foldr (fun d g => <[d := NDir]> g) (f : fs) l !! p = Some NDir.
Proof.
  induction l as [|d l IH]; [set_solver|]. intros H. cbn [foldr].
  destruct (decide (p = d)) as [->|Hn]; [apply lookup_insert|]. rewrite lookup_insert_ne by done. apply IH. set_solver.
Qed.
Lemma elem_of_take' {A} (x : A) k l : x ∈ take k l -> x ∈ l.
Proof. intros H. rewrite <- (take_drop k l). set_solver. Qed.
Lemma do_op_frame f o r f' p : do_op f o = (r, f') -> ~ touches o p -> f' !! p = f !! p.
Proof.
  intros H Hn. destruct o as [q|q|q|q d|q|q off d|q]; cbn [do_op touches] in *.
  - repeat case_match; simplify_eq; done.
  - repeat case_match; simplify_eq; [done..|]. apply foldr_dirs_lookup. done.
  - repeat case_match; simplify_eq; done.
  - repeat case_match; simplify_eq; [|done]. apply lookup_insert_ne. done.
  - repeat case_match; simplify_eq; [|done..]. apply lookup_delete_ne. done.
  - repeat case_match; simplify_eq; [apply lookup_insert_ne; done..|done].
  - repeat case_match; simplify_eq; done.
Qed.
Lemma partial_frame f o f' p : partial f o f' -> ~ touches o p -> f' !! p = f !! p.
Proof.
  intros H Hn. destruct H; cbn [touches] in *; [done| | |].
  - apply lookup_insert_ne. done.
  - apply lookup_insert_ne. done.
  - apply foldr_dirs_lookup. intros Hi. apply Hn. apply elem_of_take' in Hi. done.
Qed.
Lemma ostep_frame f o r f' p : ostep f o r f' -> ~ touches o p -> f' !! p = f !! p.
Proof. intros [r0 f0 H|f0 H]; [apply (do_op_frame _ _ _ _ _ H)|apply (partial_frame _ _ _ _ H)]. Qed.
