(** Model of path/filepath (unix) as the code uses it: Clean, Join, Abs, and
    path.Split.  Paths are byte strings.  Clean is written component-wise, as its
    documentation defines it; PathLoop.v proves that the byte loop of the library is
    the same function, and Join too.
    Uses in the code: filepath.Abs catalogue/catalogue.go:26,31 and
    catalogue/indexRecord.go:91; filepath.Join catalogue/catalogue.go:124,
    catalogue/indexFile.go:47,83, catalogue/progressFile.go:88,94,104,109;
    path.Join main.go:50-51; path.Split flu/serverListFilesOnHost.go:93,
    cli/cliMethodsShare.go:29. *)
From Verif Require Export GoBase.

Notation path := (list byte).
Notation slash := x2f.
(** "." and ".." *)
Definition dot : list byte := [x2e].
Definition dotdot : list byte := [x2e; x2e].

(** split at every '/' *)
Fixpoint split_slash (p : path) : list (list byte) :=
  match p with
  | [] => [[]]
  | b :: p' =>
      if decide (b = slash) then [] :: split_slash p'
      else match split_slash p' with
           | w :: ws => (b :: w) :: ws
           | [] => [[b]]
           end
  end.

(** the components left by Clean, as a stack (last component first) *)
Fixpoint clean_stack (rooted : bool) (stk : list (list byte)) (cs : list (list byte)) : list (list byte) :=
  match cs with
  | [] => stk
  | c :: cs' =>
      if decide (c = [] \/ c = dot) then clean_stack rooted stk cs'
      else if decide (c = dotdot) then
        match stk with
        | top :: stk' =>
            if decide (top = dotdot) then clean_stack rooted (dotdot :: stk) cs'
            else clean_stack rooted stk' cs'
        | [] => clean_stack rooted (if rooted then [] else [dotdot]) cs'
        end
      else clean_stack rooted (c :: stk) cs'
  end.

(** the components joined with '/' *)
Fixpoint join_slash (cs : list (list byte)) : path :=
  match cs with
  | [] => []
  | [c] => c
  | c :: cs' => c ++ slash :: join_slash cs'
  end.

(** the path begins with '/' *)
Definition is_rooted (p : path) : bool :=
  match p with b :: _ => bool_decide (b = slash) | [] => false end.

(** filepath.Clean (and path.Clean) *)
Definition clean (p : path) : path :=
  let rooted := is_rooted p in
  let body := join_slash (rev (clean_stack rooted [] (split_slash p))) in
  if rooted then slash :: body
  else if decide (body = []) then dot else body.

(** filepath.Join(a, b), two arguments as everywhere in the code: empty arguments
    are ignored *)
Definition join2 (a b : path) : path :=
  if decide (a = []) then (if decide (b = []) then [] else clean b)
  else if decide (b = []) then clean a
  else clean (a ++ slash :: b).
(** filepath.Join(a) (progressFile.go:94,104) *)
Definition join1 (a : path) : path := if decide (a = []) then [] else clean a.

(** filepath.Abs (catalogue.go:26,31, indexRecord.go:91) with the process's working directory [cwd] *)
Definition abs (cwd p : path) : path :=
  if is_rooted p then clean p else join2 cwd p.

(** path.Split: the part after the last '/' (the second result, the only one the
    code uses: serverListFilesOnHost.go:93, cliMethodsShare.go:29) *)
Definition base_name (p : path) : list byte := List.last (split_slash p) [].

(** the parent directory of a clean absolute path *)
Definition parent (p : path) : path :=
  slash :: join_slash (removelast (List.tl (split_slash p))).
