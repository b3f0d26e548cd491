(** Model of cli/cliMethodsClean.go, on top of Catalogue.v.  No other call of the
    catalogue happens between the calls Clean makes. *)
From Verif Require Export Catalogue.

(** what ActionTaken (cliMethodsClean.go:50-67) says; the text is not modelled *)
Inductive action := RemovedMissing | InProgress | RemovedChanged | Intact.
Global Instance action_eq_dec : EqDecision action.
Proof. solve_decision. Defined.
(** cliMethodsClean.go:12-17 CleanResponseItem *)
Record citem := mkItem { ci_path : path; ci_hash : hash; ci_current : hash; ci_action : action }.

(** cliMethodsClean.go:46-79, one iteration of the loop for the listed file [x]:
    the item appended to the response, or execErr (line 69).  [hp] = None is a nil
    currentHash, dereferenced at lines 60 and 76. *)
Definition clean_one (c : cat) (x : export) : io (cat * res citem) :=
  do! (c1, r) := rehash c (x_hash x) in
  let item (a : action) : io (cat * res citem) :=
    match r.1 with
    | Some cur => Ret (c1, Ok (mkItem (x_path x) (x_hash x) cur a))
    | None => Die "nil dereference"
    end in
  let removed (a : action) : io (cat * res citem) :=
    do! (c2, e) := unshare_file c1 (x_hash x) in
    on_ok c2 e (fun _ =>
      match r.1 with
      | Some cur => Ret (c2, Ok (mkItem (x_path x) (x_hash x) cur a))
      | None => Die "nil dereference"
      end) in
  match r.2 with
  | Some _ => removed RemovedMissing
  | None =>
      match bfull (x_bits x) with
      | Ok false => item InProgress
      | Ok true =>
          match r.1 with
          | Some cur => if decide (cur = x_hash x) then item Intact else removed RemovedChanged
          | None => Die "nil dereference"
          end
      | Err w | Panic w => Die w
      end
  end.
Fixpoint clean_loop (c : cat) (xs : list export) (acc : list citem) : io (cat * res (list citem)) :=
  match xs with
  | [] => Ret (c, Ok acc)
  | x :: xs' =>
      do! (c1, i) := clean_one c x in
      on_ok c1 i (fun i => clean_loop c1 xs' (acc ++ [i]))
  end.
(** cliMethodsClean.go:40-82 Clean *)
Definition clean_index (c : cat) (order : list hash) : io (cat * res (list citem)) :=
  do! (c1, l) := list_files c order in
  on_ok c1 l (fun xs => clean_loop c1 xs []).
