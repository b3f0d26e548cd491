(** Property of a start where no index file is there (C125). *)
From Verif Require Import BootSpec BootProofs CatalogueCases.

(** *** C125: where no index file is there, a start succeeds exactly if no regular file is in the way
    of the catalogue directory.  It then creates the missing directories and an index file, lists
    nothing, changes nothing else, and the next start finds the same catalogue; otherwise it
    reports an error and changes nothing. *)
Theorem C125_first_start :
  forall cwd dir dl pid now f0, let d := abs cwd dir in
    is_rooted cwd = true -> valid_utf8 d -> f0 !! join2 d index_name = None ->
    (-9223372036854775808 <= pid < 9223372036854775808)%Z -> (-9223372036854775808 <= now < 9223372036854775808)%Z ->
    (way_clear f0 d -> exists f c, run f0 (open_cat pid now cwd dir dl) = (f, Done (Ok c))
       /\ run f (list_files c []) = (f, Done (c, Ok [])) /\ c_index c = ∅ /\ starts cwd dir dl f c
       /\ f !! d = Some NDir /\ (forall p, above p d -> f0 !! d <> Some NDir -> f !! p = Some NDir)
       /\ (forall p, p <> join2 d index_name -> f0 !! d = Some NDir \/ ~ above p d -> f !! p = f0 !! p))
    /\ (~ way_clear f0 d -> exists e, run f0 (open_cat pid now cwd dir dl) = (f0, Done (Err e))).
Proof. exact boot_lemma. Qed.
Print Assumptions C125_first_start.

(** the directory is not there: it and the one around it are created; a regular file /x prevents that *)
Example C125_case :
  match run (<[[slash] := NDir]> ∅) (open_cat 7 9 (bs "/") (bs "/x/y") (bs "/down")) with
  | (f, Done (Ok c)) => f !! bs "/x" = Some NDir /\ f !! bs "/x/y" = Some NDir /\ is_file f (bs "/x/y/index.json") = true
      /\ c_index c = ∅ /\ size f = 4
  | _ => False
  end
  /\ let f0 : fs := <[bs "/x" := NFile (bs "hello")]> (<[[slash] := NDir]> ∅) in
     above (bs "/x") (bs "/x/y")
     /\ match run f0 (open_cat 7 9 (bs "/") (bs "/x/y") (bs "/down")) with (f, Done (Err _)) => f !! bs "/x" = Some (NFile (bs "hello")) /\ size f = 2 | _ => False end.
Proof.
  split; [vm_compute; repeat split|]. split; [|vm_compute; split; reflexivity].
  apply (ab_up (bs "/x/y") (bs "/x/y")). constructor.
Qed.
(** a catalogue whose index file was removed: the files beside it are kept *)
Example C125_removed :
  match run (delete (bs "/cat/index.json") ex3.1.2) (open_cat 7 9 ex_cwd ex_dir ex_dl) with
  | (f, Done (Ok c)) => c_index c = ∅ /\ size f = size ex3.1.2 /\ file_at f (bs "/dl/new") = file_at ex3.1.2 (bs "/dl/new")
  | _ => False
  end.
Proof. vm_compute. repeat split. Qed.
