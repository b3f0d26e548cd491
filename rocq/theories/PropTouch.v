(** Properties of the files that a command may change (C130). *)
From Verif Require Import TouchProofs CliProofs5 DownloadProofs4 ServerCases CatalogueCases.

(** *** C130: while a command is served, whichever system calls fail and whenever the daemon is killed, no file
    outside the directory of the catalogue changes, and inside it only those that [may_change] names *)
Theorem C130_which_files_a_command_may_change :
  forall cwd dir dl A s f d e q f',
    srv_reached cwd dir dl A s f -> ce_cwd e = cwd ->
    (q = RqClean -> valid_utf8 dir /\ (forall h a, A !! h = Some a -> valid_utf8 (a_path a)) /\ NoDup (ce_order e) /\ forall h, h ∈ ce_order e <-> A !! h <> None) ->
    killed f (serve_on d e s q) f' ->
    same_user dir f f' /\ forall p, ~ may_change cwd dir f e q p -> f' !! p = f !! p.
Proof. exact C130_lemma. Qed.
Print Assumptions C130_which_files_a_command_may_change.
(** the files among the user's two, the index and the progress files of "abc", of the download, of "/b" and of a third
    file that a command changes *)
Definition ex_third : hash := replicate 20 x09.
Definition ex_touched (argv : list text) (answer : option (list byte)) : list bool :=
  let f := <[bs "/b" := NFile (bs "bbb")]> ex3.1.2 in
  let f' := (session_on (fun _ => true) true (ex_cenv answer) ex_srv f argv).1.1.1 in
  map (fun p => negb (bool_decide (file_at f' p = file_at f p)))
    [bs "/a"; bs "/b"; bs "/dl/new"; join2 ex_dir index_name; prog_path ex_dir habc; prog_path ex_dir hnew; prog_path ex_dir (sha1 (bs "bbb")); prog_path ex_dir ex_third].
Example C130_case :
  let describe := Some (serialize (ListResp 7 [Messages.mkEntry 5 2 3 0 ex_third (bs "other")])) in
  ex_touched [str "share"; bs "/b"] None = [false; false; false; true; false; false; true; false]
  /\ ex_touched [str "share"; bs "/none"] None = replicate 8 false
  /\ ex_touched [str "get"; hash_string ex_third] describe = [false; false; false; true; false; false; false; true]
  /\ ex_touched [str "get"; hash_string ex_third] None = replicate 8 false
  /\ ex_touched [str "list"] None = replicate 8 false
  /\ ex_touched [str "chims"] None = replicate 8 false.
Proof. vm_compute. repeat split. Qed.
