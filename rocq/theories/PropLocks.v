(** Properties of the daemon's locks and shared memory (C98, C99). *)
From Verif Require Import LocksProofs.

(** *** C98: a data race in any execution, with any number of goroutines, comes from two calls
    that race already when they are made alone. *)
Theorem C98_pairs : forall P gs l, greach P gs -> race gs l -> exists c d, P c /\ P d /\ can_race c d l.
Proof. exact C98_lemma. Qed.
Print Assumptions C98_pairs.
(** Two calls race exactly if both use the location, one of them writes it and one of them
    is one of the four that use it without its lock. *)
Theorem C98_table : forall c d l, can_race c d l <->
  uses c l /\ uses d l /\ (writes c l \/ writes d l) /\ (unlocked c l \/ unlocked d l).
Proof. exact race_table. Qed.
Print Assumptions C98_table.
(** So nothing but the index, the records and the uploads is ever raced for, and these only if
    Contains, Rehash, StartUpload or ContinueUpload runs. *)
Theorem C98_locked_partial : forall P gs l, greach P gs -> (forall c, P c -> ~ unlocked c l) -> ~ race gs l.
Proof. exact C98_safe_lemma. Qed.
Print Assumptions C98_locked_partial.
(** all pairs that race for a location *)
Definition racing (l : loc) : list (call * call) :=
  flat_map (fun c => flat_map (fun d => if finds c d l && conflictb c d l then [(c, d)] else []) all_calls) all_calls.
Example C98_case :
  racing LReq = [] /\ racing LRes = [] /\ racing LDownloads = []
  /\ racing LUploads = [(CStartUpload, CStartUpload); (CStartUpload, CContinueUpload); (CContinueUpload, CStartUpload)]
  /\ racing LIndex = [(CShareFile, CContains); (CShareFile, CRehash); (CUnshareFile, CContains); (CUnshareFile, CRehash);
       (CRegister, CContains); (CRegister, CRehash); (CContains, CShareFile); (CContains, CUnshareFile); (CContains, CRegister);
       (CRehash, CShareFile); (CRehash, CUnshareFile); (CRehash, CRegister)]
  /\ length (racing LRecord) = 44.
Proof. by vm_compute. Qed.
(** The daemon is not free of races: two requests to start uploads, handled at the same time, both
    write the map of uploads (the Go runtime ends the program when it notices), and a query
    reads the index while a file is being shared. *)
Theorem C98_race_refuted :
  (exists gs, greach (fun c => c = CStartUpload) gs /\ race gs LUploads)
  /\ (exists gs, greach (fun c => c = CShareFile \/ c = CContains) gs /\ race gs LIndex).
Proof. exact C98_refuted_lemma. Qed.
Print Assumptions C98_race_refuted.

(** *** C99: the locks never bring the daemon to a halt.  In every reachable state some goroutine can go on,
    unless all are done. *)
Theorem C99_progress : forall P gs, greach P gs -> done_all gs \/ exists gs', gmove gs gs'.
Proof. exact C99_lemma. Qed.
Print Assumptions C99_progress.
(** Every maximal execution ends with all work done: a step leaves less to do, and as long as
    there is something to do there is a step. *)
Theorem C99_all_end : forall P gs, greach P gs ->
  (exists gs', gmoves gs gs' /\ done_all gs')
  /\ (forall gs', gmoves gs gs' -> (forall gs'', ~ gmove gs' gs'') -> done_all gs')
  /\ (forall gs' gs'', gmoves gs gs' -> gmove gs' gs'' -> todo_count gs'' < todo_count gs').
Proof. exact C99_ends. Qed.
Print Assumptions C99_all_end.
(** A goroutine that is done has given back its locks. *)
Theorem C99_released : forall P gs i h, greach P gs -> gs !! i = Some (h, []) -> h = [].
Proof. exact C99_free_lemma. Qed.
Print Assumptions C99_released.
(** a download that saves a chunk holds three locks; a query for a list waits for it *)
Definition ex_download : list act := locked KTransfer ([Rd LDownloads; Wr LDownloads]
  ++ locked KCat ([Rd LIndex; Rd LRecord] ++ [Rd LRecord] ++ locked KProg [Rd LRecord; Wr LRecord] ++ [Rd LRecord]) ++ [Wr LDownloads]).
Example C99_case :
  match grun [([], ex_download); ([], locked KCat [Rd LIndex])] (replicate 9 0) with
  | Some gs => match gs with
               | [(h, t); ([], q)] => bool_decide (h = [KProg; KCat; KTransfer]) && bool_decide (gdo gs 1 = None)
                   && bool_decide (t = [Wr LRecord; Rel KProg; Rd LRecord; Rel KCat; Wr LDownloads; Rel KTransfer])
                   && match grun gs (replicate 6 0 ++ [1; 1; 1]) with Some gs' => bool_decide (gs' = [([], []); ([], [])]) | None => false end
               | _ => false
               end
  | None => false
  end = true /\ ex_download ∈ paths CDownload /\ locked KCat [Rd LIndex] ∈ paths CListFiles.
Proof. split; [by vm_compute|]. split; apply elem_of_list_In; vm_compute; tauto. Qed.
