(** C116: what a kill during the very first start leaves. *)
From Verif Require Import FirstStart CatalogueCases.

(** *** C116: when a daemon that starts on a directory without an index is killed, either the
    start can be repeated from scratch, or it had finished, or index.json is a proper
    prefix of what it would have been - and then the daemon never starts there again. *)
Theorem C116_killed_first_start :
  forall cwd dir dl pid now f0 f c f', fresh_start cwd dir dl pid now f0 f c ->
    killed f0 (open_cat pid now cwd dir dl) f' ->
    (forall pid' now', (-9223372036854775808 <= pid' < 9223372036854775808)%Z -> (-9223372036854775808 <= now' < 9223372036854775808)%Z ->
       exists f2 c2, fresh_start cwd dir dl pid' now' f' f2 c2 /\ c_index c2 = ∅)
    \/ (f' = f /\ starts cwd dir dl f' c)
    \/ ((exists data p s, f !! join2 (abs cwd dir) index_name = Some (NFile data) /\ data = p ++ s /\ s <> []
           /\ f' !! join2 (abs cwd dir) index_name = Some (NFile p))
        /\ wont_start cwd dir dl f').
Proof. intros cwd dir dl pid now f0 f c f' H. exact (C116_lemma cwd dir dl pid now f0 f c H f'). Qed.
Print Assumptions C116_killed_first_start.
(** the last case is always possible: the kill between creating index.json and writing to it *)
Theorem C116_dead_on_arrival :
  forall cwd dir dl pid now f0 f c, fresh_start cwd dir dl pid now f0 f c ->
    exists f', killed f0 (open_cat pid now cwd dir dl) f'
      /\ f' !! join2 (abs cwd dir) index_name = Some (NFile []) /\ wont_start cwd dir dl f'.
Proof. exact C116_torn_lemma. Qed.
Print Assumptions C116_dead_on_arrival.
(** the first start of the examples, for which the theorems above speak ... *)
Example C116_case : fresh_start ex_cwd ex_dir ex_dl 7 9 w0 ex_f0 ex_c0.
Proof. exact ex_fresh. Qed.
(** ... and a kill in the middle of creating the directories, after which a part of them is there *)
Example C116_directories :
  exists f', killed w0 (open_cat 7 9 ex_cwd (bs "/x/y") ex_dl) f'
    /\ f' !! bs "/x" = Some NDir /\ f' !! bs "/x/y" = None.
Proof.
  exists (foldr (fun d g => <[d := NDir]> g) w0 (take 2 (chain (bs "/x/y")))). split; [|vm_compute; done].
  unfold open_cat, ind_init, new_cat. cbn [c_dir]. replace (abs ex_cwd (bs "/x/y")) with (bs "/x/y") by (vm_compute; reflexivity).
  apply ki_during. apply pa_mkdir; vm_compute; reflexivity.
Qed.
