(** Properties of Clean when the daemon is killed or files cannot be opened (C126, C127). *)
From Verif Require Import SweepSpec SweepProofs CatalogueCases ServerCases.

(** *** C126, what holds: a kill during Clean changes no file of the user.  Afterwards the daemon starts
    in a reachable state that has every entry Clean was to keep, or an index write was cut off and it does not
    start (C32), or it is stuck (C33) over an entry Clean was to remove.
    Missing: repair in the last two cases, which is impossible. *)
Theorem C126_killed_clean_partial :
  forall cwd dir dl A c f order f', valid_utf8 dir -> reached cwd dir dl A c f -> (forall h a, A !! h = Some a -> valid_utf8 (a_path a)) ->
    allowed cwd dir dl A f (CList order) -> (forall h a, A !! h = Some a -> parent (a_path a) <> dir) ->
    cut_short f (clean_index c order) f' ->
    same_user dir f f'
    /\ ((exists A' c', starts cwd dir dl f' c' /\ reached cwd dir dl A' c' f' /\ A' ⊆ A
           /\ forall h a, A !! h = Some a -> stays f h a -> A' !! h = Some a)
        \/ wont_start cwd dir dl f' \/ exists h a, A !! h = Some a /\ ~ stays f h a /\ stuck cwd dir dl h f').
Proof. exact C126_lemma. Qed.
Print Assumptions C126_killed_clean_partial.
(** Whenever there is something to remove, both happen. *)
Theorem C126_fatal_kills_refuted :
  forall cwd dir dl A c f h a order, valid_utf8 dir -> reached cwd dir dl A c f -> allowed cwd dir dl A f (CList (h :: order)) ->
    A !! h = Some a -> ~ stays f h a ->
    (exists f', cut_short f (clean_index c (h :: order)) f' /\ wont_start cwd dir dl f')
    /\ exists f', cut_short f (clean_index c (h :: order)) f' /\ stuck cwd dir dl h f'.
Proof. intros cwd dir dl A c f h a order Hu. exact (clean_cut_bad cwd dir dl Hu A c f h a order). Qed.
Print Assumptions C126_fatal_kills_refuted.

(** the five-byte download is removed by the user; Clean is killed while it drops the entry *)
Example C126_case : let f := delete (bs "/dl/new") ex3.1.2 in reached ex_cwd ex_dir ex_dl A3 ex3.1.1 f
  /\ exists f', cut_short f (clean_index ex3.1.1 [hnew; habc]) f' /\ stuck ex_cwd ex_dir ex_dl hnew f'.
Proof.
  intros f. assert (parent (bs "/dl/new") <> ex_dir) as P2 by (vm_compute; discriminate).
  assert (ex_dir <> bs "/dl/new") as P3 by (vm_compute; discriminate).
  assert (reached ex_cwd ex_dir ex_dl A3 ex3.1.1 f) as H.
  { apply (re_outside _ _ _ _ _ ex3.1.2); [exact ex3_reached|apply lookup_delete_ne, not_eq_sym, P3|].
    intros p Hp. apply lookup_delete_ne. intros <-. apply P2, Hp. }
  split; [exact H|].
  apply (C126_fatal_kills_refuted ex_cwd ex_dir ex_dl A3 ex3.1.1 f hnew (hold entry_new 1) [habc]); [|exact H|exact ex_order|apply lookup_insert|].
  - apply sanitize_id_iff. vm_compute. reflexivity.
  - intros (l & Hl & _). unfold file_at in Hl. cbn [hold entry_new new_entry a_path] in Hl. unfold f in Hl. rewrite lookup_delete in Hl. discriminate Hl.
Qed.

(** *** C127, refuted: Clean takes every error of opening a file for its absence.  For every set of
    entries there is a run of Clean in which their files cannot be opened (too many open files,
    say) and in which they are removed and reported as missing although the files are there
    and unchanged. *)
Theorem C127_unopened_refuted :
  forall cwd dir dl (bad : gset hash) A c f order, reached cwd dir dl A c f -> allowed cwd dir dl A f (CList order) ->
    (forall h a, A !! h = Some a -> parent (a_path a) <> dir) ->
    exists c' f' A' items, execs f (clean_index c order) f' (Done (c', Ok items))
      /\ reached cwd dir dl A' c' f' /\ same_user dir f f'
      /\ Forall2 (fun i h => exists a, A !! h = Some a /\ i = mkItem (a_path a) h (verdict_with bad f h a).2 (verdict_with bad f h a).1) items order
      /\ (forall h a, A' !! h = Some a <-> A !! h = Some a /\ stays f h a /\ h ∉ bad).
Proof. exact clean_bad. Qed.
Print Assumptions C127_unopened_refuted.
(** What holds whichever calls fail and wherever the daemon is killed then: no file of the user
    changes and no entry appears or changes.  Afterwards the daemon starts in a reachable state with some of the
    entries, or does not start (C32), or is stuck (C33).  Missing: that entries whose files are intact remain. *)
Theorem C127_any_failures_partial :
  forall cwd dir dl A c f order f', valid_utf8 dir -> reached cwd dir dl A c f -> (forall h a, A !! h = Some a -> valid_utf8 (a_path a)) ->
    allowed cwd dir dl A f (CList order) -> killed f (clean_index c order) f' ->
    same_user dir f f'
    /\ ((exists A' c', starts cwd dir dl f' c' /\ reached cwd dir dl A' c' f' /\ A' ⊆ A)
        \/ wont_start cwd dir dl f' \/ exists h a, A !! h = Some a /\ stuck cwd dir dl h f').
Proof. exact C127_lemma. Qed.
Print Assumptions C127_any_failures_partial.

(** the shared file /a is intact and the five-byte download has one of two chunks; without failures both
    stay.  If /a cannot be opened, its entry is gone. *)
Lemma gone (bad : gset hash) (A : astate) h : h ∈ bad -> (forall a, A !! h = Some a -> h ∉ bad) -> A !! h = None.
Proof. intros Hb H. destruct (A !! h) as [a|]; [|done]. exfalso. apply (H a); done. Qed.
Example C127_case : exists c' f' A' items, stays ex3.1.2 habc entry_abc
  /\ execs ex3.1.2 (clean_index ex3.1.1 [hnew; habc]) f' (Done (c', Ok items))
  /\ A' !! habc = None /\ reached ex_cwd ex_dir ex_dl A' c' f'
  /\ exists i, i ∈ items /\ ci_path i = bs "/a" /\ ci_action i = RemovedMissing.
Proof.
  assert (file_at ex3.1.2 (bs "/a") = Some (bs "abc")) as Ef by (vm_compute; reflexivity).
  assert (parent (bs "/a") <> ex_dir) as P1 by (vm_compute; discriminate).
  assert (parent (bs "/dl/new") <> ex_dir) as P2 by (vm_compute; discriminate).
  pose proof ex3_reached as H. unfold at_ex in H.
  destruct (C127_unopened_refuted ex_cwd ex_dir ex_dl {[habc]} _ _ _ [hnew; habc] H ex_order) as (c' & f' & A' & items & H1 & H2 & _ & H4 & H5).
  { intros h a Ha. unfold A2 in Ha. apply lookup_insert_Some in Ha as [[_ <-]|[_ Ha]]; [exact P2|].
    apply lookup_insert_Some in Ha as [[_ <-]|[_ Ha]]; [exact P2|]. apply lookup_singleton_Some in Ha as [_ <-]. exact P1. }
  exists c', f', A', items. split.
  { exists (bs "abc"). split; [exact Ef|]. intros _. apply (bool_decide_unpack _). vm_compute. exact I. }
  split; [exact H1|]. split.
  { apply (gone {[habc]} A' habc); [apply elem_of_singleton; exact eq_refl|]. intros a E. apply H5 in E as (_ & _ & E). exact E. }
  split; [exact H2|].
  apply Forall2_cons_inv_r in H4 as (i0 & items1 & _ & H6 & ->). apply Forall2_cons_inv_r in H6 as (i & items2 & Hi & _ & ->). destruct Hi as (a & Ha & Hi).
  rewrite A3_abc in Ha. injection Ha as <-. exists i. split; [right; left|]. rewrite Hi. unfold verdict_with.
  rewrite decide_True by (apply elem_of_singleton; exact eq_refl). split; exact eq_refl.
Qed.
