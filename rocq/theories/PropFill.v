(** Properties of catalogue entries under concurrent use (C92-C95). *)
From Verif Require Import FillProofs3.

(** *** C92: no interleaving makes the daemon believe that it has a chunk that it does
    not have: the progress in memory, the progress file and every answer list only
    chunks whose bytes are in the file. *)
Theorem C92_no_false_claims :
  forall s, freach s ->
    progress (f_mem s) ⊆ m_held (f_mem s)
    /\ (forall d, m_disk (f_mem s) = FSet d -> d ⊆ m_held (f_mem s))
    /\ (forall i d, answered s i (Some d) -> d ⊆ m_held (f_mem s)).
Proof. exact C92_lemma. Qed.
Print Assumptions C92_no_false_claims.
(** a download with a query in the middle of SaveChunk *)
Definition ex_mid : list (fkind + nat) :=
  [inl KReg; inr 0; inr 0; inr 0; inr 0; inr 0; inr 0; inl (KSave 1); inr 1; inr 1; inr 1; inl KPeek; inr 2; inr 2; inr 2].
Example C92_case : exists s, freach s /\ answered s 2 (Some ∅) /\ m_held (f_mem s) = {[1]} /\ f_thr s !! 1 = Some (KSave 1, PSet).
Proof.
  destruct (run_case (fresh_entry 2 ∅) ex_mid (fun s => bool_decide (f_thr s !! 2 = Some (KPeek, PDone (Some ∅)))
    && bool_decide (m_held (f_mem s) = {[1]}) && bool_decide (f_thr s !! 1 = Some (KSave 1, PSet)))) as (s & Hs & H); [by vm_compute|].
  rewrite !andb_true_iff, !bool_decide_eq_true in H. destruct H as [[H1 H2] H3].
  exists s. split; [exists (fresh_entry 2 ∅); split; [constructor; set_solver|done]|]. split; [by eexists|]. done.
Qed.

(** *** C93: a chunk that has been saved stays recorded.  From a moment on at which the
    record has been loaded and nobody is loading it, this is so ... *)
Theorem C93_kept_partial :
  forall s t, freach s -> settled s -> fsteps s t ->
    progress (f_mem s) ⊆ progress (f_mem t) /\ forall i x, length (f_thr s) <= i -> saved t i x -> x ∈ progress (f_mem t).
Proof. exact C93_lemma. Qed.
Print Assumptions C93_kept_partial.
(** ... and it is so as long as nobody calls Contains or Rehash ... *)
Theorem C93_locked_partial :
  forall s i x, freach s -> (forall j p, f_thr s !! j <> Some (KPeek, p)) -> saved s i x -> x ∈ progress (f_mem s).
Proof. exact C93_locked_lemma. Qed.
Print Assumptions C93_locked_partial.
(** ... but a query that began before RegisterDownload had made the progress file can
    put back an old one after a chunk has been saved; the next SaveChunk then writes that
    to the disk.  The chunk is there, and is downloaded again. *)
Definition ex_lost : list (fkind + nat) :=
  [inl KReg; inr 0; inr 0; inl KPeek; inr 1; inr 1; inr 0; inr 0; inr 0; inr 0; inr 1; inl (KSave 0)]
  ++ replicate 7 (inr 2) ++ [inr 1; inr 1; inl (KSave 1)] ++ replicate 7 (inr 3).
Theorem C93_lost_refuted :
  exists s i x, freach s /\ quiet s /\ saved s i x /\ x ∈ m_held (f_mem s) /\ x ∉ progress (f_mem s)
    /\ exists d, m_disk (f_mem s) = FSet d /\ x ∉ d.
Proof.
  destruct (run_case (fresh_entry 2 ∅) ex_lost (fun s => quietb s && bool_decide (f_thr s !! 2 = Some (KSave 0, PDone (Some {[0]})))
    && bool_decide (0 ∈ m_held (f_mem s)) && bool_decide (0 ∉ progress (f_mem s)) && bool_decide (m_disk (f_mem s) = FSet {[1]})))
    as (s & Hs & H); [by vm_compute|].
  rewrite !andb_true_iff, !bool_decide_eq_true in H. destruct H as [[[[H1 H2] H3] H4] H5].
  exists s, 2, 0. split; [exists (fresh_entry 2 ∅); split; [constructor; set_solver|done]|]. split; [by apply quietb_quiet|].
  split; [by eexists|]. split; [done|]. split; [done|]. exists {[1]}. split; [done|]. set_solver.
Qed.
Print Assumptions C93_lost_refuted.
Definition ex_kept : list (fkind + nat) := [inl KReg] ++ replicate 6 (inr 0).
Example C93_case : exists s, freach s /\ settled s /\ exists t, fsteps s t /\ saved t 1 0 /\ progress (f_mem t) = {[0]}.
Proof.
  destruct (run_case (fresh_entry 2 ∅) ex_kept (fun s => settledb s && match frun s (inl (KSave 0) :: replicate 7 (inr 1)) with
      Some t => bool_decide (f_thr t !! 1 = Some (KSave 0, PDone (Some {[0]}))) && bool_decide (progress (f_mem t) = {[0]}) | None => false end))
    as (s & Hs & H); [by vm_compute|].
  apply andb_true_iff in H as [H1 H]. apply run_case in H as (t & Ht & H). rewrite !andb_true_iff, !bool_decide_eq_true in H.
  destruct H as [H2 H3]. exists s. split; [exists (fresh_entry 2 ∅); split; [constructor; set_solver|done]|].
  split; [by apply settledb_settled|]. exists t. split; [done|]. split; [by eexists|done].
Qed.

(** *** C94: a query never kills the daemon.  The process dies exactly if a query (Contains or
    Rehash) reads the progress file between the truncation and the writing of it. *)
Theorem C94_dies_partial :
  forall s, freach s -> (fdies s <-> m_disk (f_mem s) = FShort /\ exists i, f_thr s !! i = Some (KPeek, PLoad)).
Proof. exact C94_lemma. Qed.
Print Assumptions C94_dies_partial.
Theorem C94_settled_partial : forall s t, freach s -> settled s -> fsteps s t -> ~ fdies t.
Proof. exact C94_settled_lemma. Qed.
Print Assumptions C94_settled_partial.
(** a daemon started again, a peer asks about the file while a chunk of it is saved *)
Definition ex_dies : list (fkind + nat) := [inl KPeek; inr 0; inr 0; inl (KSave 1)] ++ replicate 8 (inr 1).
Theorem C94_query_refuted : exists n d held s, d ⊆ held /\ held ⊆ all_chunks n /\ fsteps (restarted n d held) s /\ fdies s.
Proof.
  destruct (run_case (restarted 2 {[0]} {[0]}) ex_dies (fun s => bool_decide (f_thr s !! 0 = Some (KPeek, PLoad)) && bool_decide (m_disk (f_mem s) = FShort)))
    as (s & Hs & H); [by vm_compute|].
  rewrite !andb_true_iff, !bool_decide_eq_true in H. destruct H as [H1 H2].
  exists 2, {[0]}, {[0]}, s. split; [done|]. split; [by apply (bool_decide_eq_true_1 _)|]. split; [done|].
  exists 0, KPeek, PLoad. split; [done|]. cbn. by rewrite H2.
Qed.
Print Assumptions C94_query_refuted.
(** the same query and the same save, one after the other: both end *)
Example C94_case : exists s, fsteps (restarted 2 {[0]} {[0]}) s /\ answered s 0 (Some {[0]}) /\ saved s 1 1.
Proof.
  destruct (run_case (restarted 2 {[0]} {[0]}) ([inl KPeek] ++ replicate 5 (inr 0) ++ [inl (KSave 1)] ++ replicate 7 (inr 1))
    (fun s => bool_decide (f_thr s !! 0 = Some (KPeek, PDone (Some {[0]}))) && bool_decide (f_thr s !! 1 = Some (KSave 1, PDone (Some {[0; 1]})))))
    as (s & Hs & H); [by vm_compute|].
  rewrite !andb_true_iff, !bool_decide_eq_true in H. destruct H as [H1 H2]. exists s. split; [done|]. split; by eexists.
Qed.

(** *** C95: while a file is being shared, others see it not at all or completely.
    Methods that lock do; Contains and Rehash may also see it without any chunk ... *)
Theorem C95_answers_partial :
  forall n s i k d, fsteps (fresh_entry n (all_chunks n)) s -> (forall j p, f_thr s !! j <> Some (KReg, p)) ->
    f_thr s !! i = Some (k, PDone (Some d)) -> d = all_chunks n \/ (k = KPeek /\ d = ∅).
Proof. exact C95_lemma. Qed.
Print Assumptions C95_answers_partial.
(** ... but not when they are called after ShareFile has returned. *)
Theorem C95_after_partial :
  forall n s t i d j k r, fsteps (fresh_entry n (all_chunks n)) s -> f_thr s !! i = Some (KShare, PDone (Some d)) ->
    fsteps s t -> (forall j p, f_thr t !! j <> Some (KReg, p)) -> length (f_thr s) <= j ->
    f_thr t !! j = Some (k, PDone r) -> k <> KShare -> r = Some (all_chunks n).
Proof. exact C95_after_lemma. Qed.
Print Assumptions C95_after_partial.
Theorem C95_empty_refuted :
  exists n s i, n <> 0 /\ fsteps (fresh_entry n (all_chunks n)) s /\ f_thr s !! i = Some (KPeek, PDone (Some ∅)).
Proof.
  destruct (run_case (fresh_entry 2 (all_chunks 2)) [inl KShare; inr 0; inr 0; inr 0; inl KPeek; inr 1; inr 1; inr 1]
    (fun s => bool_decide (f_thr s !! 1 = Some (KPeek, PDone (Some ∅))))) as (s & Hs & H); [by vm_compute|].
  apply bool_decide_eq_true in H. exists 2, s, 1. done.
Qed.
Print Assumptions C95_empty_refuted.
Example C95_case : exists s, fsteps (fresh_entry 2 (all_chunks 2)) s /\ f_thr s !! 0 = Some (KShare, PDone (Some (all_chunks 2)))
  /\ f_thr s !! 1 = Some (KPeek, PDone (Some (all_chunks 2))).
Proof.
  destruct (run_case (fresh_entry 2 (all_chunks 2)) ([inl KShare] ++ replicate 7 (inr 0) ++ [inl KPeek; inr 1; inr 1; inr 1])
    (fun s => bool_decide (f_thr s !! 0 = Some (KShare, PDone (Some (all_chunks 2)))) && bool_decide (f_thr s !! 1 = Some (KPeek, PDone (Some (all_chunks 2))))))
    as (s & Hs & H); [by vm_compute|].
  rewrite !andb_true_iff, !bool_decide_eq_true in H. destruct H. by exists s.
Qed.
