(** Properties of download connections (C89-C91). *)
From Verif Require Import ReaderProofs DownloadProofs4.

(** *** C89: the goroutine that reads the socket hands packets to the loop in the order
    in which they arrive; none is lost, repeated or changed.  At every moment the
    loop is where it would be after a prefix of what has arrived, and it gives up
    only after all of it; if the process dies then some prefix is to blame. *)
Theorem C89_in_order :
  forall ds a, wtrace new_dconn ds a ->
    exists ds1 ds2, ds = ds1 ++ ds2 /\ loop_result ds1 (w_loop a) /\ (w_loop a = GNothing -> ds2 = []).
Proof. exact C89_lemma. Qed.
Print Assumptions C89_in_order.
Theorem C89_dies :
  forall ds a, wtrace new_dconn ds a -> wstep a None -> exists ds1 ds2, ds = ds1 ++ ds2 /\ is_panic (recv_datagrams ds1).
Proof. exact C89_dies_lemma. Qed.
Print Assumptions C89_dies.
(** whatever the sequential reading of the datagrams gives does happen *)
Theorem C89_all :
  forall ds x, recv_datagrams ds = Ok x ->
    exists a, wtrace new_dconn ds a /\ w_loop a = match x with RMore _ => GNothing | RSave buf ok => GSaved buf ok end.
Proof. exact C89_all_lemma. Qed.
Print Assumptions C89_all.
Example C89_case :
  match wrun 60 (arrived ex_ds) with
  | Some a => match w_loop a with GSaved buf ok => bool_decide (buf = bs "abc") && ok | _ => false end
  | None => false
  end = true
  /\ match wrun 60 (arrived (take 1 ex_ds)) with Some a => match w_loop a with GNothing => true | _ => false end | None => false end = true.
Proof. split; vm_compute; reflexivity. Qed.

(** *** C90: downloadChunk never waits for ever: when nothing can happen any more
    without a new datagram, its loop is over. *)
Theorem C90_returns : forall ds a, wtrace new_dconn ds a -> idle a -> finished a.
Proof. exact C90_lemma. Qed.
Print Assumptions C90_returns.
Example C90_case : exists a, wtrace new_dconn [] a /\ idle a /\ w_loop a = GNothing.
Proof.
  destruct (wrun 10 (arrived [])) as [a|] eqn:E; [|exfalso; revert E; vm_compute; discriminate].
  exists a. destruct (wrun_case _ _ _ E) as [H1 H2]. split; [done|]. split; [done|]. revert E. vm_compute. intros [= <-]. done.
Qed.

(** *** C91: in the end the goroutine is gone and the socket closed.  This is so
    exactly if at most nine datagrams ([ds2]) arrive after the one that completes the
    chunk; the socket stays open exactly if more than ten do. *)
Theorem C91_released_partial :
  forall ds a, wtrace new_dconn ds a -> idle a ->
    exists ds1 ds2, ds = ds1 ++ ds2 /\ loop_result ds1 (w_loop a) /\ (w_loop a = GNothing -> ds2 = [])
      /\ (released a <-> length ds2 <= 9) /\ (w_open a = true <-> 11 <= length ds2).
Proof. exact C91_lemma. Qed.
Print Assumptions C91_released_partial.
(** ... and otherwise it stays like that for ever, whatever arrives. *)
Theorem C91_leak_refuted :
  forall ds a ds' b, wtrace new_dconn ds a -> idle a -> w_rd a <> RdEnd -> wtrace a ds' b ->
    idle b /\ w_rd b = w_rd a /\ w_open b = w_open a /\ w_chan b = w_chan a /\ w_loop b = w_loop a.
Proof. exact C91_forever_lemma. Qed.
Print Assumptions C91_leak_refuted.
Definition ex_tail (n : nat) : list (list byte) := ex_ds ++ replicate n (wire (stream habc (bs "abc") 1)).
Definition ex_state (n : nat) : option (bool * bool) :=
  match wrun 100 (arrived (ex_tail n)) with
  | Some a => Some (w_open a, match w_rd a with RdEnd => true | _ => false end)
  | None => None
  end.
Example C91_case : ex_state 9 = Some (false, true) /\ ex_state 10 = Some (false, false) /\ ex_state 11 = Some (true, false).
Proof. split; [|split]; vm_compute; reflexivity. Qed.
Example C91_reached : exists a, wtrace new_dconn (ex_tail 11) a /\ idle a /\ w_rd a <> RdEnd /\ w_open a = true.
Proof.
  pose proof C91_case as (_ & _ & E). unfold ex_state in E. revert E. generalize (ex_tail 11). intros ds E.
  destruct (wrun 100 (arrived ds)) as [a|] eqn:Ea; [|done].
  destruct (wrun_case _ _ _ Ea) as [H1 H2]. exists a. split; [done|]. split; [done|]. destruct (w_rd a); simplify_eq; done.
Qed.
