(** Specification vocabulary for host discovery. *)
From Verif Require Export Discover ServerSpec.

(** all executions *)
Definition d_reached (D : dstate) : Prop := rtc dstep d_init D.
(** message [m] of goroutine [i] has been put into the channel of call [w], and is
    still there or has been collected *)
Definition handed (D : dstate) (i : nat) (m : message) (w : nat) : Prop :=
  exists x, d_ws D !! w = Some x /\ (wt_chan x = Some (i, m) \/ (i, m) ∈ wt_got x).
Definition pc_of (D : dstate) (w : nat) : option wpc := wt_pc <$> d_ws D !! w.
Definition dpc_of (D : dstate) (i : nat) : option dpc := dl_pc <$> d_ds D !! i.
(** a goroutine holds the lock while it sends to a call that has stopped reading
    its channel, which is full *)
Definition jammed (D : dstate) : Prop :=
  exists i w x, d_lock D = Some i /\ dpc_of D i = Some (DSend w) /\ d_ws D !! w = Some x
    /\ wt_pc x = WUnreg /\ wt_chan x <> None.
(** the number of responses to request [r] that have come in *)
Definition responses (D : dstate) (r : N) : nat := size (filter (fun p => dl_reqid p.2 = r) (d_ds D)).
(** call [w] with request ID [r] is registered, and has not been unregistered *)
Definition waiting (D : dstate) (w : nat) (r : N) : Prop :=
  exists x, d_ws D !! w = Some x /\ wt_reqid x = r /\ (wt_pc x = WWait \/ wt_pc x = WUnreg).
(** no two calls got the same request ID (any 65536 consecutive IDs differ) *)
Definition distinct_ids (D : dstate) : Prop :=
  forall w w' x x', d_ws D !! w = Some x -> d_ws D !! w' = Some x' -> wt_reqid x = wt_reqid x' -> w = w'.
(** the calls, their channels, the response map and the lock are the same *)
Definition unchanged (D D' : dstate) : Prop :=
  d_ws D' = d_ws D /\ d_map D' = d_map D /\ d_lock D' = d_lock D.
(** message [m] answers request [r] *)
Definition answers (m : message) (r : N) : Prop := exists a p cs, m = DiscResp a p r cs.
