(** Model of the waiting side of host discovery: DiscoverHosts
    (serverDiscoverHosts.go:14-55) and the response map (server.go:83-109), for any
    number of goroutines.  The broadcast itself is not modelled (line 36 panics when
    no socket can be opened). *)
From Verif Require Export Server.

(** a call of DiscoverHosts.  The channel made for it (server.go:87, room for one
    message) belongs to it alone, so it is part of the same record; every message
    carries the name of the goroutine that delivers it. *)
Inductive wpc :=
| WStart          (* about to call registerResponseChan (line 26) *)
| WWait           (* at the select (line 44) *)
| WUnreg          (* timed out; about to lock in unregisterResponseChan (line 47) *)
| WDone           (* returned (line 48) *)
| WCrash.         (* the type assertion of line 51 failed *)
Record waiter := mkWaiter {
  wt_reqid : N; wt_pc : wpc; wt_chan : option (nat * message); wt_got : list (nat * message) }.
(** a call of deliverResponse (server.go:100-109) from a handler (server.go:144, 152) *)
Inductive dpc :=
| DStart          (* about to lock resMapLock *)
| DSend (w : nat) (* holds resMapLock, sends on the channel of [w] (line 105) *)
| DDone (ok : bool).
Record deliverer := mkDel { dl_reqid : N; dl_msg : message; dl_pc : dpc }.
(** resMapLock with its holder, resMap (keyed by request ID and message type, with
    the owner of the channel), and the goroutines.  Only deliverResponse blocks while
    it holds the lock; the other two critical sections are single steps. *)
Record dstate := mkD {
  d_lock : option nat; d_map : gmap (N * N) nat;
  d_ws : gmap nat waiter; d_ds : gmap nat deliverer }.
Definition d_init : dstate := mkD None ∅ ∅ ∅.
Definition set_w (D : dstate) (w : nat) (x : waiter) : dstate :=
  mkD (d_lock D) (d_map D) (<[w := x]> (d_ws D)) (d_ds D).
Definition set_d (D : dstate) (i : nat) (x : deliverer) : dstate :=
  mkD (d_lock D) (d_map D) (d_ws D) (<[i := x]> (d_ds D)).
Definition set_rmap (D : dstate) (m : gmap (N * N) nat) : dstate := mkD (d_lock D) m (d_ws D) (d_ds D).
Definition set_lock (D : dstate) (l : option nat) : dstate := mkD l (d_map D) (d_ws D) (d_ds D).
(** the type assertion of serverDiscoverHosts.go:51 *)
Definition is_disc_resp (m : message) : bool := match m with DiscResp _ _ _ _ => true | _ => false end.

Inductive dstep : dstate -> dstate -> Prop :=
(** DiscoverHosts is called and gets a request ID *)
| ds_call D w r : d_ws D !! w = None -> dstep D (set_w D w (mkWaiter r WStart None []))
(** server.go:83-90 registerResponseChan *)
| ds_register D w x : d_ws D !! w = Some x -> wt_pc x = WStart -> d_lock D = None ->
    dstep D (set_rmap (set_w D w (mkWaiter (wt_reqid x) WWait None (wt_got x)))
                     (<[(wt_reqid x, response_type_disc) := w]> (d_map D)))
(** a response comes in: HandleMessage goes on to deliverResponse *)
| ds_arrive D i e s buffer ra f r m : d_ds D !! i = None ->
    run f (handle_message e s buffer ra) = (f, Done (s, [], HDeliver r m)) -> dstep D (set_d D i (mkDel r m DStart))
(** server.go:100-104, 108: no channel *)
| ds_reject D i d : d_ds D !! i = Some d -> dl_pc d = DStart -> d_lock D = None ->
    d_map D !! (dl_reqid d, msg_type (dl_msg d)) = None ->
    dstep D (set_d D i (mkDel (dl_reqid d) (dl_msg d) (DDone false)))
(** server.go:100-104: lock taken, channel found *)
| ds_lock D i d w : d_ds D !! i = Some d -> dl_pc d = DStart -> d_lock D = None ->
    d_map D !! (dl_reqid d, msg_type (dl_msg d)) = Some w ->
    dstep D (set_lock (set_d D i (mkDel (dl_reqid d) (dl_msg d) (DSend w))) (Some i))
(** server.go:105-106: there is room; the deferred Unlock *)
| ds_send D i d w x : d_ds D !! i = Some d -> dl_pc d = DSend w -> d_ws D !! w = Some x -> wt_chan x = None ->
    dstep D (set_lock (set_w (set_d D i (mkDel (dl_reqid d) (dl_msg d) (DDone true))) w
                         (mkWaiter (wt_reqid x) (wt_pc x) (Some (i, dl_msg d)) (wt_got x))) None)
(** serverDiscoverHosts.go:49-52 *)
| ds_recv D w x i m : d_ws D !! w = Some x -> wt_pc x = WWait -> wt_chan x = Some (i, m) ->
    dstep D (set_w D w (if is_disc_resp m then mkWaiter (wt_reqid x) WWait None (wt_got x ++ [(i, m)])
                        else mkWaiter (wt_reqid x) WCrash None (wt_got x)))
(** serverDiscoverHosts.go:45: the two seconds are over (at any time) *)
| ds_timeout D w x : d_ws D !! w = Some x -> wt_pc x = WWait ->
    dstep D (set_w D w (mkWaiter (wt_reqid x) WUnreg (wt_chan x) (wt_got x)))
(** server.go:92-97 unregisterResponseChan, serverDiscoverHosts.go:48 *)
| ds_unregister D w x : d_ws D !! w = Some x -> wt_pc x = WUnreg -> d_lock D = None ->
    dstep D (set_rmap (set_w D w (mkWaiter (wt_reqid x) WDone (wt_chan x) (wt_got x)))
                     (delete (wt_reqid x, response_type_disc) (d_map D))).
