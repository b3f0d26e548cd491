(** Specification vocabulary for what the daemon keeps of its uploads. *)
From Verif Require Export ServerSpec.

(** one thing that happens to a running server: a datagram is handled, a worker of an upload acts, a
    request ID is drawn, or the catalogue and the files change in any way at all *)
Inductive srv_step : server * fs -> server * fs -> Prop :=
| ss_msg s f e buffer ra s' f' ds r : run f (handle_message e s buffer ra) = (f', Done (s', ds, r)) ->
    srv_step (s, f) (s', f')
| ss_work s f k u v u' ps : sv_uploads s !! k = Some u -> sstep u v = SGo u' ps ->
    srv_step (s, f) (set_upload s k u', f)
| ss_request s f : srv_step (s, f) ((generate_request_id s).2, f)
| ss_other s f c f' : srv_step (s, f) (set_cat s c, f').
(** everything that was sent is acknowledged and no worker is left *)
Definition over (l : list byte) (cs i : nat) (cap : N) (u : sender) : Prop :=
  exists ps, uploads_acked l cs i cap u ps (length ps) /\ sd_workers u = 0.
(** the handlers of acknowledgements that wait at senderConnection's packetChan, which
    has room for as many as the window (senderConnection.go:33, serverContinueUpload.go:30);
    [sd_acks] counts those in the channel too *)
Definition blocked (u : sender) : nat := sd_acks u - N.to_nat (sd_cap u).
(** what happens to an upload from which no further chunk is requested *)
Definition left_alone (u u' : sender) : Prop := rtc (fun a b => exists v ps, sstep a v = SGo b ps) u u'.
