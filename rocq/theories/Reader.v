(** Model of a download connection at work: the reading goroutine of DialPeer, its
    channel and the loop of downloadChunk (flu/recvConnection.go,
    flu/serverStartDownload.go).  Every receive buffer is new (56), so packets share
    no memory.  Acknowledgements and messages for the terminal are left out. *)
From Verif Require Export Download.

(** recvConnection.go:54-68: where the reading goroutine is *)
Inductive rdpc :=
| RdRead                        (* line 58, waiting for a datagram for up to 5 seconds *)
| RdSend (x : option packet)    (* line 65, or line 61 ([None]): sending on outChan *)
| RdEnd.                        (* after line 63 *)
(** recvConnection.go:48: outChan has room for ten packets *)
Definition chan_room : nat := 10.
(** what is left of the loop of downloadChunk, serverStartDownload.go:105-142 *)
Inductive reader_loop :=
| GRun (r : recv)                       (* line 106 *)
| GSaved (buf : list byte) (ok : bool)  (* line 131, SaveChunk is called with [buf] *)
| GNothing.                             (* line 108 *)
(** the datagrams that the kernel holds for the socket, whether the socket is open,
    the goroutine, the channel and the loop *)
Record dconn := mkDconn { w_queue : list (list byte); w_open : bool; w_rd : rdpc; w_chan : list (option packet); w_loop : reader_loop }.
(** recvConnection.go:37-54: after DialPeer *)
Definition new_dconn : dconn := mkDconn [] true RdRead [] (GRun new_recv).
(** One step; [None]: the process dies. *)
Inductive wstep : dconn -> option dconn -> Prop :=
(** recvConnection.go:58,65: a datagram is read and parsed *)
| w_read d q o c g p : parse_data (udp_clipped 1029 d) = Ok p ->
    wstep (mkDconn (d :: q) o RdRead c g) (Some (mkDconn q o (RdSend (Some p)) c g))
| w_bad d q o c g w : parse_data (udp_clipped 1029 d) = Panic w -> wstep (mkDconn (d :: q) o RdRead c g) None
(** recvConnection.go:57-60: five seconds without a datagram; the socket is closed *)
| w_time o c g : wstep (mkDconn [] o RdRead c g) (Some (mkDconn [] false (RdSend None) c g))
(** recvConnection.go:61,65: the channel takes it if there is room *)
| w_send q o c g p : length c < chan_room ->
    wstep (mkDconn q o (RdSend (Some p)) c g) (Some (mkDconn q o RdRead (c ++ [Some p]) g))
| w_last q o c g : length c < chan_room ->
    wstep (mkDconn q o (RdSend None) c g) (Some (mkDconn q o RdEnd (c ++ [None]) g))
(** recvConnection.go:28-34, serverStartDownload.go:106-141: the loop takes a packet *)
| w_more q o rd p c r r' : recv_packet r p = Ok (RMore r') ->
    wstep (mkDconn q o rd (Some p :: c) (GRun r)) (Some (mkDconn q o rd c (GRun r')))
| w_save q o rd p c r buf ok : recv_packet r p = Ok (RSave buf ok) ->
    wstep (mkDconn q o rd (Some p :: c) (GRun r)) (Some (mkDconn q o rd c (GSaved buf ok)))
| w_crash q o rd p c r w : recv_packet r p = Panic w -> wstep (mkDconn q o rd (Some p :: c) (GRun r)) None
| w_stop q o rd c r : wstep (mkDconn q o rd (None :: c) (GRun r)) (Some (mkDconn q o rd c GNothing)).
(** executions, with the datagrams that arrive while the socket is open *)
Inductive wtrace : dconn -> list (list byte) -> dconn -> Prop :=
| wt_nil a : wtrace a [] a
| wt_step a ds b c : wtrace a ds b -> wstep b (Some c) -> wtrace a ds c
| wt_arrive a ds q rd ch g d : wtrace a ds (mkDconn q true rd ch g) ->
    wtrace a (ds ++ [d]) (mkDconn (q ++ [d]) true rd ch g).
