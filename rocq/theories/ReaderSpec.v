(** Specification vocabulary for download connections. *)
From Verif Require Export Reader.

(** nothing happens any more unless something arrives *)
Definition idle (a : dconn) : Prop := forall x, ~ wstep a x.
(** the loop of downloadChunk is over *)
Definition finished (a : dconn) : Prop := forall r, w_loop a <> GRun r.
(** the goroutine is gone and the socket closed *)
Definition released (a : dconn) : Prop := w_rd a = RdEnd /\ w_open a = false.
(** where the loop is after exactly the packets of [ds], in this order; the last one
    is the one that completes the chunk *)
Definition loop_result (ds : list (list byte)) (g : reader_loop) : Prop :=
  match g with
  | GRun r => recv_datagrams ds = Ok (RMore r)
  | GNothing => exists r, recv_datagrams ds = Ok (RMore r)
  | GSaved buf ok => recv_datagrams ds = Ok (RSave buf ok)
      /\ exists ds0 d r, ds = ds0 ++ [d] /\ recv_datagrams ds0 = Ok (RMore r)
  end.
