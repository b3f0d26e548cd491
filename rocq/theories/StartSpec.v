(** Specification vocabulary for the metadata with which a download starts. *)
From Verif Require Export Download ServerSpec.

(** the datagram [meta] (None: no datagram arrives) is a listing of one file, which has the hash [h]; as
    received, in a buffer of 1024 bytes *)
Definition describes_one (meta : option (list byte)) (h : hash) (e : lfentry) : Prop :=
  exists d reqid, meta = Some d /\ parse (udp_buffer 1024 d) = Ok (ListResp reqid [e]) /\ e_hash e = h.
(** the datagram crashes the parser (C22) *)
Definition unparsable (meta : option (list byte)) : Prop :=
  exists d, meta = Some d /\ is_panic (parse (udp_buffer 1024 d)).
