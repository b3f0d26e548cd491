(** Specification vocabulary for a chunk transfer over a network that loses, repeats and reorders
    datagrams, as UDP may. *)
From Verif Require Export TransferSpec.

(** [n_down]: the packets sent so far; [n_up]: the number of acknowledgements sent so
    far (what an acknowledgement says does not matter to the sender); [n_got]: the packets
    the receiver has taken, in order *)
Record net := mkNet { n_sender : sender; n_down : list packet; n_up : nat; n_recv : rstate; n_got : list packet }.
(** Everything that was ever sent can arrive at any time, any number of times or never. *)
Inductive nstep : net -> net -> Prop :=
| ns_work s e s' ps d u r g : e = SKick None \/ e = SCancel -> sstep s e = SGo s' ps ->
    nstep (mkNet s d u r g) (mkNet s' (d ++ ps) u r g)
| ns_ack s s' d u r g : 0 < u -> sstep s SAck = SGo s' [] -> nstep (mkNet s d u r g) (mkNet s' d u r g)
| ns_more s p d u r r' g : p ∈ d -> recv_packet r p = Ok (RMore r') ->
    nstep (mkNet s d u (RRun r) g) (mkNet s d (S u) (RRun r') (g ++ [p]))
| ns_save s p d u r buf ok g : p ∈ d -> recv_packet r p = Ok (RSave buf ok) ->
    nstep (mkNet s d u (RRun r) g) (mkNet s d u (RDone buf ok) (g ++ [p]))
| ns_crash s p d u r w g : p ∈ d -> recv_packet r p = Panic w ->
    nstep (mkNet s d u (RRun r) g) (mkNet s d u RCrash (g ++ [p]))
| ns_timeout s d u r g : nstep (mkNet s d u (RRun r) g) (mkNet s d u RTimeout g).
(** the sender has just sent the header *)
Definition nstart (l : list byte) (cs i : nat) (cap : N) (a : net) : Prop :=
  exists fuel rd s p, new_chunk_reader fuel (FRegular l) (chunk_section (Z.of_nat i) (Z.of_nat cs)) = Some rd
    /\ kickstart (cr_hash rd) (cr_size rd) (new_sender (FRegular l) rd cap) true = (s, Ok p)
    /\ a = mkNet s [p] 0 (RRun new_recv) [].
(** a transfer in which the packets [g] arrived, in that order, and that ended by saving [buf];
    [ok]: its hash was the announced one *)
Definition delivers (l : list byte) (cs i : nat) (cap : N) (g : list packet) (buf : list byte) (ok : bool) : Prop :=
  exists a b, nstart l cs i cap a /\ rtc nstep a b /\ n_recv b = RDone buf ok /\ n_got b = g.
