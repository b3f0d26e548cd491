(** Specification vocabulary for downloads of which some chunks are not to be had. *)
From Verif Require Export SwarmSpec.

(** At most [K] usable hosts answer a search; for a chunk before chunk [i0] one of
    them has it.  A chunk asked for arrives completely from a host that has it, and
    nothing arrives from one that does not. *)
Definition offers (own : list byte) (has : list byte -> N -> Prop) (i0 : N) (K : nat) (content : list byte) (cs : nat) : network :=
  fun pc resps dg =>
    match pc with
    | LHosts i => exists hs, selected (good own) resps hs /\ length hs <= K /\ ((i < i0)%N -> someone_has has i hs)
    | LChunk i (r :: _) => exists ds, dg = Some ds /\ (has (h_addr r) i /\ delivered content cs (N.to_nat i) ds \/ ~ has (h_addr r) i /\ ds = [])
    | _ => True
    end.
(** the missing chunks before chunk [i0] *)
Definition todo_before (i0 : N) (a : aentry) : list N := filter (fun i => (i < i0)%N) (todo a).
