(** Specification vocabulary for downloads. *)
From Verif Require Export Download ServerSpec.

(** the addresses of the interfaces have no spare capacity *)
Definition no_spare (ifs : list ifaddr) : Prop :=
  Forall (fun i => match i with IfNet ip => length (arr ip) = slen ip | IfOther => True end) ifs.

(** ** What the receiver takes from a lossless channel *)
(** [ytrace a ps b]: the transfer goes from [a] to [b] and the receiver takes the
    packets [ps] on the way *)
Inductive ytrace : sys -> list packet -> sys -> Prop :=
| yt_nil a : ytrace a [] a
| yt_take a a' p ps b : ystep a a' -> y_data a = p :: y_data a' -> ytrace a' ps b -> ytrace a (p :: ps) b
| yt_other a a' more ps b : ystep a a' -> y_data a' = y_data a ++ more -> ytrace a' ps b -> ytrace a ps b.
(** [ds] are the datagrams of a complete transfer of chunk [i] of a file [content]: the
    file [l] it is read from has the same chunk and may differ in others *)
Definition delivered (content : list byte) (cs i : nat) (ds : list (list byte)) : Prop :=
  exists l a ps b, chunk_bytes l cs i = chunk_bytes content cs i /\ ystart l cs i 1024 a /\ ytrace a ps b /\ (forall c, ~ ystep b c) /\ ds = map wire ps.

(** ** Executions of the loop *)
Record lworld := mkL { l_pc : lpc; l_cat : cat; l_fs : fs; l_active : active }.
(** one step in which no I/O operation fails on its own; [None]: the process died *)
Definition lstep (own : list byte) (h : hash) (resps : list hostresp) (dg : option (list (list byte)))
    (a : lworld) : option (lworld * list dgram) :=
  match run (l_fs a) (loop_step own h resps dg (l_pc a) (l_cat a) (l_active a)) with
  | (f', Done (c', D', pc', out)) => Some (mkL pc' c' f' D', out)
  | _ => None
  end.
(** what the network may answer at each point *)
Notation network := (lpc -> list hostresp -> option (list (list byte)) -> Prop).
(** [lexec own h net a n out b]: [n] steps lead from [a] to [b], sending [out] *)
Inductive lexec (own : list byte) (h : hash) (net : network) : lworld -> nat -> list dgram -> lworld -> Prop :=
| le_nil a : lexec own h net a 0 [] a
| le_step a n out b resps dg out' c : lexec own h net a n out b -> l_pc b <> LDone -> net (l_pc b) resps dg ->
    lstep own h resps dg b = Some (c, out') -> lexec own h net a (S n) (out ++ out') c.
Definition any_network : network := fun _ _ _ => True.
(** exactly one host other than ourselves answers, and the chunks it is asked for
    arrive *)
Definition honest (own : list byte) (host : list byte) (port : N) (content : list byte) (cs : nat) : network :=
  fun pc resps dg =>
    match pc with
    | LHosts _ => exists r, selected (good own) resps [r] /\ h_addr r = host /\ h_port r = port
    | LChunk i (_ :: _) => exists ds, dg = Some ds /\ delivered content cs (N.to_nat i) ds
    | _ => True
    end.

(** ** What a download should do *)
(** the chunks that are missing, in increasing order *)
Definition todo (a : aentry) : list N := filter (fun i => i ∉ a_held a) (map N.of_nat (seq 0 (Z.to_nat (a_count a)))).
(** a request to [host] for chunk [i] *)
Definition request (host : list byte) (port : N) (h : hash) (i : N) : dgram :=
  mkDgram host (Z.of_N port) (serialize (OpenReq h i 1024)).
(** the chunks marked as held are in the destination file *)
Definition right_so_far (content : list byte) (cs : nat) (f : fs) (a : aentry) : Prop :=
  forall k, k < length content -> N.of_nat (k / cs) ∈ a_held a ->
    default [] (file_at f (a_path a)) !! k = content !! k.
