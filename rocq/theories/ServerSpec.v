(** Specification vocabulary for the daemon's message handling. *)
From Verif Require Export Server CatalogueSpec TransferSpec MessagesSpec.

(** ** Addresses *)
(** [a] is the IPv4 address that the 4 or 16 bytes [ip] stand for *)
Definition ipv4_of (ip a : list byte) : Prop :=
  length a = 4 /\ (ip = a \/ ip = replicate 10 x00 ++ [xff; xff] ++ a).
(** interface address [i] is the IPv4 address [a], not a loopback one *)
Definition candidate (i : ifaddr) (a : list byte) : Prop :=
  exists ip, i = IfNet ip /\ ipv4_of (slice_bytes ip) a /\ a !! 0 <> Some (Nb 127).
(** [a] is the first such address of a list *)
Definition own_address (ifs : list ifaddr) (a : list byte) : Prop :=
  exists pre i post, ifs = pre ++ i :: post /\ candidate i a /\ Forall (fun j => forall b, ~ candidate j b) pre.
Definition if_wf (i : ifaddr) : Prop := match i with IfNet ip => slice_wf ip | IfOther => True end.
(** the return addresses the kernel hands out: 4 or 16 bytes, no spare capacity,
    and an IPv4 peer *)
Definition from_ipv4 (ra : udp_addr) (a : list byte) : Prop :=
  exists l, ua_ip ra = exact_slice l /\ ipv4_of l a.

(** ** Answers *)
Definition blank : hash := replicate 20 xff.
(** the numbers [cs] in a discovery reply to a request for the ranges [qs] of [h] *)
Definition truthful (A : astate) (h : hash) (qs : list (N * N)) (cs : list N) : Prop :=
  match A !! h with
  | Some a =>
      if decide (h = blank) then cs = []
      else if decide (qs = []) then
        exists ps, cs = flatten ps /\ separated 0 ps /\ forall x, covered ps x <-> x ∈ a_held a
      else
        exists pss, cs = flatten (concat pss) /\
          Forall2 (fun q ps => separated q.1 ps /\ forall x, covered ps x <-> (q.1 <= x <= q.2)%N /\ x ∈ a_held a) qs pss
  | None => cs = []
  end.
(** the same for files of any size: chunk numbers are reduced mod 2^16 when all chunks are asked for *)
Definition reported (A : astate) (h : hash) (qs : list (N * N)) (cs : list N) : Prop :=
  match A !! h with
  | Some a =>
      if decide (h = blank) then cs = []
      else if decide (qs = []) then
        exists ps, cs = flatten (map (fun p => (p.1 mod 65536, p.2 mod 65536)%N) ps)
          /\ separated 0 ps /\ forall x, covered ps x <-> x ∈ a_held a
      else
        exists pss, cs = flatten (concat pss) /\
          Forall2 (fun q ps => separated q.1 ps /\ forall x, covered ps x <-> (q.1 <= x <= q.2)%N /\ x ∈ a_held a) qs pss
  | None => cs = []
  end.
(** the first chunks of the runs of consecutive chunks in [X] *)
Definition run_starts (X : gset N) : gset N := filter (fun x => x = 0%N \/ (x - 1)%N ∉ X) X.
(** a listing entry describes an indexed file; the two 32-bit counts are reduced *)
Definition describes (e : lfentry) (h : hash) (a : aentry) : Prop :=
  Z.of_N (e_size e) = a_size a /\ Z.of_N (e_count e) = (a_count a mod 4294967296)%Z
  /\ Z.of_N (e_chunk e) = a_chunk a /\ Z.of_N (e_down e) = (Z.of_nat (size (a_held a)) mod 4294967296)%Z
  /\ e_hash e = h /\ slash ∉ e_name e /\ exists d, a_path a = d ++ slash :: e_name e.

(** ** Datagrams that end the process *)
Definition kills (A : astate) (buffer : list byte) : Prop :=
  (exists rest, buffer = x03 :: rest /\
     ~ entries_fit (N.to_nat (unbe (take 2 (drop 2 rest)))) (drop 4 rest))
  \/ (exists reqid h cs, parse buffer = Ok (DiscReq reqid h cs) /\ h <> blank /\ A !! h <> None
        /\ Nat.odd (length cs) = true)
  \/ (exists reqid h, parse buffer = Ok (ListReq reqid h) /\ h <> blank /\ A !! h = None).
(** the indexed files can be opened and hashed (not directories) *)
Definition readable (A : astate) (f : fs) (fuel : nat) : Prop :=
  forall h a, A !! h = Some a -> f !! a_path a <> Some NDir /\
    forall l, file_at f (a_path a) = Some l -> length l < fuel.

(** the host has no usable address of its own *)
Definition homeless (e : env) : Prop := ~ exists addrs a, en_ifs e = Some addrs /\ own_address addrs a.

(** the datagrams that end the process *)
Definition dies_on (A : astate) (e : env) (buffer : list byte) : Prop :=
  kills A buffer \/ (homeless e /\ exists reqid h cs, parse buffer = Ok (DiscReq reqid h cs)).

(** ** Uploads *)
(** [u] is an upload that was created for chunk [i] of the file [l], chunk size [cs],
    whatever happened to it since: further requests, acknowledgements, workers *)
Inductive carries (l : list byte) (cs i : nat) : sender -> Prop :=
| ca_new fuel rd cap : new_chunk_reader fuel (FRegular l) (chunk_section (Z.of_nat i) (Z.of_nat cs)) = Some rd ->
    carries l cs i (new_sender (FRegular l) rd cap)
| ca_request u h size wok u' r : carries l cs i u -> kickstart h size u wok = (u', r) -> carries l cs i u'
| ca_step u v u' ps : carries l cs i u -> sstep u v = SGo u' ps -> carries l cs i u'.
(** generate [n] request IDs *)
Fixpoint request_ids (n : nat) (s : server) : list N :=
  match n with O => [] | S n' => let '(i, s') := generate_request_id s in i :: request_ids n' s' end.
(** server states that can be reached: datagrams are handled, workers of uploads act,
    the catalogue is used from the command line, other programs change files *)
Inductive srv_reached (cwd dir dl : path) : astate -> server -> fs -> Prop :=
| sr_start A c f port : reached cwd dir dl A c f -> srv_reached cwd dir dl A (new_server port c) f
| sr_msg A s f e buffer ra s' f' ds r : srv_reached cwd dir dl A s f ->
    NoDup (en_order e) -> (forall h, h ∈ en_order e <-> A !! h <> None) ->
    run f (handle_message e s buffer ra) = (f', Done (s', ds, r)) -> srv_reached cwd dir dl A s' f'
| sr_work A s f k u v u' ps : srv_reached cwd dir dl A s f -> sv_uploads s !! k = Some u ->
    sstep u v = SGo u' ps -> srv_reached cwd dir dl A (set_upload s k u') f
| sr_request A s f : srv_reached cwd dir dl A s f -> srv_reached cwd dir dl A (generate_request_id s).2 f
| sr_call A s f q A' c' f' ans : srv_reached cwd dir dl A s f -> allowed cwd dir dl A f q ->
    crun cwd (sv_cat s) f q = Some (c', f', ans) -> aspec cwd dir dl A f q A' f' ans ->
    srv_reached cwd dir dl A' (set_cat s c') f'
| sr_outside A s f f' : srv_reached cwd dir dl A s f ->
    f' !! dir = f !! dir -> (forall p, parent p = dir -> f' !! p = f !! p) ->
    srv_reached cwd dir dl A s f'.

(** ** Choosing hosts *)
(** [l] consists of the elements of [xs] that satisfy [P], in the same order *)
Inductive selected {X} (P : X -> Prop) : list X -> list X -> Prop :=
| sel_nil : selected P [] []
| sel_take x xs l : P x -> selected P xs l -> selected P (x :: xs) (x :: l)
| sel_skip x xs l : ~ P x -> selected P xs l -> selected P (x :: xs) l.
Definition good (own : list byte) (r : hostresp) : Prop := h_chunks r <> [] /\ h_addr r <> own.
