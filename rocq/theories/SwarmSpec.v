(** Specification vocabulary for downloads from several hosts. *)
From Verif Require Export DownloadSpec.

(** [has ip i]: the host with address [ip] has chunk [i].  One of the hosts [hs] has it: *)
Definition someone_has (has : list byte -> N -> Prop) (i : N) (hs : list hostresp) : Prop := Exists (fun r => has (h_addr r) i) hs.
(** the host with address [ip] has everything *)
Definition seeded (ip : list byte) : list byte -> N -> Prop := fun x _ => x = ip.
(** The usable hosts that answer a search for chunk [i] are always a list [hs] with
    [R hs] of which one has the chunk.  A chunk asked for either arrives completely or
    nothing arrives (the host does not have the chunk, or it is gone); it arrives from
    a host that has it. *)
Definition swarm (own : list byte) (has : list byte -> N -> Prop) (R : list hostresp -> Prop) (content : list byte) (cs : nat) : network :=
  fun pc resps dg =>
    match pc with
    | LHosts i => exists hs, selected (good own) resps hs /\ R hs /\ someone_has has i hs
    | LChunk i (r :: _) => exists ds, dg = Some ds /\ (delivered content cs (N.to_nat i) ds \/ ds = [] /\ ~ has (h_addr r) i)
    | _ => True
    end.
(** Any hosts may answer; a chunk asked for arrives completely or nothing arrives. *)
Definition loose (content : list byte) (cs : nat) : network :=
  fun pc _ dg =>
    match pc with
    | LChunk i (_ :: _) => exists ds, dg = Some ds /\ (delivered content cs (N.to_nat i) ds \/ ds = [])
    | _ => True
    end.
(** No host has chunk [i]: whoever is asked for it stays silent.  Nothing is said
    about the other chunks. *)
Definition nobody_has (i : N) : network :=
  fun pc _ dg => match pc with LChunk j (_ :: _) => j = i -> dg = Some [] | _ => True end.
(** One round of the loop: chunk [i] is requested from each of the hosts [hs]. *)
Definition ask_all (h : hash) (i : N) (hs : list hostresp) : list dgram :=
  map (fun r => request (h_addr r) (h_port r) h i) hs.
(** [requests h is rounds]: the chunks [is] in turn, the [k]-th from the [k]-th list of hosts *)
Definition requests (h : hash) (is : list N) (rounds : list (list hostresp)) : list dgram :=
  concat (zip_with (ask_all h) is rounds).
