(** Specification vocabulary for a download from any number of daemons, each of which
    has part of the file. *)
From Verif Require Export PeerSpec SwarmSpec.

(** ** A daemon that has part of a file *)
(** [M] has address [ip] and lists under [h] a file of the size of [content], in chunks
    of [cs] bytes and under the name [name].  The chunks it holds are right and those
    with [need] are among them; its own file is not longer than [content], and what it
    holds has fewer than 128 runs (C58). *)
Definition offers (M : remote) (h : hash) (content : list byte) (cs : nat) (name ip : list byte) (need : N -> Prop) : Prop :=
  exists a d addrs, rm_A M !! h = Some a /\ a_path a = d ++ slash :: name /\ slash ∉ name
    /\ a_size a = Z.of_nat (length content) /\ a_chunk a = Z.of_nat cs /\ a_count a = Z.of_nat ((length content + cs - 1) / cs)
    /\ right_so_far content cs (rm_fs M) a /\ (forall i, need i -> i ∈ a_held a) /\ size (run_starts (a_held a)) < 128
    /\ rm_fs M !! a_path a <> Some NDir /\ length (default [] (file_at (rm_fs M) (a_path a))) <= length content
    /\ length content < en_fuel (rm_env M)
    /\ en_ifs (rm_env M) = Some addrs /\ Forall if_wf addrs /\ own_address addrs ip
    /\ en_wok (rm_env M) = true
    /\ NoDup (en_order (rm_env M)) /\ (forall k, k ∈ en_order (rm_env M) <-> rm_A M !! k <> None).

(** ** The network of the downloader *)
(** the daemon behind answer [r] has a part of the file and did answer that *)
Definition responds (h : hash) (content : list byte) (cs : nat) (need : list byte -> N -> Prop) (r : hostresp) : Prop :=
  exists M name, offers M h content cs name (h_addr r) (need (h_addr r)) /\ found M (h_port r) h r.
(** The address of the downloader is [own].  At most [K] daemons answer a search for
    chunk [i], besides the downloader's own; each has a part of the file, and one that
    has chunk [i] is among them.  A daemon that is asked for a chunk does what its own
    model does; it may have changed in the meantime, but a daemon with address [ip]
    has the chunks [need ip] all the time. *)
Definition peers (own : list byte) (h : hash) (content : list byte) (cs K : nat) (need : list byte -> N -> Prop) : network :=
  fun pc resps dg =>
    match pc with
    | LHosts i => exists rs, selected (fun x => h_addr x <> own) resps rs /\ length rs <= K
        /\ Forall (responds h content cs need) rs /\ someone_has need i rs
    | LChunk i (r :: _) => exists M name ds, offers M h content cs name (h_addr r) (need (h_addr r))
        /\ fetched M (h_port r) h i ds /\ dg = Some ds
    | _ => True
    end.
(** the daemon behind answer [r] has an upload to spare *)
Definition spare (h : hash) (content : list byte) (cs : nat) (need : list byte -> N -> Prop) (r : hostresp) : Prop :=
  exists M name s ra ip, offers M h content cs name (h_addr r) (need (h_addr r)) /\ is_up M s (h_port r)
    /\ from_ipv4 ra ip /\ sv_uploads s !! (ip, u16_of_int (ua_port ra)) = None.
