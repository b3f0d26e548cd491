(** Specification vocabulary for two daemons: one downloads a file from the other. *)
From Verif Require Export DownloadSpec.

(** ** One chunk between two daemons *)
(** the remote daemon, the datagrams on their way down (to the downloader) and up,
    and the downloader's connection *)
Record link := mkLink { k_srv : server; k_down : list (list byte); k_up : list (list byte); k_recv : rstate }.
(** The channels deliver in order and lose nothing.  [e], [f]: surroundings and files
    of the remote daemon; [ra]: the address its packets come from and go to; [key]:
    the same as a key of its uploads. *)
Inductive kstep (e : env) (f : fs) (ra : udp_addr) (key : ukey) : link -> link -> Prop :=
(** a worker of the upload acts (senderConnection.go:70-87) *)
| kk_work s u v u' ps d up r : sv_uploads s !! key = Some u -> v = SKick None \/ v = SCancel -> sstep u v = SGo u' ps ->
    kstep e f ra key (mkLink s d up r) (mkLink (set_upload s key u') (d ++ map wire ps) up r)
(** the remote daemon handles the next datagram (main.go:88-102) *)
| kk_msg s m d up r s' ds x : run f (handle_message e s (udp_buffer 1024 m) ra) = (f, Done (s', ds, x)) ->
    kstep e f ra key (mkLink s d (m :: up) r) (mkLink s' (d ++ map dg_data ds) up r)
(** the downloader takes the next packet (recvConnection.go:54-68,
    serverStartDownload.go:105-142); it acknowledges or saves it, or crashes *)
| kk_more s m p d up r r' : parse_data (udp_clipped 1029 m) = Ok p -> recv_packet r p = Ok (RMore r') ->
    kstep e f ra key (mkLink s (m :: d) up (RRun r)) (mkLink s d (up ++ [serialize (Ack p.1)]) (RRun r'))
| kk_save s m p d up r buf ok : parse_data (udp_clipped 1029 m) = Ok p -> recv_packet r p = Ok (RSave buf ok) ->
    kstep e f ra key (mkLink s (m :: d) up (RRun r)) (mkLink s d up (RDone buf ok))
| kk_crash s m d up r w : (let! p := parse_data (udp_clipped 1029 m) in recv_packet r p) = Panic w ->
    kstep e f ra key (mkLink s (m :: d) up (RRun r)) (mkLink s d up RCrash).
(** executions, with the datagrams that the downloader takes; in between the remote
    daemon may do anything that leaves this upload, its catalogue and its files alone *)
Inductive ktrace (cwd dir dl : path) (A : astate) (e : env) (f : fs) (ra : udp_addr) (key : ukey)
  : link -> list (list byte) -> link -> Prop :=
| kt_nil a : ktrace cwd dir dl A e f ra key a [] a
| kt_take a a' m ms b : kstep e f ra key a a' -> k_down a = m :: k_down a' ->
    ktrace cwd dir dl A e f ra key a' ms b -> ktrace cwd dir dl A e f ra key a (m :: ms) b
| kt_other a a' more ms b : kstep e f ra key a a' -> k_down a' = k_down a ++ more ->
    ktrace cwd dir dl A e f ra key a' ms b -> ktrace cwd dir dl A e f ra key a ms b
| kt_elsewhere s s' d up r ms b : srv_reached cwd dir dl A s' f -> sv_uploads s' !! key = sv_uploads s !! key ->
    ktrace cwd dir dl A e f ra key (mkLink s' d up r) ms b -> ktrace cwd dir dl A e f ra key (mkLink s d up r) ms b.

(** ** A daemon that shares a file *)
Record remote := mkRemote { rm_cwd : path; rm_dir : path; rm_dl : path; rm_A : astate; rm_fs : fs; rm_env : env }.
(** its catalogue has all of [content] under [h], in chunks of [cs] bytes and under the
    name [name]; it has address [ip] *)
Definition shares (M : remote) (h : hash) (content : list byte) (cs : nat) (name ip : list byte) : Prop :=
  exists d addrs, let p := d ++ slash :: name in
    rm_A M !! h = Some (full_entry p (Z.of_nat (length content)) (Z.of_nat cs))
    /\ slash ∉ name /\ file_at (rm_fs M) p = Some content /\ length content < en_fuel (rm_env M)
    /\ en_ifs (rm_env M) = Some addrs /\ Forall if_wf addrs /\ own_address addrs ip
    /\ en_wok (rm_env M) = true
    /\ NoDup (en_order (rm_env M)) /\ (forall k, k ∈ en_order (rm_env M) <-> rm_A M !! k <> None).
(** [M] is in state [s] and its port is [port] *)
Definition is_up (M : remote) (s : server) (port : N) : Prop :=
  srv_reached (rm_cwd M) (rm_dir M) (rm_dl M) (rm_A M) s (rm_fs M) /\ sv_port s = Z.of_N port.
(** daemon [M] in state [s] answers datagram [m] from [ra] with the one datagram [data] *)
Definition replies (M : remote) (s : server) (m : list byte) (ra : udp_addr) (data : list byte) : Prop :=
  exists s' ip port, run (rm_fs M) (handle_message (rm_env M) s (udp_buffer 1024 m) ra) =
    (rm_fs M, Done (s', [mkDgram ip port data], HRet (Ok tt))).
(** a search for [h], and how the answer [data] is understood *)
Definition found (M : remote) (port : N) (h : hash) (r : hostresp) : Prop :=
  exists s ra data, is_up M s port /\ u16 (h_reqid r) /\ replies M s (serialize (DiscReq (h_reqid r) h [])) ra data
    /\ parse (udp_buffer 1024 data) = Ok (DiscResp (h_addr r) (h_port r) (h_reqid r) (h_chunks r)).
(** a request for chunk [i] of [h] from an address that has no upload there yet, and
    the datagrams [ds] that arrive *)
Definition fetched (M : remote) (port : N) (h : hash) (i : N) (ds : list (list byte)) : Prop :=
  exists s ra ip b, let key := (ip, u16_of_int (ua_port ra)) in
    is_up M s port /\ from_ipv4 ra ip /\ sv_uploads s !! key = None
    /\ ktrace (rm_cwd M) (rm_dir M) (rm_dl M) (rm_A M) (rm_env M) (rm_fs M) ra key
         (mkLink s [] [serialize (OpenReq h i 1024)] (RRun new_recv)) ds b
    /\ (forall c, ~ kstep (rm_env M) (rm_fs M) ra key b c).
(** The network of the downloader, whose address is [own]: one other daemon answers,
    and at each point it is in any state in which it shares the file. *)
Definition one_peer (own : list byte) (h : hash) (content : list byte) (cs : nat) (name host : list byte) (port : N) : network :=
  fun pc resps dg =>
    match pc with
    | LHosts _ => exists M r, shares M h content cs name host /\ found M port h r /\ selected (fun x => h_addr x <> own) resps [r]
    | LChunk i (_ :: _) => exists M ds, shares M h content cs name host /\ fetched M port h i ds /\ dg = Some ds
    | _ => True
    end.
(** the answer to a request for the description of [h] *)
Definition described (M : remote) (port : N) (h : hash) (data : list byte) : Prop :=
  exists s ra reqid, is_up M s port /\ u16 reqid /\ replies M s (serialize (ListReq reqid h)) ra data.
