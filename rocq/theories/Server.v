(** Model of the daemon's message handling: flu/server.go, ipv4.go,
    serverDiscoverHosts.go (RespondToDiscoverHosts), serverListFilesOnHost.go,
    serverStartUpload.go and serverContinueUpload.go, as programs over the file
    system.  Discover.v models the waiting side of DiscoverHosts, Download.v the
    rest of serverStartDownload.go. *)
From Verif Require Export Catalogue Messages Transfer.

(** ** net.IP *)
(** net.IP.To4 of the Go 1.17 library *)
Definition to4 (ip : slice) : option slice :=
  if decide (slen ip = 4) then Some ip
  else if decide (slen ip = 16 /\ take 12 (arr ip) = replicate 10 x00 ++ [xff; xff])
       then Some (mkSlice (drop 12 (arr ip)) 4)
  else None.
(** net.IP.IsLoopback of the Go 1.17 library: 127.x.x.x or ::1 *)
Definition is_loopback (ip : slice) : bool :=
  match to4 ip with
  | Some ip4 => match arr ip4 !! 0 with Some b => bool_decide (b = Nb 127) | None => false end
  | None => bool_decide (slice_bytes ip = replicate 15 x00 ++ [x01])
  end.
(** an element of net.InterfaceAddrs(): a *net.IPNet or some other net.Addr *)
Inductive ifaddr := IfNet (ip : slice) | IfOther.
(** server.go:165-174, the loop of LocalIP *)
Fixpoint first_ipv4 (addrs : list ifaddr) : option slice :=
  match addrs with
  | [] => None
  | IfOther :: rest => first_ipv4 rest
  | IfNet ip :: rest =>
      if is_loopback ip then first_ipv4 rest
      else match to4 ip with Some r => Some r | None => first_ipv4 rest end
  end.
(** server.go:159-175 LocalIP; [None]: net.InterfaceAddrs fails *)
Definition local_ip (ifs : option (list ifaddr)) : res (option slice) :=
  match ifs with
  | None => Panic "InterfaceAddrs"
  | Some addrs => Ok (first_ipv4 addrs)
  end.
(** ipv4.go:10-27 newIpv4; it looks at the capacity, not at the length *)
Definition new_ipv4 (ip : slice) : res (list byte) :=
  match to4 ip with
  | None => Err "provided IP address is not an IPV4 address"
  | Some _ =>
      if decide (length (arr ip) = 4) then sl_range ip 0 4
      else if decide (length (arr ip) = 16) then sl_range ip 12 16
      else Panic "unknown net.IP"
  end.

(** ** Server *)
(** net.UDPAddr *)
Record udp_addr := mkAddr { ua_ip : slice; ua_port : Z }.
(** server.go:21-41 Server and 60-73 NewServer, without the locks and the response
    map (Discover.v) and the downloads (Download.v).  An upload key is the four
    address bytes and the port (55-58). *)
Notation ukey := (list byte * N)%type.
Record server := mkServer {
  sv_port : Z; sv_cat : cat; sv_reqid : Z; sv_uploads : gmap (list byte * N) sender }.
Definition new_server (port : Z) (c : cat) : server := mkServer port c 0 ∅.
Definition set_cat (s : server) (c : cat) : server := mkServer (sv_port s) c (sv_reqid s) (sv_uploads s).
Definition set_upload (s : server) (k : ukey) (u : sender) : server :=
  mkServer (sv_port s) (sv_cat s) (sv_reqid s) (<[k := u]> (sv_uploads s)).
(** server.go:14 and 75-81 generateRequestID *)
Definition generate_request_id (s : server) : N * server :=
  (u16_of_int (sv_reqid s),
   mkServer (sv_port s) (sv_cat s) (Z.rem (sv_reqid s + 1) 65536) (sv_uploads s)).

(** what the surroundings answer while one datagram is handled: the interface
    addresses, whether the datagram that is sent leaves without an error, the order
    in which Go iterates over the index, and the bound on the hashing loop *)
Record env := mkEnv {
  en_ifs : option (list ifaddr); en_wok : bool; en_order : list hash; en_fuel : nat }.
(** a datagram sent: address, port, payload *)
Record dgram := mkDgram { dg_ip : list byte; dg_port : Z; dg_data : list byte }.
(** how a handler ends: it returns (with or without an error), or it is about to
    call deliverResponse with this request ID and message (Discover.v) *)
Inductive hend := HRet (r : res unit) | HDeliver (reqid : N) (m : message).
Notation hres := (server * list dgram * hend)%type.

(** server.go:111-122 sendToPeer, serverListFilesOnHost.go:105-106: nothing is sent
    when there is an error *)
Definition send (e : env) (s : server) (d : dgram) : hres :=
  if en_wok e then (s, [d], HRet (Ok tt)) else (s, [], HRet (Err "send")).
(** go on with a result, ending the process on a panic and the handler on an error *)
Definition on_ret {A} (s : server) (r : res A) (k : A -> io hres) : io hres :=
  match r with Ok a => k a | Err w => Ret (s, [], HRet (Err w)) | Panic w => Die w end.

(** serverDiscoverHosts.go:57-80 RespondToDiscoverHosts *)
Definition respond_discover (e : env) (s : server) (reqid : N) (h : hash) (chunks : list N) (ra : udp_addr)
  : io hres :=
  match local_ip (en_ifs e) with
  | Ok (Some ip) =>
      match (let! a := sl_index ip 0 in let! b := sl_index ip 1 in
             let! c := sl_index ip 2 in let! d := sl_index ip 3 in Ok [a; b; c; d]) with
      | Ok addr =>
          let answer s cs :=
            Ret (send e s (mkDgram (slice_bytes (ua_ip ra)) (sv_port s)
                             (serialize (DiscResp addr (u16_of_int (sv_port s)) reqid cs)))) in
          if is_blank h then answer s []
          else
            do! (c, g) := contains (sv_cat s) h in
            let s := set_cat s c in
            match g with
            | Ok x =>
                on_ret s (if decide (0 < length chunks) then boverlap (x_bits x) chunks else branges (x_bits x))
                  (fun cs => answer s cs)
            | _ => answer s []
            end
      | Err w | Panic w => Die w
      end
  | Ok None => Die "nil pointer dereference"
  | Err w | Panic w => Die w
  end.

(** serverListFilesOnHost.go:92-103, one entry; path.Split returns what follows
    the last slash *)
Definition list_entry (x : export) : lfentry :=
  Messages.mkEntry (u64_of_int (x_size x)) (u32_of_int (bsize_of (x_bits x))) (u32_of_int (x_chunk x))
    (u32_of_int (bcount (x_bits x))) (from_slice zero_hash (hash_slice (x_hash x))) (base_name (x_path x)).
(** serverListFilesOnHost.go:67-107 RespondToListFilesOnHost; log.Fatal ends the
    process *)
Definition respond_list (e : env) (s : server) (reqid : N) (h : hash) (ra : udp_addr) : io hres :=
  let answer s xs :=
    Ret (send e s (mkDgram (slice_bytes (ua_ip ra)) (ua_port ra) (serialize (ListResp reqid (map list_entry xs))))) in
  if is_blank h then
    do! (c, g) := list_files (sv_cat s) (en_order e) in
    match g with Ok xs => answer (set_cat s c) xs | Err w | Panic w => Die w end
  else
    do! (c, g) := contains (sv_cat s) h in
    match g with Ok x => answer (set_cat s c) [x] | Err w | Panic w => Die w end.

(** serverStartUpload.go:11-47 StartUpload.  The packet that kickstart sends goes to
    the address of the upload, which has the same key. *)
Definition start_upload (e : env) (s : server) (h : hash) (chunk cap : N) (ra : udp_addr) : io hres :=
  do! (c1, g) := contains (sv_cat s) h in
  let s := set_cat s c1 in
  on_ret s g (fun x =>
    do! (c2, g) := get_chunk_reader (en_fuel e) (sv_cat s) (x_hash x) (Z.of_N chunk) in
    let s := set_cat s c2 in
    on_ret s g (fun frd =>
      let '(f, rd) := frd in
      if (4294967295 <? cr_size rd)%Z then Ret (s, [], HRet (Err "chunk size exceeds max 32-bit int"))
      else
        on_ret s (new_ipv4 (ua_ip ra)) (fun ip =>
          let key := (ip, u16_of_int (ua_port ra)) in
          let u := match sv_uploads s !! key with Some u => u | None => new_sender f rd cap end in
          let s := set_upload s key u in
          let '(u', r) := kickstart (cr_hash rd) (cr_size rd) u (en_wok e) in
          let s := set_upload s key u' in
          on_ret s r (fun p =>
            Ret (s, [mkDgram (slice_bytes (ua_ip ra)) (ua_port ra) (serialize (Data p.1 p.2))], HRet (Ok tt)))))).

(** serverContinueUpload.go:10-32 ContinueUpload; the acknowledgement waits to be
    taken by a worker of the upload (see [sender]) *)
Definition continue_upload (s : server) (ra : udp_addr) : io hres :=
  on_ret s (new_ipv4 (ua_ip ra)) (fun ip =>
    let key := (ip, u16_of_int (ua_port ra)) in
    match sv_uploads s !! key with
    | None => Ret (s, [], HRet (Err "no upload corresponds to"))
    | Some u => Ret (set_upload s key (set_acks u (S (sd_acks u))), [], HRet (Ok tt))
    end).

(** server.go:131-155 HandleMessage on the buffer of main.go:91-95, which is the
    datagram at the start of 1024 bytes ([udp_buffer]) *)
Definition handle_message (e : env) (s : server) (buffer : list byte) (ra : udp_addr) : io hres :=
  match parse buffer with
  | Err w => Ret (s, [], HRet (Err w))
  | Panic w => Die w
  | Ok m =>
      match m with
      | DiscReq reqid h chunks => respond_discover e s reqid h chunks ra
      | ListReq reqid h => respond_list e s reqid h ra
      | OpenReq h chunk cap => start_upload e s h chunk cap ra
      | Ack _ => continue_upload s ra
      | DiscResp _ _ reqid _ => Ret (s, [], HDeliver reqid m)
      | ListResp reqid _ => Ret (s, [], HDeliver reqid m)
      | Data _ _ => Die "Rohan messed up!"
      end
  end.

(** ** The requesting side of a listing *)
(** serverListFilesOnHost.go:52-61: what ListFilesOnHost makes of the datagram it
    receives ([None] at line 62: the read fails or times out) *)
Definition listing_received (d : option (list byte)) : res (list lfentry) :=
  match d with
  | None => Err "timeout"
  | Some d =>
      let! m := parse (udp_buffer 1024 d) in
      match m with ListResp _ files => Ok files | _ => Err "wrong response type" end
  end.

(** ** Choosing hosts *)
(** messages.DiscoverHostResponse as collected by DiscoverHosts *)
Record hostresp := mkResp { h_addr : list byte; h_port : N; h_reqid : N; h_chunks : list N }.
(** serverStartDownload.go:147-161 getGoodHosts, from what DiscoverHosts returns;
    its argument chunks is not used *)
Fixpoint good_hosts_loop (own : list byte) (n i : nat) (resps : list hostresp) (result : list hostresp)
  : res (list hostresp) :=
  match n with
  | O => Ok result
  | S n' =>
      match resps !! i with
      | None => Panic "index out of range"
      | Some r =>
          good_hosts_loop own n' (S i) resps
            (if decide (0 < length (h_chunks r) /\ h_addr r <> own) then result ++ [r] else result)
      end
  end.
Definition good_hosts (own : list byte) (resps : list hostresp) : res (list hostresp) :=
  good_hosts_loop own (length resps) 0 resps [].
