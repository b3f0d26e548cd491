(** Model of commands and downloads on a machine whose network may be down: whether
    net.DialUDP can open a socket to an address is an argument.  DiscoverHosts
    (serverDiscoverHosts.go:34-35) and ListFilesOnHost (serverListFilesOnHost.go:25-26)
    hand a failure to check (server.go:177-181), which calls log.Fatal; DialPeer
    returns it (recvConnection.go:37-40) and downloadChunk panics
    (serverStartDownload.go:98-101).  Cli.v and Download.v describe the same functions
    when every dial succeeds. *)
From Verif Require Export Cli.

(** net.DialUDP to an address succeeds.  Sending on the socket is not checked by the code. *)
Notation routes := (list byte -> bool).
(** serverDiscoverHosts.go:29-32 *)
Definition broadcast_ip : list byte := replicate 4 xff.
(** server.go:177-181 check, after a dial *)
Definition dialled {A} (d : routes) (ip : list byte) (m : io A) : io A := if d ip then m else Die "log.Fatal".
(** serverStartDownload.go:15-47; the dial of line 25 (getGoodHosts, 152) and that of line 33
    (downloadMetaData, 85) *)
Definition start_download_on (d : routes) (ifs : option (list ifaddr)) (c : cat) (h : hash) (resps : list hostresp)
    (meta : option (list byte)) : io (cat * res (list byte)) :=
  do! (c1, extant) := contains c h in
  match local_ip ifs with
  | Ok (Some ip) =>
      match new_ipv4 ip with
      | Ok own =>
          dialled d broadcast_ip
            (match good_hosts own resps with
             | Ok [] => Ret (c1, Err "no good hosts found")
             | Ok (r :: _) =>
                 match extant with
                 | Ok _ => Ret (c1, Ok own)
                 | _ =>
                     dialled d (h_addr r)
                       (match download_meta h meta with
                        | Ok e =>
                            do! (c2, r) := register_download c1 (e_size e) (e_count e) (e_chunk e) (e_hash e) (e_name e) in
                            Ret (c2, match r with Ok _ => Ok own | Err w => Err w | Panic w => Panic w end)
                        | Err w => Ret (c1, Err w)
                        | Panic w => Die w
                        end)
                 end
             | Err w | Panic w => Die w
             end)
      | Err w => Ret (c1, Err w)
      | Panic w => Die w
      end
  | Ok None => Die "nil pointer dereference"
  | Err w | Panic w => Die w
  end.
(** cliMethodsList.go:35-76 List, cliMethodsGet.go:19-21 Get, cliMethodsChims.go:53-65
    Chims; Share and Clean, and List of the daemon's own files, dial nobody *)
Definition serve_on (d : routes) (e : cenv) (s : server) (q : rpcreq) : io served :=
  match q with
  | RqShare _ | RqClean => serve e s q
  | RqList ip h =>
      match gob_bytes ip with
      | None => serve e s q
      | Some l =>
          match to4 l with
          | None => serve e s q
          | Some addr =>
              match (let! a := sl_index addr 0 in let! b := sl_index addr 1 in
                     let! c := sl_index addr 2 in let! d := sl_index addr 3 in Ok [a; b; c; d]) with
              | Ok ip4 => dialled d ip4 (serve e s q)
              | Err w | Panic w => Die w
              end
          end
      end
  | RqGet h =>
      do! (c, r) := start_download_on d (ce_ifs e) (sv_cat s) h (ce_resps e) (ce_listing e) in
      on_call (set_cat s c) [] r (fun _ => Ret (set_cat s c, [], Ok RsGet))
  | RqChims h => dialled d broadcast_ip (serve e s q)
  end.
(** Cli.session on such a machine *)
Definition session_on (d : routes) (up : bool) (e : cenv) (s : server) (f : fs) (argv : list text)
  : fs * option server * list dgram * cend :=
  match argv with
  | [] => (f, Some s, [], Refused 0)
  | _ =>
      if up then
        match client_parse argv with
        | PRefuse code => (f, Some s, [], Refused code)
        | PDie => (f, Some s, [], Crashed)
        | PSend q =>
            match run f (serve_on d e s q) with
            | (f', Done (s', ds, Ok r)) =>
                (f', Some s', ds, match response_text r with Ok t => Shown t | _ => Crashed end)
            | (f', Done (s', ds, _)) => (f', Some s', ds, Failed)
            | (f', Died _) => (f', None, [], Failed)
            | (f', Hangs) => (f', Some s, [], Waits)
            end
        end
      else (f, Some s, [], Crashed)
  end.
(** serverStartDownload.go:49-75, one step of the loop (Download.loop_step) *)
Definition loop_step_on (d : routes) (own : list byte) (h : hash) (resps : list hostresp) (dg : option (list (list byte)))
    (pc : lpc) (c : cat) (D : active) : io (cat * active * lpc * list dgram) :=
  match pc with
  | LHosts _ => dialled d broadcast_ip (loop_step own h resps dg pc c D)
  | LChunk _ (r :: _) => loop_step own h resps (if d (h_addr r) then dg else None) pc c D
  | LCheck | LMissing | LChunk _ [] | LDone => loop_step own h resps dg pc c D
  end.
