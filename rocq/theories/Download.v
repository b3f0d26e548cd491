(** Model of downloads: flu/serverStartDownload.go and the dialling side of
    flu/recvConnection.go.  What peers answer is an argument of each function.
    Between two of the loop's catalogue calls other goroutines may run, so the loop
    is a sequence of steps ([loop_step]), each with at most one catalogue call.
    Printing and timing are left out.  A failing broadcast or dial of DiscoverHosts
    and ListFilesOnHost (log.Fatal) is added in Dial.v. *)
From Verif Require Export Server.

(** ** Starting *)
(** serverStartDownload.go:80-95 downloadMetaData; [d] is the datagram that answers
    the listing request *)
Definition download_meta (h : hash) (d : option (list byte)) : res lfentry :=
  match listing_received d with
  | Ok [e] => if decide (e_hash e = h) then Ok e else Err "told us nothing"
  | Ok _ => Err "told us nothing"
  | Err _ => Err "failed to fetch file metadata"
  | Panic w => Panic w
  end.
(** serverStartDownload.go:15-47, the part of StartDownload before the goroutine;
    [resps]: what DiscoverHosts returns; the result is the address [own] that the
    goroutine goes on to use *)
Definition start_download (ifs : option (list ifaddr)) (c : cat) (h : hash) (resps : list hostresp)
    (meta : option (list byte)) : io (cat * res (list byte)) :=
  do! (c1, extant) := contains c h in
  match local_ip ifs with
  | Ok (Some ip) =>
      match new_ipv4 ip with
      | Ok own =>
          match good_hosts own resps with
          | Ok [] => Ret (c1, Err "no good hosts found")
          | Ok (_ :: _) =>
              match extant with
              | Ok _ => Ret (c1, Ok own)
              | _ =>
                  match download_meta h meta with
                  | Ok e =>
                      do! (c2, r) := register_download c1 (e_size e) (e_count e) (e_chunk e) (e_hash e) (e_name e) in
                      Ret (c2, match r with Ok _ => Ok own | Err w => Err w | Panic w => Panic w end)
                  | Err w => Ret (c1, Err w)
                  | Panic w => Die w
                  end
              end
          | Err w | Panic w => Die w
          end
      | Err w => Ret (c1, Err w)
      | Panic w => Die w
      end
  | Ok None => Die "nil pointer dereference"
  | Err w | Panic w => Die w
  end.

(** ** One chunk *)
(** recvConnection.go:51: the datagram DialPeer sends *)
Definition open_request (h : hash) (chunk : N) : list byte := serialize (OpenReq h chunk 1024).
(** recvConnection.go:36-71 and serverStartDownload.go:103-142: all datagrams that
    arrive on the connection, until the read times out *)
Definition recv_datagrams (ds : list (list byte)) : res rstep :=
  let! ps := parse_all ds in recv_all new_recv ps.
(** serverStartDownload.go:97-145 downloadChunk; [None]: DialUDP fails.  A hash
    mismatch is only printed.  A read that times out ends the call (108). *)
Definition download_chunk (c : cat) (h : hash) (chunk : N) (dg : option (list (list byte))) : io cat :=
  match dg with
  | None => Die "dial"
  | Some ds =>
      match recv_datagrams ds with
      | Ok (RSave buf _) =>
          do! (c1, r) := save_chunk c h chunk buf in
          match r with Ok _ => Ret c1 | Err w | Panic w => Die w end
      | Ok (RMore _) => Ret c
      | Err w | Panic w => Die w
      end
  end.

(** ** The loop *)
(** where the goroutine of StartDownload (49-75) is *)
Inductive lpc :=
| LCheck                                      (* line 50 *)
| LMissing                                    (* lines 53-56 *)
| LHosts (start : N)                          (* line 57, with c.Start *)
| LChunk (start : N) (hosts : list hostresp)  (* lines 60-72, the hosts left *)
| LDone.                                      (* line 74 *)
(** the keys of s.downloads (server.go:39, 50-53) *)
Notation active := (gset (list byte * list byte)).
(** one step: [resps] is what DiscoverHosts returns (line 57), [dg] what arrives from
    the host (line 69); the last component is what is sent to hosts.  Lines 65-71 are
    one step: transferLock is held throughout, and other goroutines that use the
    catalogue meanwhile can as well act before the step, since SaveChunk is the only
    catalogue call in it. *)
Definition loop_step (own : list byte) (h : hash) (resps : list hostresp) (dg : option (list (list byte)))
    (pc : lpc) (c : cat) (D : active) : io (cat * active * lpc * list dgram) :=
  match pc with
  | LCheck => do! (c1, b) := file_complete c h in Ret (c1, D, if b then LDone else LMissing, [])
  | LMissing =>
      do! (c1, rs) := missing_chunks c h 1 in
      match rs with
      | [] => Die "index out of range"
      | r :: _ => Ret (c1, D, LHosts (r_start r), [])
      end
  | LHosts start =>
      match good_hosts own resps with
      | Ok hs => Ret (c, D, LChunk start hs, [])
      | Err w | Panic w => Die w
      end
  | LChunk start [] => Ret (c, D, LCheck, [])
  | LChunk start (r :: hs) =>
      let key := (h, h_addr r) in
      if decide (key ∈ D) then Ret (c, D, LChunk start hs, [])
      else
        do! c1 := download_chunk c h start dg in
        Ret (c1, ({[key]} ∪ D) ∖ {[key]}, LChunk start hs,
             [mkDgram (h_addr r) (Z.of_N (h_port r)) (open_request h start)])
  | LDone => Ret (c, D, LDone, [])
  end.
