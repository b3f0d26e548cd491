(** Properties of the daemon's message handling (C53-C62, C66, C71). *)
From Verif Require Import ServerProofs7.

(** *** C53: a request from an address that has no upload yet is answered with the
    header packet of the requested chunk, and starts an upload of that chunk *)
Theorem C53_first_request_partial :
  forall cwd dir dl A s f e buffer h a l i cap ra ip,
    let cs := Z.to_nat (a_chunk a) in let B := chunk_bytes l cs (N.to_nat i) in let key := (ip, u16_of_int (ua_port ra)) in
    srv_reached cwd dir dl A s f ->
    parse buffer = Ok (OpenReq h i cap) -> A !! h = Some a -> i ∈ a_held a ->
    file_at f (a_path a) = Some l -> length l < en_fuel e -> from_ipv4 ra ip -> en_wok e = true ->
    sv_uploads s !! key = None ->
    exists s' u, run f (handle_message e s buffer ra) =
        (f, Done (s', [mkDgram (slice_bytes (ua_ip ra)) (ua_port ra) (wire (stream (sha1 B) B 0))], HRet (Ok tt)))
      /\ sv_uploads s' = <[key := u]> (sv_uploads s)
      /\ uploads l cs (N.to_nat i) cap u [stream (sha1 B) B 0].
Proof. exact C53_first_lemma. Qed.
Print Assumptions C53_first_request_partial.
(** every later request from that address gets the bytes of the chunk [i0] that the
    upload was made for, under the hash and size of the chunk requested now *)
Theorem C53_later_requests :
  forall cwd dir dl A s f e buffer h a l i cap ra ip u l0 cs0 i0,
    let cs := Z.to_nat (a_chunk a) in let B := chunk_bytes l cs (N.to_nat i) in let key := (ip, u16_of_int (ua_port ra)) in
    srv_reached cwd dir dl A s f ->
    parse buffer = Ok (OpenReq h i cap) -> A !! h = Some a -> i ∈ a_held a ->
    file_at f (a_path a) = Some l -> length l < en_fuel e -> from_ipv4 ra ip -> en_wok e = true ->
    sv_uploads s !! key = Some u -> (Z.of_nat cs0 < 4294967296)%Z -> (Z.of_nat i0 < 65536)%Z -> carries l0 cs0 i0 u ->
    exists s' u', run f (handle_message e s buffer ra) =
        (f, Done (s', [mkDgram (slice_bytes (ua_ip ra)) (ua_port ra)
                        (wire (0%N, sha1 B ++ be 4 (N.of_nat (length B)) ++ take 1000 (chunk_bytes l0 cs0 i0)))], HRet (Ok tt)))
      /\ sv_uploads s' = <[key := u']> (sv_uploads s) /\ carries l0 cs0 i0 u'.
Proof. exact C53_again_lemma. Qed.
Print Assumptions C53_later_requests.
(** every upload that exists was made for some chunk, so these are all the cases *)
Theorem C53_every_upload_carries_a_chunk :
  forall cwd dir dl A s f k u, srv_reached cwd dir dl A s f -> sv_uploads s !! k = Some u ->
    exists l cs i, (Z.of_nat cs < 4294967296)%Z /\ (Z.of_nat i < 65536)%Z /\ carries l cs i u.
Proof. exact C53_carried_lemma. Qed.
Print Assumptions C53_every_upload_carries_a_chunk.
(** a chunk that is not held, or whose file is gone, is not served *)
Theorem C53_refused :
  forall cwd dir dl A s f e buffer h i cap ra, srv_reached cwd dir dl A s f -> parse buffer = Ok (OpenReq h i cap) ->
    readable A f (en_fuel e) ->
    (forall a, A !! h = Some a -> i ∈ a_held a -> file_at f (a_path a) = None) ->
    exists s' w, run f (handle_message e s buffer ra) = (f, Done (s', [], HRet (Err w))) /\ sv_uploads s' = sv_uploads s.
Proof. exact C53_refused_lemma. Qed.
Print Assumptions C53_refused.

Example C53_case :
  match ex_handle ex_srv (OpenReq habc 0 3) with
  | Some (s1, ds1) =>
      bool_decide (map dg_data ds1 = [serialize (Data 0 (sha1 (bs "abc") ++ [x00; x00; x00; x03] ++ bs "abc"))])
      && bool_decide (ex_sent s1 (OpenReq hnew 1 3) = Some [serialize (Data 0 (sha1 (bs "de") ++ [x00; x00; x00; x02] ++ bs "abc"))])
      && bool_decide (ex_sent s1 (OpenReq hnew 0 3) = Some [])
  | None => false
  end = true.
Proof. vm_compute. reflexivity. Qed.
(** so the property fails, whenever the two chunks start differently *)
Theorem C53_second_request_refuted :
  forall cwd dir dl A s f e buf1 buf2 ra ip h1 a1 l1 i1 h2 a2 l2 i2 cap1 cap2,
    let B1 := chunk_bytes l1 (Z.to_nat (a_chunk a1)) (N.to_nat i1) in
    let B2 := chunk_bytes l2 (Z.to_nat (a_chunk a2)) (N.to_nat i2) in
    srv_reached cwd dir dl A s f -> NoDup (en_order e) -> (forall h, h ∈ en_order e <-> A !! h <> None) ->
    parse buf1 = Ok (OpenReq h1 i1 cap1) -> A !! h1 = Some a1 -> i1 ∈ a_held a1 -> file_at f (a_path a1) = Some l1 -> length l1 < en_fuel e ->
    parse buf2 = Ok (OpenReq h2 i2 cap2) -> A !! h2 = Some a2 -> i2 ∈ a_held a2 -> file_at f (a_path a2) = Some l2 -> length l2 < en_fuel e ->
    from_ipv4 ra ip -> en_wok e = true -> sv_uploads s !! (ip, u16_of_int (ua_port ra)) = None ->
    take 1000 B1 <> take 1000 B2 ->
    exists s1 s2 d1 d2,
      run f (handle_message e s buf1 ra) = (f, Done (s1, [d1], HRet (Ok tt)))
      /\ run f (handle_message e s1 buf2 ra) = (f, Done (s2, [d2], HRet (Ok tt)))
      /\ dg_data d2 <> wire (stream (sha1 B2) B2 0).
Proof. exact C53_refuted_lemma. Qed.
Print Assumptions C53_second_request_refuted.

(** *** C54: request IDs fit in 16 bits, and two of them are the same only if
    65536 lie between them *)
Theorem C54_request_ids :
  forall cwd dir dl A s f n, srv_reached cwd dir dl A s f ->
    length (request_ids n s) = n /\ Forall u16 (request_ids n s)
    /\ (forall i j a b, request_ids n s !! i = Some a -> request_ids n s !! j = Some b -> (i < j)%nat -> (Z.of_nat (j - i) < 65536)%Z -> a <> b)
    /\ (forall i j a b, request_ids n s !! i = Some a -> request_ids n s !! j = Some b -> (Z.of_nat j = Z.of_nat i + 65536)%Z -> a = b).
Proof. exact C54_lemma. Qed.
Print Assumptions C54_request_ids.
(** no message from outside changes what comes next *)
Theorem C54_messages_do_not_interfere :
  forall cwd dir dl A s f e buffer ra f' s' ds r, srv_reached cwd dir dl A s f ->
    NoDup (en_order e) -> (forall h, h ∈ en_order e <-> A !! h <> None) ->
    run f (handle_message e s buffer ra) = (f', Done (s', ds, r)) -> forall n, request_ids n s' = request_ids n s.
Proof. exact C54_others_lemma. Qed.
Print Assumptions C54_messages_do_not_interfere.
Example C54_case : request_ids 3 ex_srv = [0; 1; 2]%N
  /\ request_ids 3 (mkServer 61696 ex_c0 65534 ∅) = [65534; 65535; 0]%N.
Proof. split; reflexivity. Qed.

(** *** C55: what is put into the channel of a call of DiscoverHosts is a discovery
    response with the request ID of that call; a response is put into one channel
    only, once, if it is delivered, and into none if it is rejected; the type
    assertion does not fail *)
Theorem C55_responses_reach_the_matching_call :
  forall D, d_reached D ->
    (forall i m w, handed D i m w -> exists r, wt_reqid <$> d_ws D !! w = Some r /\ answers m r) /\
    (forall i m m' w w', handed D i m w -> handed D i m' w' -> m = m' /\ w = w') /\
    (forall w x, d_ws D !! w = Some x -> NoDup (map fst (match wt_chan x with Some p => [p] | None => [] end ++ wt_got x))) /\
    (forall i, (exists m w, handed D i m w) <-> dpc_of D i = Some (DDone true)) /\
    (forall w, pc_of D w <> Some WCrash).
Proof. exact C55_lemma. Qed.
Print Assumptions C55_responses_reach_the_matching_call.
(** a response is rejected, and changes nothing, only if no call with its request ID
    is registered (if request IDs have not been used twice) *)
Theorem C55_routing :
  forall D D' i d, d_reached D -> dstep D D' -> d_ds D !! i = Some d -> dl_pc d = DStart ->
    (forall w, dpc_of D' i = Some (DSend w) -> answers (dl_msg d) (dl_reqid d) /\ waiting D w (dl_reqid d)) /\
    (dpc_of D' i = Some (DDone false) ->
       unchanged D D' /\ (distinct_ids D -> answers (dl_msg d) (dl_reqid d) -> forall w, ~ waiting D w (dl_reqid d))) /\
    dpc_of D' i <> Some (DDone true).
Proof. exact C55_routing_lemma. Qed.
Print Assumptions C55_routing.
(** one call, two responses to it: one is collected, the other is in the channel *)
Example C55_case : exists D, d_reached D /\ (exists m, handed D 1 m 0 /\ answers m 7) /\ (exists m, handed D 2 m 0 /\ answers m 7)
  /\ pc_of D 0 = Some WWait.
Proof. exact C55_case_lemma. Qed.

(** *** C56: a call that has timed out can return unless the state is jammed *)
Theorem C56_returns_unless_jammed :
  forall D w, d_reached D -> pc_of D w = Some WUnreg ->
    (exists D', rtc dstep D D' /\ pc_of D' w = Some WDone) <-> ~ jammed D.
Proof. exact C56_exact_lemma. Qed.
Print Assumptions C56_returns_unless_jammed.
(** and a jam lasts for ever: no call returns, no call even starts to wait, no
    response is delivered or rejected *)
Theorem C56_a_jam_is_permanent :
  forall D D', d_reached D -> jammed D -> rtc dstep D D' ->
    jammed D' /\ (forall w, pc_of D' w = Some WDone -> pc_of D w = Some WDone) /\
    (forall i b, dpc_of D' i = Some (DDone b) -> dpc_of D i = Some (DDone b)) /\
    (forall w, pc_of D' w = Some WWait -> pc_of D w = Some WWait).
Proof. exact C56_forever_lemma. Qed.
Print Assumptions C56_a_jam_is_permanent.
(** two responses to one request are enough *)
Theorem C56_jam_refuted :
  exists D, d_reached D /\ jammed D /\ pc_of D 0 = Some WUnreg /\ (forall r, responses D r <= 2)
    /\ forall D', rtc dstep D D' -> pc_of D' 0 <> Some WDone.
Proof. exact C56_refuted_lemma. Qed.
Print Assumptions C56_jam_refuted.
(** with at most one response per request the lock is always released by the next
    step of its holder, and every call that has timed out can return *)
Theorem C56_single_responses_partial :
  forall D, d_reached D -> (forall r, responses D r <= 1) ->
    (forall i, d_lock D = Some i -> exists D', dstep D D' /\ d_lock D' = None /\ dpc_of D' i = Some (DDone true)) /\
    (forall w, pc_of D w = Some WUnreg -> exists D', rtc dstep D D' /\ pc_of D' w = Some WDone).
Proof. exact C56_partial_lemma. Qed.
Print Assumptions C56_single_responses_partial.
Example C56_case : exists D, d_reached D /\ (forall r, responses D r <= 1) /\ pc_of D 0 = Some WUnreg
  /\ exists i, d_lock D = Some i.
Proof. exact C56_case_lemma. Qed.

(** *** C57: the reply to a discovery request, exactly; it is truthful if ranges are
    asked for, or if no chunk beyond the 65536th is held *)
Theorem C57_replies_are_truthful_partial :
  forall cwd dir dl A s f e ra buffer reqid h qs addrs ip,
    srv_reached cwd dir dl A s f -> en_ifs e = Some addrs -> Forall if_wf addrs -> own_address addrs ip ->
    en_wok e = true -> parse buffer = Ok (DiscReq reqid h (flatten qs)) ->
    exists s' cs, run f (handle_message e s buffer ra) =
        (f, Done (s', [mkDgram (slice_bytes (ua_ip ra)) (sv_port s)
                        (serialize (DiscResp ip (u16_of_int (sv_port s)) reqid cs))], HRet (Ok tt)))
      /\ reported A h qs cs
      /\ (qs <> [] \/ (forall a x, A !! h = Some a -> x ∈ a_held a -> (x < 65536)%N) -> truthful A h qs cs).
Proof. exact C57_srv_lemma. Qed.
Print Assumptions C57_replies_are_truthful_partial.
(** a complete file of more than 65536 chunks (more than 256 GB): the reply names
    chunks 0 to n-1 mod 65536 only *)
Theorem C57_huge_refuted :
  forall cwd dir dl A s f e ra buffer reqid h a addrs ip,
    srv_reached cwd dir dl A s f -> en_ifs e = Some addrs -> Forall if_wf addrs -> own_address addrs ip ->
    en_wok e = true -> parse buffer = Ok (DiscReq reqid h []) ->
    A !! h = Some a -> h <> blank -> a_held a = all_below (a_count a) -> (65536 < a_count a)%Z ->
    exists s', run f (handle_message e s buffer ra) =
        (f, Done (s', [mkDgram (slice_bytes (ua_ip ra)) (sv_port s)
                        (serialize (DiscResp ip (u16_of_int (sv_port s)) reqid [0; Z.to_N (a_count a - 1) mod 65536]%N))], HRet (Ok tt)))
      /\ ~ truthful A h [] [0; Z.to_N (a_count a - 1) mod 65536]%N.
Proof. exact C57_huge_lemma. Qed.
Print Assumptions C57_huge_refuted.
Example C57_case :
  bool_decide (ex_sent ex_srv (DiscReq 5 hnew []) = Some [serialize (DiscResp ex_own 61696 5 [1; 1]%N)])
  && bool_decide (ex_sent ex_srv (DiscReq 5 hnew [0; 0; 0; 1]%N) = Some [serialize (DiscResp ex_own 61696 5 [1; 1]%N)])
  && bool_decide (ex_sent ex_srv (DiscReq 5 blank []) = Some [serialize (DiscResp ex_own 61696 5 [])])
  && bool_decide (ex_sent ex_srv (DiscReq 5 (replicate 20 x09) [0; 5]%N) = Some [serialize (DiscResp ex_own 61696 5 [])]) = true.
Proof. vm_compute. reflexivity. Qed.

(** *** C58: when a peer asks for all chunks, it sees the first [n mod 128] runs,
    where [n] is the number of runs of consecutive held chunks *)
Theorem C58_what_the_peer_sees :
  forall cwd dir dl A s f e ra buffer reqid h a addrs ip,
    srv_reached cwd dir dl A s f -> en_ifs e = Some addrs -> Forall if_wf addrs -> own_address addrs ip ->
    en_wok e = true -> parse buffer = Ok (DiscReq reqid h []) -> h <> blank -> A !! h = Some a -> (a_count a <= 65536)%Z ->
    exists s' data ps, run f (handle_message e s buffer ra) =
        (f, Done (s', [mkDgram (slice_bytes (ua_ip ra)) (sv_port s) data], HRet (Ok tt)))
      /\ separated 0 ps /\ (forall x, covered ps x <-> x ∈ a_held a) /\ length ps = size (run_starts (a_held a))
      /\ parse (udp_buffer 1024 data) = Ok (DiscResp ip (u16_of_int (sv_port s)) reqid (flatten (take (length ps mod 128) ps))).
Proof. exact C58_srv_lemma. Qed.
Print Assumptions C58_what_the_peer_sees.
(** fewer than 128 runs are reported completely *)
Theorem C58_few_runs_partial :
  forall cwd dir dl A s f e ra buffer reqid h a addrs ip,
    srv_reached cwd dir dl A s f -> en_ifs e = Some addrs -> Forall if_wf addrs -> own_address addrs ip ->
    en_wok e = true -> parse buffer = Ok (DiscReq reqid h []) -> h <> blank -> A !! h = Some a -> (a_count a <= 65536)%Z ->
    size (run_starts (a_held a)) < 128 -> a_held a <> ∅ ->
    exists s' data cs, run f (handle_message e s buffer ra) =
        (f, Done (s', [mkDgram (slice_bytes (ua_ip ra)) (sv_port s) data], HRet (Ok tt)))
      /\ parse (udp_buffer 1024 data) = Ok (DiscResp ip (u16_of_int (sv_port s)) reqid cs)
      /\ cs <> [] /\ exists ps, cs = flatten ps /\ separated 0 ps /\ forall x, covered ps x <-> x ∈ a_held a.
Proof. exact C58_partial_lemma. Qed.
Print Assumptions C58_few_runs_partial.
(** a host that holds every other one of 256 chunks reports none *)
Theorem C58_fragmented_refuted :
  exists A s f a e ra buffer data s' reqid,
    srv_reached ex_cwd ex_dir ex_dl A s f /\ A !! hnew = Some a /\ size (a_held a) = 128
    /\ parse buffer = Ok (DiscReq reqid hnew [])
    /\ run f (handle_message e s buffer ra) = (f, Done (s', [mkDgram (slice_bytes (ua_ip ra)) (sv_port s) data], HRet (Ok tt)))
    /\ parse (udp_buffer 1024 data) = Ok (DiscResp ex_own (u16_of_int (sv_port s)) reqid []).
Proof. exact C58_refuted_lemma. Qed.
Print Assumptions C58_fragmented_refuted.
Example C58_case : exists A c f a, reached ex_cwd ex_dir ex_dl A c f /\ A !! hnew = Some a /\ a_held a <> ∅
  /\ size (run_starts (a_held a)) < 128 /\ (a_count a <= 65536)%Z.
Proof. exact C58_case_lemma. Qed.

(** *** C59: a listing describes the requested file, or every indexed file *)
Theorem C59_listings_are_truthful_partial :
  forall cwd dir dl A s f e ra buffer reqid h,
    srv_reached cwd dir dl A s f -> NoDup (en_order e) -> (forall k, k ∈ en_order e <-> A !! k <> None) ->
    en_wok e = true -> parse buffer = Ok (ListReq reqid h) -> h = blank \/ A !! h <> None ->
    exists s' es, run f (handle_message e s buffer ra) =
        (f, Done (s', [mkDgram (slice_bytes (ua_ip ra)) (ua_port ra) (serialize (ListResp reqid es))], HRet (Ok tt)))
      /\ Forall2 (fun en k => exists a, A !! k = Some a /\ describes en k a) es (if decide (h = blank) then en_order e else [h]).
Proof. exact C59_srv_lemma. Qed.
Print Assumptions C59_listings_are_truthful_partial.
(** but a request for an unknown hash ends the daemon *)
Theorem C59_unknown_hash_refuted :
  forall cwd dir dl A s f e ra buffer reqid h,
    srv_reached cwd dir dl A s f -> parse buffer = Ok (ListReq reqid h) -> h <> blank -> A !! h = None ->
    exists w, run f (handle_message e s buffer ra) = (f, Died w).
Proof. exact C59_srv_refuted_lemma. Qed.
Print Assumptions C59_unknown_hash_refuted.
Example C59_case :
  let en_a := Messages.mkEntry 3 1 4194304 1 habc (bs "a") in let en_n := Messages.mkEntry 5 2 3 1 hnew (bs "new") in
  bool_decide (ex_sent ex_srv (ListReq 9 blank) = Some [serialize (ListResp 9 [en_n; en_a])])
  && bool_decide (ex_sent ex_srv (ListReq 9 habc) = Some [serialize (ListResp 9 [en_a])])
  && bool_decide (ex_sent ex_srv (ListReq 9 (replicate 20 x09)) = None) = true.
Proof. vm_compute. reflexivity. Qed.

(** *** C60: the requester gets the listing (with names cut to 255 bytes) if it fits
    into 1024 bytes, and crashes otherwise *)
Theorem C60_listing_received :
  forall cwd dir dl A s f e ra buffer reqid,
    srv_reached cwd dir dl A s f -> NoDup (en_order e) -> (forall k, k ∈ en_order e <-> A !! k <> None) ->
    en_wok e = true -> parse buffer = Ok (ListReq reqid blank) -> size A <= N.to_nat 65535 ->
    exists s' data es, run f (handle_message e s buffer ra) =
        (f, Done (s', [mkDgram (slice_bytes (ua_ip ra)) (ua_port ra) data], HRet (Ok tt)))
      /\ Forall2 (fun en k => exists a, A !! k = Some a /\ describes en k a) es (en_order e)
      /\ if decide (5 + entries_size es <= 1024)
         then listing_received (Some data) = Ok (map cut_name es)
         else is_panic (listing_received (Some data)).
Proof. exact C60_lemma. Qed.
Print Assumptions C60_listing_received.
(** whatever the names are, 25 files are too many *)
Theorem C60_many_files_refuted :
  forall cwd dir dl A s f e ra buffer reqid,
    srv_reached cwd dir dl A s f -> NoDup (en_order e) -> (forall k, k ∈ en_order e <-> A !! k <> None) ->
    en_wok e = true -> parse buffer = Ok (ListReq reqid blank) -> 25 <= size A <= N.to_nat 65535 ->
    exists s' data, run f (handle_message e s buffer ra) =
        (f, Done (s', [mkDgram (slice_bytes (ua_ip ra)) (ua_port ra) data], HRet (Ok tt)))
      /\ is_panic (listing_received (Some data)).
Proof. exact C60_crash_lemma. Qed.
Print Assumptions C60_many_files_refuted.
(** up to three files, with any names, are always received *)
Theorem C60_few_files_partial :
  forall cwd dir dl A s f e ra buffer reqid,
    srv_reached cwd dir dl A s f -> NoDup (en_order e) -> (forall k, k ∈ en_order e <-> A !! k <> None) ->
    en_wok e = true -> parse buffer = Ok (ListReq reqid blank) -> size A <= 3 ->
    exists s' data es, run f (handle_message e s buffer ra) =
        (f, Done (s', [mkDgram (slice_bytes (ua_ip ra)) (ua_port ra) data], HRet (Ok tt)))
      /\ Forall2 (fun en k => exists a, A !! k = Some a /\ describes en k a) es (en_order e)
      /\ listing_received (Some data) = Ok (map cut_name es).
Proof. exact C60_partial_lemma. Qed.
Print Assumptions C60_few_files_partial.
Example C60_case :
  (exists A c f, reached ex_cwd ex_dir ex_dl A c f /\ size A = 25 /\ forall k, A !! k <> None -> k <> blank)
  /\ size A3 <= 3
  /\ match ex_sent ex_srv (ListReq 9 blank) with
     | Some [data] =>
         match listing_received (Some data) with
         | Ok es => bool_decide (map (fun en => (e_size en, e_count en, e_chunk en, e_down en, e_hash en, e_name en)) es
                      = [(5, 2, 3, 1, hnew, bs "new"); (3, 1, 4194304, 1, habc, bs "a")]%N)
         | _ => false
         end
     | _ => false
     end = true.
Proof. exact C60_case_lemma. Qed.

(** *** C61: every datagram is handled; the ones that end the daemon are known *)
Theorem C61_which_datagrams_end_the_daemon :
  forall cwd dir dl A s f e ra buffer addrs lip, 534 <= length buffer ->
    srv_reached cwd dir dl A s f -> en_ifs e = Some addrs -> Forall if_wf addrs -> ua_ip ra = exact_slice lip ->
    NoDup (en_order e) -> (forall k, k ∈ en_order e <-> A !! k <> None) -> readable A f (en_fuel e) ->
    (dies_on A e buffer /\ exists w, run f (handle_message e s buffer ra) = (f, Died w))
    \/ (~ dies_on A e buffer /\ exists x, run f (handle_message e s buffer ra) = (f, Done x)).
Proof. exact handle_outcome. Qed.
Print Assumptions C61_which_datagrams_end_the_daemon.
(** the default case of HandleMessage is never reached *)
Theorem C61_no_data_packets : forall buffer off d, parse buffer <> Ok (Data off d).
Proof. exact parse_not_data. Qed.
Print Assumptions C61_no_data_packets.
Example C61_case :
  match run ex3.1.2 (handle_message (ex_env [hnew; habc]) ex_srv (udp_buffer 1024 (x03 :: replicate 1023 xff)) ex_peer) with
  | (_, Died _) => true | _ => false end
  && match ex_handle ex_srv (DiscReq 1 hnew [0%N]) with None => true | _ => false end
  && match ex_handle ex_srv (DiscReq 1 hnew [0; 1]%N) with Some _ => true | _ => false end
  && match run ex3.1.2 (handle_message (ex_env [hnew; habc]) ex_srv (udp_buffer 1024 []) ex_peer) with
     | (_, Done _) => true | _ => false end = true.
Proof. vm_compute. reflexivity. Qed.

(** *** C62: download hosts *)
Theorem C62_hosts_selected :
  forall own resps, exists l, good_hosts own resps = Ok l /\ selected (good own) resps l.
Proof. exact C62_lemma. Qed.
Print Assumptions C62_hosts_selected.
(** there is only one such list *)
Theorem C62_selection_is_unique :
  forall own resps l l', selected (good own) resps l -> selected (good own) resps l' -> l = l'.
Proof. exact selected_unique. Qed.
Print Assumptions C62_selection_is_unique.
Example C62_case :
  let r1 := mkResp [x01; x02; x03; x04] 61696 7 [0; 5]%N in let r2 := mkResp ex_own 61696 7 [0; 5]%N in
  let r3 := mkResp [x01; x02; x03; x05] 61696 7 [] in let r4 := mkResp [x01; x02; x03; x06] 61696 7 [2; 2]%N in
  good_hosts ex_own [r1; r2; r3; r4; r1] = Ok [r1; r4; r1].
Proof. vm_compute. reflexivity. Qed.

(** *** C66: newIpv4 on the addresses that the net package hands out (no spare
    capacity) *)
Theorem C66_newIpv4 :
  forall l, (forall a, ipv4_of l a -> new_ipv4 (exact_slice l) = Ok a)
    /\ ((forall a, ~ ipv4_of l a) -> is_err (new_ipv4 (exact_slice l))).
Proof. exact C66_lemma. Qed.
Print Assumptions C66_newIpv4.
(** on arbitrary slices, exactly when it panics and when the bytes can be wrong *)
Theorem C66_spare_capacity :
  forall s, slice_wf s ->
    (is_err (new_ipv4 s) <-> forall a, ~ ipv4_of (slice_bytes s) a)
    /\ (is_panic (new_ipv4 s) <-> (exists a, ipv4_of (slice_bytes s) a) /\ length (arr s) <> 4 /\ length (arr s) <> 16)
    /\ (forall a b, ipv4_of (slice_bytes s) a -> new_ipv4 s = Ok b ->
          (b = a \/ slen s = 4 /\ length (arr s) = 16 /\ b = drop 12 (arr s))).
Proof. exact C66_capacity_lemma. Qed.
Print Assumptions C66_spare_capacity.
(** what LocalIP finds, newIpv4 accepts *)
Theorem C66_own_address :
  forall ifs a, Forall (fun i => match i with IfNet ip => length (arr ip) = slen ip | IfOther => True end) ifs ->
    own_address ifs a -> exists r, local_ip (Some ifs) = Ok (Some r) /\ new_ipv4 r = Ok a.
Proof. exact C66_own_lemma. Qed.
Print Assumptions C66_own_address.
Example C66_case :
  new_ipv4 (exact_slice ex_own) = Ok ex_own
  /\ new_ipv4 (exact_slice (replicate 10 x00 ++ [xff; xff] ++ ex_own)) = Ok ex_own
  /\ is_err (new_ipv4 (exact_slice (replicate 15 x00 ++ [x01]))) /\ is_err (new_ipv4 (exact_slice []))
  /\ is_panic (new_ipv4 (mkSlice (ex_own ++ [x00]) 4)).
Proof. split_and!; [done..| | |]; by eexists. Qed.

(** *** C71: with requests from different addresses every handler gets an upload of
    its own chunk, in every interleaving *)
Theorem C71_distinct_peers_partial :
  forall U j h r, u_reached U -> distinct_peers U -> u_hs U !! j = Some h -> uh_pc h = UEnd r ->
    (if uh_wok h then r = Ok (stream (sha1 (asked h)) (asked h) 0) else is_err r) /\
    exists n u, u_map U !! uh_key h = Some n /\ u_heap U !! n = Some u /\ carries (uh_l h) (uh_cs h) (uh_i h) u.
Proof. exact C71_partial_lemma. Qed.
Print Assumptions C71_distinct_peers_partial.
(** in general the bytes are those of a chunk requested from the same address *)
Theorem C71_bytes_from_the_same_peer :
  forall U j h r, u_reached U -> u_hs U !! j = Some h -> uh_pc h = UEnd r ->
    exists j' h', u_hs U !! j' = Some h' /\ uh_key h' = uh_key h /\
      if uh_wok h then r = Ok (0%N, sha1 (asked h) ++ be 4 (N.of_nat (length (asked h))) ++ take 1000 (asked h')) else is_err r.
Proof. exact C71_mixed_lemma. Qed.
Print Assumptions C71_bytes_from_the_same_peer.
(** with the same address either request can get the other's bytes *)
Theorem C71_same_peer_refuted :
  forall (key : list byte * N) l cs i1 i2, (Z.of_nat cs < 4294967296)%Z -> (Z.of_nat i1 < 65536)%Z -> (Z.of_nat i2 < 65536)%Z ->
    exists U h1, u_reached U /\ u_hs U !! 1 = Some h1 /\ asked h1 = chunk_bytes l cs i1 /\
      uh_pc h1 = UEnd (Ok (0%N, sha1 (asked h1) ++ be 4 (N.of_nat (length (asked h1))) ++ take 1000 (chunk_bytes l cs i2))).
Proof. exact C71_same_lemma. Qed.
Print Assumptions C71_same_peer_refuted.
(** A request handled without interruption is a sequence of these steps: the handler of
    C53 and the steps agree on what is sent and on the table of uploads. *)
Theorem C71_one_request :
  forall cwd dir dl A s f e buffer h a l i cap ra ip U j,
    let cs := Z.to_nat (a_chunk a) in
    srv_reached cwd dir dl A s f -> u_reached U -> same_table U (sv_uploads s) -> u_hs U !! j = None ->
    parse buffer = Ok (OpenReq h i cap) -> A !! h = Some a -> i ∈ a_held a ->
    file_at f (a_path a) = Some l -> length l < en_fuel e -> from_ipv4 ra ip ->
    exists s' ds hd U' r0 r, run f (handle_message e s buffer ra) = (f, Done (s', ds, HRet r0)) /\ rtc ustep U U'
      /\ same_table U' (sv_uploads s') /\ u_hs U' !! j = Some hd /\ uh_pc hd = UEnd r
      /\ uh_key hd = (ip, u16_of_int (ua_port ra)) /\ asked hd = chunk_bytes l cs (N.to_nat i)
      /\ match r with
         | Ok p => r0 = Ok tt /\ ds = [mkDgram (slice_bytes (ua_ip ra)) (ua_port ra) (wire p)]
         | Err w => r0 = Err w /\ ds = []
         | Panic _ => False
         end.
Proof. exact C71_alone_lemma. Qed.
Print Assumptions C71_one_request.
(** so is an acknowledgement *)
Theorem C71_one_acknowledgement :
  forall f e s buffer off ra ip U u, u_reached U -> same_table U (sv_uploads s) ->
    parse buffer = Ok (Ack off) -> from_ipv4 ra ip -> sv_uploads s !! (ip, u16_of_int (ua_port ra)) = Some u ->
    exists s' U' u', run f (handle_message e s buffer ra) = (f, Done (s', [], HRet (Ok tt)))
      /\ ustep U U' /\ same_table U' (sv_uploads s') /\ u_hs U' = u_hs U
      /\ sv_uploads s' = <[(ip, u16_of_int (ua_port ra)) := u']> (sv_uploads s) /\ sstep u SAck = SGo u' [].
Proof. exact C71_ack_lemma. Qed.
Print Assumptions C71_one_acknowledgement.
(** and any two requests can write to the map at the same time *)
Theorem C71_map_race_refuted :
  forall (key1 key2 : list byte * N) l cs i1 i2, (Z.of_nat cs < 4294967296)%Z -> (Z.of_nat i1 < 65536)%Z -> (Z.of_nat i2 < 65536)%Z ->
    exists U h1 h2, u_reached U /\ u_hs U !! 1 = Some h1 /\ u_hs U !! 2 = Some h2 /\ dom (u_hs U) = {[1; 2]} /\ uh_key h1 = key1 /\ uh_key h2 = key2
      /\ asked h1 = chunk_bytes l cs i1 /\ asked h2 = chunk_bytes l cs i2 /\ map_race U 1 2.
Proof. exact C71_race_lemma. Qed.
Print Assumptions C71_map_race_refuted.
Example C71_case : exists U h1 h2, u_reached U /\ distinct_peers U /\ u_hs U !! 1 = Some h1 /\ u_hs U !! 2 = Some h2
  /\ uh_pc h1 = UEnd (Ok (0%N, sha1 (bs "ab") ++ [x00; x00; x00; x02] ++ bs "ab"))
  /\ uh_pc h2 = UEnd (Ok (0%N, sha1 (bs "c") ++ [x00; x00; x00; x01] ++ bs "c")).
Proof. exact C71_case_lemma. Qed.
