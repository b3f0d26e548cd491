(** Properties of the command line (C67-C69, C72, C78-C83). *)
From Verif Require Import CliProofs5 DownloadProofs4.

Definition shows_text (x : fs * option server * list dgram * cend) (t : text) : bool :=
  match x.2 with Shown t' => bool_decide (t' = t) | _ => false end.
Definition crashes (x : fs * option server * list dgram * cend) : bool := match x.2 with Crashed => true | _ => false end.
Definition alive (x : fs * option server * list dgram * cend) : bool := match x.1.1.2 with Some _ => true | None => false end.
Definition lines (l : list text) : text := concat (map (fun t => t ++ nl) l).
Definition tabbed (s : string) (t : text) : text := tab ++ str s ++ t.

(** *** C67: the percentage shown for a file of the local catalogue *)
Theorem C67_percentage_shown :
  forall cwd dir dl A s f e,
    srv_reached cwd dir dl A s f -> NoDup (ce_order e) -> (forall h, h ∈ ce_order e <-> A !! h <> None) ->
    (forall h a, A !! h = Some a -> a_count a <> 0%Z) ->
    (exists s', session true e s f [str "list"] = (f, Some s', [], Shown (listing A (ce_order e))))
    /\ forall h a, A !! h = Some a ->
         (0 <= percent (held a) (a_count a) <= 100)%Z
         /\ (percent (held a) (a_count a) * a_count a <= 100 * held a < (percent (held a) (a_count a) + 1) * a_count a)%Z
         /\ (percent (held a) (a_count a) = 100%Z <-> complete a).
Proof. exact C67_lemma. Qed.
Print Assumptions C67_percentage_shown.
(** every number is printed in decimal *)
Theorem C67_numbers : forall z, decimal (dec z) z.
Proof. exact C67_numbers_lemma. Qed.
Print Assumptions C67_numbers.
(** a listing of another host shows whatever that host announces *)
Theorem C67_remote_percentage_refuted :
  forall cwd dir dl A s f e a q reqid en,
    srv_reached cwd dir dl A s f -> length q = 4 -> address a (mapped q) -> u16 reqid -> entry_typed en -> length (e_name en) <= 255 ->
    (0 < e_count en)%N -> (e_size en < 9223372036854775808)%N -> (101 * e_count en <= 100 * e_down en)%N ->
    ce_listing e = Some (serialize (ListResp reqid [en])) ->
    (exists s', session true e s f [str "list"; a] = (f, Some s', [question s q (replicate 20 xff)], Shown (remote_text en)))
    /\ (100 < percent (Z.of_N (e_down en)) (Z.of_N (e_count en)))%Z.
Proof. exact C67_remote_lemma. Qed.
Print Assumptions C67_remote_percentage_refuted.
Example C67_case :
  shows_text (ex_session ["list"] None)
    (lines [str "new"; tabbed "Path: " (str "/dl/new"); tabbed "Size (bytes): 5" []; tabbed "Sha1 Hash: " (hash_string hnew);
            tabbed "Chunk Count: 2" []; tabbed "Chunks Downloaded: 1" []; tabbed "Chunk Size: 3" []; tabbed "Integrity: 50%" [];
            str "a"; tabbed "Path: " (str "/a"); tabbed "Size (bytes): 3" []; tabbed "Sha1 Hash: " (hash_string habc);
            tabbed "Chunk Count: 1" []; tabbed "Chunks Downloaded: 1" []; tabbed "Chunk Size: 4194304" []; tabbed "Integrity: 100%" []])
  && shows_text (ex_session ["list"; "10.0.0.7"] (Some (serialize (ListResp 0 [Messages.mkEntry 3 2 4194304 5 habc (bs "a")]))))
    (lines [str "a"; tabbed "Path: " (str "a"); tabbed "Size (bytes): 3" []; tabbed "Sha1 Hash: " (hash_string habc);
            tabbed "Chunk Count: 2" []; tabbed "Chunks Downloaded: 5" []; tabbed "Chunk Size: 4194304" []; tabbed "Integrity: 250%" []]) = true.
Proof. vm_compute. reflexivity. Qed.

(** *** C68: a listing is displayed unless it has a file without chunks, which is
    then an empty one *)
Theorem C68_listing_exact :
  forall cwd dir dl A s f e,
    srv_reached cwd dir dl A s f -> NoDup (ce_order e) -> (forall h, h ∈ ce_order e <-> A !! h <> None) ->
    exists s', srv_reached cwd dir dl A s' f /\
      (((forall h a, A !! h = Some a -> a_count a <> 0%Z)
         /\ session true e s f [str "list"] = (f, Some s', [], Shown (listing A (ce_order e))))
       \/ ((exists h a, A !! h = Some a /\ a_size a = 0%Z /\ a_count a = 0%Z)
         /\ session true e s f [str "list"] = (f, Some s', [], Crashed))).
Proof. exact C68_list_lemma. Qed.
Print Assumptions C68_listing_exact.
Theorem C68_share_exact :
  forall cwd dir dl A s f e p l,
    srv_reached cwd dir dl A s f -> ce_cwd e = cwd -> file_at f (abs cwd p) = Some l -> small l -> A !! sha1 l = None ->
    exists s' f', srv_reached cwd dir dl (<[sha1 l := full_entry (abs cwd p) (Z.of_nat (length l)) 4194304]> A) s' f' /\ same_user dir f f' /\
      session true e s f [str "share"; p] = (f', Some s', [],
        if decide (l = []) then Crashed else Shown (entry_text (sha1 l) (full_entry (abs cwd p) (Z.of_nat (length l)) 4194304))).
Proof. exact C68_share_lemma. Qed.
Print Assumptions C68_share_exact.
Theorem C68_share_fails :
  forall cwd dir dl A s f e p,
    srv_reached cwd dir dl A s f -> ce_cwd e = cwd ->
    (file_at f (abs cwd p) = None \/ exists l, file_at f (abs cwd p) = Some l /\ A !! sha1 l <> None) ->
    session true e s f [str "share"; p] = (f, Some s, [], Failed).
Proof. exact C68_share_fails_lemma. Qed.
Print Assumptions C68_share_fails.
(** after an empty file has been shared, every listing crashes the client *)
Theorem C68_empty_file_refuted :
  forall cwd dir dl A s f e p e',
    srv_reached cwd dir dl A s f -> ce_cwd e = cwd -> file_at f (abs cwd p) = Some [] -> A !! sha1 [] = None ->
    NoDup (ce_order e') -> (forall h, h ∈ ce_order e' <-> h = sha1 [] \/ A !! h <> None) ->
    exists s' f', session true e s f [str "share"; p] = (f', Some s', [], Crashed)
      /\ exists s2, session true e' s' f' [str "list"] = (f', Some s2, [], Crashed).
Proof. exact C68_empty_lemma. Qed.
Print Assumptions C68_empty_file_refuted.
Example C68_case :
  let f := <[bs "/e" := NFile []]> ex3.1.2 in
  let s := session true (ex_cenv None) ex_srv f [str "share"; bs "/e"] in
  crashes s
  && match s with
     | (f', Some s', _, _) => crashes (session true (mkCenv ex_cwd [sha1 []; hnew; habc] None [] None ex_why) s' f' [str "list"])
     | _ => false
     end
  && crashes (ex_session ["list"; "10.0.0.7"] (Some (serialize (ListResp 0 [Messages.mkEntry 0 0 4194304 0 habc (bs "a")]))))
  && shows_text (session true (ex_cenv None) (new_server 61696 ex_c0) ex_f0 [str "share"; bs "a"])
    (lines [str "a"; tabbed "Path: " (str "/a"); tabbed "Size (bytes): 3" []; tabbed "Sha1 Hash: " (hash_string habc);
            tabbed "Chunk Count: 1" []; tabbed "Chunks Downloaded: 1" []; tabbed "Chunk Size: 4194304" []; tabbed "Integrity: 100%" []])
  && match (ex_session ["share"; "a"] None).2 with Failed => true | _ => false end = true.
Proof. vm_compute. reflexivity. Qed.

(** *** C69: the daemon survives a listing request exactly if the address is an IPv4
    one and the answer can be parsed *)
Theorem C69_ipv4_only :
  forall cwd dir dl A s f e a ip h argv,
    srv_reached cwd dir dl A s f -> address a ip -> list_args a h argv ->
    (session true e s f argv).1.1.2 = None <-> (forall q, length q = 4 -> ip <> mapped q) \/ is_panic (listing_received (ce_listing e)).
Proof. exact C69_iff_lemma. Qed.
Print Assumptions C69_ipv4_only.
Theorem C69_dotted_partial :
  forall cwd dir dl A s f e a q h argv,
    srv_reached cwd dir dl A s f -> dotted a q -> list_args a h argv -> ~ is_panic (listing_received (ce_listing e)) ->
    exists s' end_, session true e s f argv = (f, Some s', [question s q h], end_) /\ srv_reached cwd dir dl A s' f.
Proof. exact C69_dotted_lemma. Qed.
Print Assumptions C69_dotted_partial.
Theorem C69_ipv6_refuted :
  forall cwd dir dl A s f e a ip h argv,
    srv_reached cwd dir dl A s f -> v6_text a ip -> take 12 ip <> replicate 10 x00 ++ [xff; xff] -> list_args a h argv ->
    session true e s f argv = (f, None, [], Failed).
Proof. exact C69_six_lemma. Qed.
Print Assumptions C69_ipv6_refuted.
Example C69_case :
  negb (alive (ex_session ["list"; "fe80::1"] None)) && negb (alive (ex_session ["list"; "::"] None))
  && alive (ex_session ["list"; "::ffff:1.2.3.4"] None) && alive (ex_session ["list"; "1.2.3.4"] None)
  && bool_decide (map dg_ip (ex_session ["list"; "192.168.1.9"] None).1.2 = [ex_host])
  && bool_decide (parse_ip (bs "1:2:3:4:5:6:7:8") = Some [x00; x01; x00; x02; x00; x03; x00; x04; x00; x05; x00; x06; x00; x07; x00; x08])
  && bool_decide (parse_ip (bs "1.2.3") = None) && bool_decide (parse_ip (bs "1.2.3.256") = None) && bool_decide (parse_ip (bs "1::2::3") = None) = true.
Proof. vm_compute. reflexivity. Qed.

(** *** C72: the request that is sent is the one the command line asks for; anything
    else is refused, unless there are too many arguments *)
Theorem C72_requests_partial :
  forall argv, ~ too_many argv -> argv <> [str "get"] ->
    (exists q, asks argv q /\ client_parse argv = PSend q)
    \/ ((forall q, ~ asks argv q) /\ exists code, client_parse argv = PRefuse code).
Proof. exact C72_lemma. Qed.
Print Assumptions C72_requests_partial.
Theorem C72_request_is_unique :
  forall argv q q', asks argv q -> asks argv q' -> q = q'.
Proof. exact asks_unique. Qed.
Print Assumptions C72_request_is_unique.
(** arguments that no command has are ignored instead of refused *)
Theorem C72_extra_arguments_refuted :
  forall argv q rest, asks argv q -> (exists a x, argv = [str "list"; a; x]) \/ (exists x, argv = [str "chims"; x]) ->
    client_parse (argv ++ rest) = PSend q.
Proof. exact C72_extra_lemma. Qed.
Print Assumptions C72_extra_arguments_refuted.
(** one command line crashes the client *)
Theorem C72_get_alone_refuted :
  forall argv, client_parse argv = PDie <-> argv = [str "get"].
Proof. exact C72_die_lemma. Qed.
Print Assumptions C72_get_alone_refuted.
(** the exit code of every refusal; a command that does not exist and an address that is none end with 0 *)
Theorem C72_codes :
  forall argv code, client_parse argv = PRefuse code <-> refused_with code argv.
Proof. exact C72_code_lemma. Qed.
Print Assumptions C72_codes.
(** a refusal leaves the daemon and the disk alone; without a daemon the client panics instead *)
Theorem C72_refusal_is_harmless :
  forall up e s f argv code, refused_with code argv ->
    session up e s f argv = (f, Some s, [], if decide (up = true \/ argv = []) then Refused code else Crashed).
Proof. exact C72_harmless_lemma. Qed.
Print Assumptions C72_refusal_is_harmless.
Example C72_case :
  let x := "0707070707070707070707070707070707070707"%string in
  match client_parse (map str ["get"; x]%string), client_parse (map str ["get"; "07"]%string), client_parse (map str ["get"; x; "--secret"]%string),
        client_parse (map str ["list"; "1.2.3.4"; x]%string), client_parse (map str ["share"]%string), client_parse (map str ["share"; "a"; "b"]%string),
        client_parse (map str ["fetch"]%string), client_parse (map str ["chims"; x; "z"]%string), client_parse (map str ["clean"]%string) with
  | PSend (RqGet h), PRefuse 2, PRefuse 2, PSend (RqList ip h'), PRefuse 2, PRefuse 2, PRefuse 0, PSend (RqChims h''), PSend RqClean =>
      bool_decide (h = hnew) && bool_decide (h' = hnew) && bool_decide (h'' = hnew) && bool_decide (ip = mapped [x01; x02; x03; x04])
  | _, _, _, _, _, _, _, _, _ => false
  end = true.
Proof. vm_compute. reflexivity. Qed.

(** *** C78: share takes the file that the path means in the user's directory [wd];
    for absolute paths *)
Theorem C78_absolute_path_partial :
  forall cwd dir dl A s f e wd p l,
    srv_reached cwd dir dl A s f -> ce_cwd e = cwd -> is_rooted p = true -> file_at f (abs wd p) = Some l -> small l -> l <> [] -> A !! sha1 l = None ->
    exists s' f', srv_reached cwd dir dl (<[sha1 l := full_entry (abs wd p) (Z.of_nat (length l)) 4194304]> A) s' f' /\
      session true e s f [str "share"; p] = (f', Some s', [], Shown (entry_text (sha1 l) (full_entry (abs wd p) (Z.of_nat (length l)) 4194304))).
Proof. exact C78_absolute_lemma. Qed.
Print Assumptions C78_absolute_path_partial.
Theorem C78_relative_path_refuted :
  exists cwd dir dl A s f e wd p l,
    srv_reached cwd dir dl A s f /\ ce_cwd e = cwd /\ file_at f (abs wd p) = Some l /\ small l /\ l <> [] /\ A !! sha1 l = None
    /\ session true e s f [str "share"; p] = (f, Some s, [], Failed).
Proof. exact C78_refuted_lemma. Qed.
Print Assumptions C78_relative_path_refuted.
(** ... and a file can be shared that the path does not mean *)
Theorem C78_other_file_refuted :
  exists cwd dir dl A s f e wd p,
    srv_reached cwd dir dl A s f /\ ce_cwd e = cwd /\ f !! abs wd p = None
    /\ exists s' f' t, session true e s f [str "share"; p] = (f', Some s', [], Shown t).
Proof. exact C78_other_lemma. Qed.
Print Assumptions C78_other_file_refuted.

Example C78_case :
  let f := <[bs "/home/u/x" := NFile (bs "hello")]> ex3.1.2 in
  shows_text (session true (ex_cenv None) ex_srv f [str "share"; bs "/home/../home/u/./x"])
    (lines [str "x"; tabbed "Path: " (str "/home/u/x"); tabbed "Size (bytes): 5" []; tabbed "Sha1 Hash: " (hash_string (sha1 (bs "hello")));
            tabbed "Chunk Count: 1" []; tabbed "Chunks Downloaded: 1" []; tabbed "Chunk Size: 4194304" []; tabbed "Integrity: 100%" []])
  && bool_decide (abs (bs "/home/u") (bs "x") = bs "/home/u/x")
  && match (session true (ex_cenv None) ex_srv f [str "share"; bs "x"]).2 with Failed => true | _ => false end = true.
Proof. vm_compute. reflexivity. Qed.

(** *** C79: a listing tells exactly what the catalogue holds, if no path has a line
    break in it *)
Theorem C79_listing_is_unambiguous_partial :
  forall cwd dir dl A c f cwd' dir' dl' A' c' f' order order',
    reached cwd dir dl A c f -> reached cwd' dir' dl' A' c' f' ->
    (forall h, h ∈ order <-> A !! h <> None) -> (forall h, h ∈ order' <-> A' !! h <> None) ->
    (forall h a, A !! h = Some a -> x0a ∉ a_path a) -> (forall h a, A' !! h = Some a -> x0a ∉ a_path a) ->
    listing A order = listing A' order' -> order = order' /\ forall h, seen <$> A !! h = seen <$> A' !! h.
Proof. exact C79_lemma. Qed.
Print Assumptions C79_listing_is_unambiguous_partial.
Theorem C79_forged_line_refuted :
  forall cwd dir dl A s f e h a u v k,
    srv_reached cwd dir dl A s f -> NoDup (ce_order e) -> (forall h, h ∈ ce_order e <-> A !! h <> None) -> (forall h a, A !! h = Some a -> a_count a <> 0%Z) ->
    A !! h = Some a -> a_path a = u ++ nl ++ line "Sha1 Hash: " (hash_string k) ++ v ->
    exists s' before after, session true e s f [str "list"] = (f, Some s', [], Shown (before ++ nl ++ line "Sha1 Hash: " (hash_string k) ++ after)).
Proof. exact C79_forged_lemma. Qed.
Print Assumptions C79_forged_line_refuted.
Example C79_case : exists A s f h a, srv_reached ex_cwd ex_dir ex_dl A s f /\ A !! hnew = None /\ A !! h = Some a
  /\ (forall h a, A !! h = Some a -> a_count a <> 0%Z)
  /\ a_path a = (slash :: str "b") ++ nl ++ line "Sha1 Hash: " (hash_string hnew) ++ [] /\ NoDup [h] /\ forall k, k ∈ [h] <-> A !! k <> None.
Proof. exact forged_reached. Qed.

(** *** C80: main starts the daemon exactly if the flag -d is set ... *)
Theorem C80_daemon :
  forall argv, main_mode argv = Daemon <->
    exists ws bs rest, argv = ws ++ rest /\ Forall2 dflag ws bs /\ flags_end rest /\ last bs = Some true.
Proof. exact C80_daemon_lemma. Qed.
Print Assumptions C80_daemon.
(** ... and otherwise runs the client, on a command that is given first *)
Theorem C80_client :
  forall argv argv', main_mode argv = Client argv' <-> argv' = argv /\
    exists ws bs rest, argv = ws ++ rest /\ Forall2 dflag ws bs /\ flags_end rest /\ last bs <> Some true.
Proof. exact C80_client_lemma. Qed.
Print Assumptions C80_client.
(** ... unless there is another flag, where it ends: successfully after -h or -help *)
Theorem C80_exit :
  forall argv code, main_mode argv = Exit code <->
    exists ws bs w rest, argv = ws ++ w :: rest /\ Forall2 dflag ws bs /\ bad_flag w
      /\ (help_flag w /\ code = 0%Z \/ ~ help_flag w /\ code = 2%Z).
Proof. exact C80_exit_lemma. Qed.
Print Assumptions C80_exit.
Theorem C80_command_first_partial :
  forall cmd args, no_flag cmd -> main_mode (cmd :: args) = Client (cmd :: args).
Proof. exact C80_command_lemma. Qed.
Print Assumptions C80_command_first_partial.
(** a command after flags is not run *)
Theorem C80_command_after_flags_refuted :
  forall ws bs rest, Forall2 dflag ws bs -> ws <> [] -> flags_end rest -> last bs = Some false ->
    exists argv, main_mode (ws ++ rest) = Client argv /\ client_parse argv = PRefuse 0.
Proof. exact C80_flags_lemma. Qed.
Print Assumptions C80_command_after_flags_refuted.
Example C80_case :
  match main_mode (map str ["-d"]%string), main_mode (map str ["--d=T"; "list"]%string), main_mode (map str ["-d=false"; "list"]%string),
        main_mode (map str ["list"; "-d"]%string), main_mode (map str ["-x"]%string), main_mode (map str ["-h"]%string), main_mode (map str ["-d=yes"]%string) with
  | Daemon, Daemon, Client _, Client _, Exit 2, Exit 0, Exit 2 => true
  | _, _, _, _, _, _, _ => false
  end = true.
Proof. vm_compute. reflexivity. Qed.

(** *** C81: chims shows the hosts that answered, if their chunk lists are pairs *)
Theorem C81_hosts_shown_partial :
  forall cwd dir dl A s f e argv h,
    srv_reached cwd dir dl A s f -> asks argv (RqChims h) -> Forall (fun r => length (h_addr r) = 4) (ce_resps e) ->
    Forall (fun r => Nat.even (length (h_chunks r)) = true) (ce_resps e) ->
    exists s', srv_reached cwd dir dl A s' f /\
      session true e s f argv = (f, Some s', [mkDgram (replicate 4 xff) (sv_port s) (serialize (DiscReq (Z.to_N (sv_reqid s)) h []))],
        Shown (concat (map host_text (ce_resps e)))).
Proof. exact C81_even_lemma. Qed.
Print Assumptions C81_hosts_shown_partial.
Theorem C81_odd_list_refuted :
  forall cwd dir dl A s f e argv h,
    srv_reached cwd dir dl A s f -> asks argv (RqChims h) -> Forall (fun r => length (h_addr r) = 4) (ce_resps e) ->
    Exists (fun r => Nat.odd (length (h_chunks r)) = true) (ce_resps e) -> (session true e s f argv).2 = Crashed.
Proof. exact C81_odd_lemma. Qed.
Print Assumptions C81_odd_list_refuted.
Example C81_case :
  shows_text (ex_session ["chims"] None)
    (lines [str "IP: 192.168.1.7:61696"; str "  0:1"; str "IP: 192.168.1.9:61696"; str "  0:1"])
  && crashes (session true (mkCenv ex_cwd [] None [mkResp ex_host 1 2 [7%N]] None ex_why) ex_srv ex3.1.2 [str "chims"])
  && match parse (udp_buffer 1024 (serialize (DiscResp ex_host 1 2 [7%N]))) with Ok (DiscResp _ _ _ [_]) => true | _ => false end = true.
Proof. vm_compute. reflexivity. Qed.

(** *** C82: list with an address shows what the host announces (sizes below 2^63
    and at least one chunk) *)
Theorem C82_announcement_shown_partial :
  forall cwd dir dl A s f e a q h argv es,
    srv_reached cwd dir dl A s f -> length q = 4 -> address a (mapped q) -> list_args a h argv -> listing_received (ce_listing e) = Ok es ->
    exists s', srv_reached cwd dir dl A s' f /\
    (Forall (fun en => e_count en <> 0 /\ e_size en < 9223372036854775808)%N es ->
     session true e s f argv = (f, Some s', [question s q h], Shown (concat (map remote_text es))))
    /\ (Exists (fun en => e_count en = 0)%N es -> session true e s f argv = (f, Some s', [question s q h], Crashed)).
Proof. exact C82_lemma. Qed.
Print Assumptions C82_announcement_shown_partial.
(** larger sizes are shown as negative numbers *)
Theorem C82_large_size_refuted :
  forall cwd dir dl A s f e a q reqid en,
    srv_reached cwd dir dl A s f -> length q = 4 -> address a (mapped q) -> u16 reqid -> entry_typed en -> length (e_name en) <= 255 ->
    (0 < e_count en)%N -> (9223372036854775808 <= e_size en)%N ->
    ce_listing e = Some (serialize (ListResp reqid [en])) ->
    exists s' sz, session true e s f [str "list"; a] = (f, Some s', [question s q (replicate 20 xff)],
       Shown (file_text (e_name en) sz (e_hash en) (Z.of_N (e_count en)) (Z.of_N (e_down en)) (Z.of_N (e_chunk en)))) /\ (sz < 0)%Z.
Proof. exact C82_size_lemma. Qed.
Print Assumptions C82_large_size_refuted.
(** two hosts that run this program: the whole way from the command line of one to
    the catalogue of the other and back, if the listing fits into one datagram *)
Theorem C82_two_hosts_partial :
  forall cwd dir dl A1 s1 f1 cwd2 dir2 dl2 A2 s2 f2 e2 ra a q,
    srv_reached cwd dir dl A1 s1 f1 -> srv_reached cwd2 dir2 dl2 A2 s2 f2 ->
    NoDup (en_order e2) -> (forall h, h ∈ en_order e2 <-> A2 !! h <> None) -> en_wok e2 = true ->
    length q = 4 -> address a (mapped q) ->
    (forall h x, A2 !! h = Some x -> (0 < a_count x < 4294967296)%Z /\ length (name_of (a_path x)) <= 255) ->
    listing_size A2 (en_order e2) <= 1024 ->
    let dg := question s1 q (replicate 20 xff) in
    exists s2' data,
      run f2 (handle_message e2 s2 (udp_buffer 1024 (dg_data dg)) ra) =
        (f2, Done (s2', [mkDgram (slice_bytes (ua_ip ra)) (ua_port ra) data], HRet (Ok tt)))
      /\ forall e1, ce_listing e1 = Some data ->
         exists s1', session true e1 s1 f1 [str "list"; a] = (f1, Some s1', [dg],
           Shown (concat (map (fun h => match A2 !! h with Some x => shared_text h x | None => [] end) (en_order e2)))).
Proof. exact C82_two_hosts_lemma. Qed.
Print Assumptions C82_two_hosts_partial.
Example C82_case :
  match ex_sent ex_srv (ListReq 0 (replicate 20 xff)) with
  | Some [d] =>
      shows_text (ex_session ["list"; "192.168.1.9"] (Some d))
        (lines [str "new"; tabbed "Path: " (str "new"); tabbed "Size (bytes): 5" []; tabbed "Sha1 Hash: " (hash_string hnew);
                tabbed "Chunk Count: 2" []; tabbed "Chunks Downloaded: 1" []; tabbed "Chunk Size: 3" []; tabbed "Integrity: 50%" [];
                str "a"; tabbed "Path: " (str "a"); tabbed "Size (bytes): 3" []; tabbed "Sha1 Hash: " (hash_string habc);
                tabbed "Chunk Count: 1" []; tabbed "Chunks Downloaded: 1" []; tabbed "Chunk Size: 4194304" []; tabbed "Integrity: 100%" []])
  | _ => false
  end = true.
Proof. vm_compute. reflexivity. Qed.

(** *** C83: clean reports what it found and did *)
Theorem C83_clean_report :
  forall cwd dir dl A s f e,
    srv_reached cwd dir dl A s f -> NoDup (ce_order e) -> (forall h, h ∈ ce_order e <-> A !! h <> None) ->
    (forall h a, A !! h = Some a -> parent (a_path a) <> dir) ->
    exists s' f' A', srv_reached cwd dir dl A' s' f' /\ same_user dir f f' /\ (forall h a, A' !! h = Some a <-> A !! h = Some a /\ stays f h a)
      /\ exists why, session true e s f [str "clean"] = (f', Some s', [],
           Shown (concat (map (fun h => match A !! h with Some a => clean_report f (why h) h a | None => [] end) (ce_order e)))).
Proof. exact C83_lemma. Qed.
Print Assumptions C83_clean_report.
Example C83_case :
  shows_text (ex_session ["clean"] None)
    (lines [str "/dl/new"; str "  - Download in progress. Ignored"; str "/a"; str "  - Download complete & Hashes match. Ignored"])
  && shows_text (session true (ex_cenv None) ex_srv (<[bs "/a" := NFile (bs "abd")]> (delete (bs "/dl/new") ex3.1.2)) [str "clean"])
    (lines [str "/dl/new"; str "  - File is missing. Removed from index"; str "  - gone"; str "/a"; str "  - File has changed since indexing. Removed from Index";
            str "    Indexed Hash: " ++ hash_string habc; str "    Current Hash: " ++ hash_string (sha1 (bs "abd"))]) = true.
Proof. vm_compute. reflexivity. Qed.
