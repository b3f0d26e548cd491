(** Specification vocabulary for the commands that end the daemon. *)
From Verif Require Export DialSpec StartSpec CatalogueDownload.

(** [ends_daemon A e q]: serving the request [q] ends a daemon with catalogue [A] although every socket can
    be opened: list with an address that is no IPv4 address or with an answer that crashes the parser; get on a
    machine without an address of its own; get of a file that is not in the catalogue, when another host has some of it
    and the answer crashes the parser or describes the file with sizes that no bitset can have (C41) *)
Inductive ends_daemon (A : astate) (e : cenv) : rpcreq -> Prop :=
| ed_address ip h : ip <> [] -> (forall q, length q = 4 -> ip <> mapped q) -> ends_daemon A e (RqList ip h)
| ed_answer ip h : ip <> [] -> unparsable (ce_listing e) -> ends_daemon A e (RqList ip h)
| ed_homeless h : (forall ifs own, ce_ifs e = Some ifs -> ~ own_address ifs own) -> ends_daemon A e (RqGet h)
| ed_meta h ifs own r hs : ce_ifs e = Some ifs -> own_address ifs own -> A !! h = None ->
    selected (good own) (ce_resps e) (r :: hs) -> unparsable (ce_listing e) -> ends_daemon A e (RqGet h)
| ed_sizes h ifs own r hs en : ce_ifs e = Some ifs -> own_address ifs own -> A !! h = None ->
    selected (good own) (ce_resps e) (r :: hs) -> describes_one (ce_listing e) h en -> bad_metadata (e_size en) (e_chunk en) ->
    ends_daemon A e (RqGet h).
(** the command line without the superfluous arguments that list and chims do not look at (C72) *)
Definition meant (argv : list text) : list text :=
  match argv with
  | cmd :: args => cmd :: (if decide (cmd = str "list") then take 2 args else if decide (cmd = str "chims") then take 1 args else args)
  | [] => []
  end.
(** [client_crashes cwd A f e q]: the answer to the request [q] crashes the client when it prints it: sharing an empty
    file; listing a catalogue with an entry without chunks; listing a host that reports such an entry; asking for
    hosts when one of them reports an odd number of chunk bounds *)
Inductive client_crashes (cwd : path) (A : astate) (f : fs) (e : cenv) : rpcreq -> Prop :=
| cc_share p : file_at f (abs cwd p) = Some [] -> A !! sha1 [] = None -> client_crashes cwd A f e (RqShare p)
| cc_list h k a : A !! k = Some a -> a_count a = 0%Z -> client_crashes cwd A f e (RqList [] h)
| cc_host q h d reqid es : length q = 4 -> ce_listing e = Some d -> parse (udp_buffer 1024 d) = Ok (ListResp reqid es) ->
    Exists (fun en => e_count en = 0%N) es -> client_crashes cwd A f e (RqList (mapped q) h)
| cc_chims h : Exists (fun r => Nat.even (length (h_chunks r)) = false) (ce_resps e) -> client_crashes cwd A f e (RqChims h).
