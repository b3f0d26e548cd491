(** Model of the command line: cli/*.go and the argument handling of main.go.
    net/rpc carries a request to the daemon and the response back; encoding/gob
    leaves out empty slices, which arrive as nil ([gob_bytes]).  A handler that
    panics ends the daemon (net/rpc does not recover).  The text of Go's own errors
    is not modelled. *)
From Verif Require Export NetIP Download Clean.

Notation text := (list byte).
Definition str (s : string) : text := name_bytes s.
Definition tab : text := [x09].
Definition nl : text := [x0a].

(** ** Data *)
(** cliMethodsShare.go:17-25 ListItem *)
Record litem := mkLItem {
  li_path : path; li_size : Z; li_hash : hash; li_count : Z; li_chunk : Z; li_done : Z }.
(** the requests: cliMethodsShare.go:12-14, cliMethodsClean.go:9, cliMethodsList.go:12-15,
    cliMethodsGet.go:6-8, cliMethodsChims.go:13-16 *)
Inductive rpcreq :=
| RqShare (p : path)
| RqClean
| RqList (ip : list byte) (h : hash)
| RqGet (h : hash)
| RqChims (h : hash).
(** the responses.  A cleaned item comes with the text of Rehash's error
    (cliMethodsClean.go:57) *)
Inductive response :=
| RsItem (i : litem)
| RsClean (l : list (citem * text))
| RsList (l : list litem)
| RsGet
| RsChims (l : list hostresp).

(** ** What is printed *)
(** Go's int division: truncated, and a run-time panic for a zero divisor *)
Definition go_quot (a b : Z) : res Z :=
  if decide (b = 0%Z) then Panic "integer divide by zero" else Ok (wrap64 (Z.quot a b)).
(** cliMethodsShare.go:38, the argument of the last line *)
Definition integrity (li : litem) : res Z :=
  let! q := go_quot (wrap64 (li_done li * 100)) (li_count li) in
  go_quot (wrap64 (q * 100)) 100.
(** cliMethodsShare.go:28-46 ListItem.Sprintf *)
Definition item_text (li : litem) : res text :=
  let! p := integrity li in
  Ok (base_name (li_path li) ++ nl
      ++ tab ++ str "Path: " ++ li_path li ++ nl
      ++ tab ++ str "Size (bytes): " ++ print_int (li_size li) ++ nl
      ++ tab ++ str "Sha1 Hash: " ++ hash_string (li_hash li) ++ nl
      ++ tab ++ str "Chunk Count: " ++ print_int (li_count li) ++ nl
      ++ tab ++ str "Chunks Downloaded: " ++ print_int (li_done li) ++ nl
      ++ tab ++ str "Chunk Size: " ++ print_int (li_chunk li) ++ nl
      ++ tab ++ str "Integrity: " ++ print_int p ++ str "%" ++ nl).
(** the loops of the Sprintf methods of lists *)
Fixpoint texts {A} (g : A -> res text) (l : list A) : res text :=
  match l with
  | [] => Ok []
  | a :: l' => let! t := g a in let! t' := texts g l' in Ok (t ++ t')
  end.
(** cliMethodsClean.go:50-67, ActionTaken *)
Definition clean_text (i : citem * text) : res text :=
  let (i, why) := i in
  Ok (ci_path i ++ nl ++
    match ci_action i with
    | RemovedMissing => str "  - File is missing. Removed from index" ++ nl ++ str "  - " ++ why ++ nl
    | InProgress => str "  - Download in progress. Ignored" ++ nl
    | RemovedChanged =>
        str "  - File has changed since indexing. Removed from Index" ++ nl
        ++ str "    Indexed Hash: " ++ hash_string (ci_hash i) ++ nl
        ++ str "    Current Hash: " ++ hash_string (ci_current i) ++ nl
    | Intact => str "  - Download complete & Hashes match. Ignored" ++ nl
    end).
(** cliMethodsChims.go:31-33: the loop over the chunks *)
Fixpoint chunk_lines (cs : list N) : res text :=
  match cs with
  | [] => Ok []
  | [_] => Panic "index out of range"
  | a :: b :: cs' =>
      let! t := chunk_lines cs' in
      Ok (str "  " ++ print_int (Z.of_N a) ++ str ":" ++ print_int (Z.of_N b) ++ nl ++ t)
  end.
Definition nth_dec (l : list byte) (i : nat) : text := print_int (Z.of_N (bN (default x00 (l !! i)))).
(** cliMethodsChims.go:27-35 ChimResponse.Sprintf *)
Definition chim_text (r : hostresp) : res text :=
  let! t := chunk_lines (h_chunks r) in
  Ok (str "IP: " ++ nth_dec (h_addr r) 0 ++ str "." ++ nth_dec (h_addr r) 1 ++ str "." ++ nth_dec (h_addr r) 2
      ++ str "." ++ nth_dec (h_addr r) 3 ++ str ":" ++ print_int (Z.of_N (h_port r)) ++ nl ++ t).
(** the Sprintf methods (cliMethodsShare.go:28, cliMethodsClean.go:30-36,
    cliMethodsList.go:25-31, cliMethodsGet.go:14-16, cliMethodsChims.go:43-49) *)
Definition response_text (r : response) : res text :=
  match r with
  | RsItem i => item_text i
  | RsClean l => texts clean_text l
  | RsList l => texts item_text l
  | RsGet => Ok (str "Flu transfer initiated" ++ nl)
  | RsChims l => texts chim_text l
  end.

(** ** The daemon's side *)
(** what the surroundings answer: the daemon's working directory, the order in which
    Go iterates over the index, the interfaces, what DiscoverHosts returns, the
    datagram that answers a listing request, and the text of Rehash's errors *)
Record cenv := mkCenv {
  ce_cwd : path; ce_order : list hash; ce_ifs : option (list ifaddr); ce_resps : list hostresp;
  ce_listing : option (list byte); ce_why : citem -> text }.
(** encoding/gob omits an empty slice; the field then stays nil *)
Definition gob_bytes (l : list byte) : option slice :=
  match l with [] => None | _ => Some (exact_slice l) end.
(** cliMethodsList.go:44-51 *)
Definition item_of_export (x : export) : litem :=
  mkLItem (x_path x) (x_size x) (x_hash x) (bsize_of (x_bits x)) (x_chunk x) (bcount (x_bits x)).
(** cliMethodsList.go:63-70; SizeInBytes is a uint64 converted to int64 *)
Definition item_of_entry (e : lfentry) : litem :=
  mkLItem (e_name e) (int_of_u64 (e_size e)) (e_hash e) (Z.of_N (e_count e)) (Z.of_N (e_chunk e)) (Z.of_N (e_down e)).
Notation served := (server * list dgram * res response)%type.
(** go on with a result, ending the process on a panic and the call on an error *)
Definition on_call {A} (s : server) (ds : list dgram) (r : res A) (k : A -> io served) : io served :=
  match r with Ok a => k a | Err w => Ret (s, ds, Err w) | Panic w => Die w end.
(** cliMethodsShare.go:53-65 Share, cliMethodsClean.go:40-82 Clean,
    cliMethodsList.go:35-76 List, cliMethodsGet.go:19-21 Get, cliMethodsChims.go:53-65
    Chims.  The datagrams that Get sends are not recorded. *)
Definition serve (e : cenv) (s : server) (q : rpcreq) : io served :=
  match q with
  | RqShare p =>
      do! (c, r) := share_file (ce_cwd e) (sv_cat s) p in
      on_call (set_cat s c) [] r (fun r =>
        Ret (set_cat s c, [], Ok (RsItem (mkLItem (r_path r.1) (r_size r.1) (r_hash r.1) (bsize_of (p_bits r.2))
                                            (r_chunk r.1) (bcount (p_bits r.2))))))
  | RqClean =>
      do! (c, r) := clean_index (sv_cat s) (ce_order e) in
      on_call (set_cat s c) [] r (fun l => Ret (set_cat s c, [], Ok (RsClean (map (fun i => (i, ce_why e i)) l))))
  | RqList ip h =>
      match gob_bytes ip with
      | None =>
          do! (c, r) := list_files (sv_cat s) (ce_order e) in
          on_call (set_cat s c) [] r (fun l => Ret (set_cat s c, [], Ok (RsList (map item_of_export l))))
      | Some ip =>
          match to4 ip with
          | None => Die "index out of range"
          | Some addr =>
              match (let! a := sl_index addr 0 in let! b := sl_index addr 1 in
                     let! c := sl_index addr 2 in let! d := sl_index addr 3 in Ok [a; b; c; d]) with
              | Ok ip4 =>
                  let (reqid, s') := generate_request_id s in
                  let ds := [mkDgram ip4 (Z.of_N (u16_of_int (sv_port s))) (serialize (ListReq reqid h))] in
                  on_call s' ds (listing_received (ce_listing e)) (fun l => Ret (s', ds, Ok (RsList (map item_of_entry l))))
              | Err w | Panic w => Die w
              end
          end
      end
  | RqGet h =>
      do! (c, r) := start_download (ce_ifs e) (sv_cat s) h (ce_resps e) (ce_listing e) in
      on_call (set_cat s c) [] r (fun _ => Ret (set_cat s c, [], Ok RsGet))
  | RqChims h =>
      let (reqid, s') := generate_request_id s in
      Ret (s', [mkDgram (replicate 4 xff) (sv_port s) (serialize (DiscReq reqid h []))], Ok (RsChims (ce_resps e)))
  end.

(** ** The client's side *)
(** what Run does with its arguments: send a request, print an explanation and exit
    with a code, or panic *)
Inductive parsed := PSend (q : rpcreq) | PRefuse (code : Z) | PDie.
(** cliClient.go:137-143 validateArgCount; [n]: the number of fields *)
Definition arg_count (n : nat) (args : list text) (k : parsed) : parsed :=
  if decide (n = length args) then k else PRefuse 2.
(** common.Sha1Hash.FromStringSafe followed by validate (cliClient.go:145-151) *)
Definition arg_hash (h : hash) (s : text) (k : hash -> parsed) : parsed :=
  match from_string_safe h s with
  | (h', None) => k h'
  | (_, Some _) => PRefuse 2
  end.
(** cliClient.go:28-126 Run, with the daemon listening *)
Definition client_parse (argv : list text) : parsed :=
  match argv with
  | [] => PRefuse 0
  | cmd :: args =>
      if decide (cmd = str "share") then
        arg_count 1 args
          (match args with p :: _ => PSend (RqShare p) | [] => PDie end)
      else if decide (cmd = str "clean") then arg_count 0 args (PSend RqClean)
      else if decide (cmd = str "list") then
        let blank := hash_blank zero_hash in
        match args with
        | [] => PSend (RqList [] blank)
        | a :: rest =>
            match parse_ip a with
            | None => PRefuse 0
            | Some ip =>
                match rest with
                | [] => PSend (RqList ip blank)
                | x :: _ => arg_hash blank x (fun h => PSend (RqList ip h))
                end
            end
        end
      else if decide (cmd = str "get") then
        match args with
        | [] => PDie
        | x :: _ => arg_hash zero_hash x (fun h => arg_count 1 args (PSend (RqGet h)))
        end
      else if decide (cmd = str "chims") then
        match args with
        | [] => PSend (RqChims (hash_blank zero_hash))
        | x :: _ => arg_hash zero_hash x (fun h => PSend (RqChims h))
        end
      else PRefuse 0
  end.

(** how the client ends: it printed a response, refused the arguments, printed the
    error of the call, panicked, or waits for a daemon that does not answer *)
Inductive cend := Shown (t : text) | Refused (code : Z) | Failed | Crashed | Waits.
(** one run of the client against the daemon [s]: the file system, the daemon
    afterwards ([None]: it is gone), the datagrams it sent, the client's end.
    cliClient.go:128-135 callClientMethodAndPrintResponse; [up]: the dial of line 34
    succeeds.  When the daemon ends, its datagrams are not recorded. *)
Definition session (up : bool) (e : cenv) (s : server) (f : fs) (argv : list text)
  : fs * option server * list dgram * cend :=
  match argv with
  | [] => (f, Some s, [], Refused 0)
  | _ =>
      if up then
        match client_parse argv with
        | PRefuse code => (f, Some s, [], Refused code)
        | PDie => (f, Some s, [], Crashed)
        | PSend q =>
            match run f (serve e s q) with
            | (f', Done (s', ds, Ok r)) =>
                (f', Some s', ds, match response_text r with Ok t => Shown t | _ => Crashed end)
            | (f', Done (s', ds, _)) => (f', Some s', ds, Failed)
            | (f', Died _) => (f', None, [], Failed)
            | (f', Hangs) => (f', Some s, [], Waits)
            end
        end
      else (f, Some s, [], Crashed)
  end.

(** ** main *)
(** package flag of the Go 1.17 library with the one flag of main.go:28 *)
Inductive mode := Daemon | Client (argv : list text) | Exit (code : Z).
(** strconv.ParseBool *)
Definition parse_bool (s : text) : option bool :=
  if bool_decide (s ∈ map str ["1"; "t"; "T"; "true"; "TRUE"; "True"]%string) then Some true
  else if bool_decide (s ∈ map str ["0"; "f"; "F"; "false"; "FALSE"; "False"]%string) then Some false
  else None.
(** flag.go parseOne: name and value split at the first '=' that is not at the start *)
Fixpoint cut_eq (s : text) : text * option text :=
  match s with
  | [] => ([], None)
  | x3d :: s' => ([], Some s')
  | b :: s' => let (n, v) := cut_eq s' in (b :: n, v)
  end.
(** FlagSet.Parse; the result is the value of -d or an exit code *)
Fixpoint flag_parse (args : list text) (d : bool) : Z + bool :=
  match args with
  | [] => inr d
  | s :: rest =>
      match s with
      | x2d :: b :: s1 =>
          let name := if decide (b = x2d) then s1 else b :: s1 in
          if decide (b = x2d /\ s1 = []) then inr d
          else
            match name with
            | [] | x2d :: _ | x3d :: _ => inl 2%Z
            | _ =>
                let (n, v) := cut_eq name in
                if decide (n = str "d") then
                  match v with
                  | None => flag_parse rest true
                  | Some v => match parse_bool v with Some b' => flag_parse rest b' | None => inl 2%Z end
                  end
                else if decide (n = str "help" \/ n = str "h") then inl 0%Z
                else inl 2%Z
            end
      | _ => inr d
      end
  end.
(** main.go:27-45; [argv]: os.Args[1:] *)
Definition main_mode (argv : list text) : mode :=
  match flag_parse argv false with
  | inl code => Exit code
  | inr true => Daemon
  | inr false => Client argv
  end.
