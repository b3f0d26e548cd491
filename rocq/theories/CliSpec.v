(** Specification vocabulary for the command line. *)
From Verif Require Export Cli NetIPSpec CleanSpec.

(** 40 hexadecimal digits that denote the 20 bytes of [h] *)
Definition hash_text (s : text) (h : hash) : Prop :=
  length s = 40 /\ length h = 20 /\ numeral 16 0 s = Some (unbe h).
(** IPv4 addresses, and addresses of that form among the 16-byte ones *)
Definition mapped (q : list byte) : list byte := replicate 10 x00 ++ [xff; xff] ++ q.
Definition address (s ip : list byte) : Prop := (exists q, dotted s q /\ ip = mapped q) \/ v6_text s ip.
(** the usage of each command, as documented in cliClient.go
    (which also mentions a second argument of get that does not exist) *)
Inductive asks : list text -> rpcreq -> Prop :=
| ask_share p : asks [str "share"; p] (RqShare p)
| ask_clean : asks [str "clean"] RqClean
| ask_list : asks [str "list"] (RqList [] (replicate 20 xff))
| ask_list_host a ip : address a ip -> asks [str "list"; a] (RqList ip (replicate 20 xff))
| ask_list_file a ip x h : address a ip -> hash_text x h -> asks [str "list"; a; x] (RqList ip h)
| ask_get x h : hash_text x h -> asks [str "get"; x] (RqGet h)
| ask_chims : asks [str "chims"] (RqChims (replicate 20 xff))
| ask_chims_file x h : hash_text x h -> asks [str "chims"; x] (RqChims h).
(** arguments after the last one that the command knows *)
Definition too_many (argv : list text) : Prop :=
  match argv with
  | cmd :: args => cmd = str "list" /\ 2 < length args \/ cmd = str "chims" /\ 1 < length args
  | [] => False
  end.

(** [refused_with code argv]: with these arguments the program explains itself and exits with [code]:
    0 if there is no such command or no such address, 2 if the number of arguments is
    wrong or a hash is not one *)
Inductive refused_with : Z -> list text -> Prop :=
| rw_nothing : refused_with 0 []
| rw_unknown cmd args : Forall (fun c => cmd <> str c) ["share"; "clean"; "list"; "get"; "chims"] -> refused_with 0 (cmd :: args)
| rw_address a rest : (forall ip, ~ address a ip) -> refused_with 0 (str "list" :: a :: rest)
| rw_share args : length args <> 1 -> refused_with 2 (str "share" :: args)
| rw_clean args : args <> [] -> refused_with 2 (str "clean" :: args)
| rw_list a ip x rest : address a ip -> (forall h, ~ hash_text x h) -> refused_with 2 (str "list" :: a :: x :: rest)
| rw_get x rest : (forall h, ~ hash_text x h) \/ rest <> [] -> refused_with 2 (str "get" :: x :: rest)
| rw_chims x rest : (forall h, ~ hash_text x h) -> refused_with 2 (str "chims" :: x :: rest).

(** what should be printed about a file *)
Definition line (name : string) (v : text) : text := tab ++ str name ++ v ++ nl.
Definition dec (z : Z) : text := print_int z.
(** [t] is the decimal notation of [z] (C67 shows it for [dec z]) *)
Definition decimal (t : text) (z : Z) : Prop :=
  exists ds, t = (if (z <? 0)%Z then str "-" else []) ++ ds /\ ds <> []
    /\ Forall (fun b => (48 <= bN b <= 57)%N) ds /\ (head ds = Some x30 -> ds = str "0")
    /\ Z.abs z = foldl (fun v b => v * 10 + (Z.of_N (bN b) - 48))%Z 0%Z ds.
Definition held (a : aentry) : Z := Z.of_nat (size (a_held a)).
Definition percent (done count : Z) : Z := (100 * done / count)%Z.
(** what follows the last slash *)
Fixpoint name_of (p : path) : list byte :=
  match p with
  | [] => []
  | b :: q => if decide (slash ∈ q) then name_of q else if decide (b = slash) then q else p
  end.
Definition file_text (p : path) (sz : Z) (h : hash) (count done chunk : Z) : text :=
  name_of p ++ nl ++ line "Path: " p ++ line "Size (bytes): " (dec sz) ++ line "Sha1 Hash: " (hash_string h)
  ++ line "Chunk Count: " (dec count) ++ line "Chunks Downloaded: " (dec done) ++ line "Chunk Size: " (dec chunk)
  ++ line "Integrity: " (dec (percent done count) ++ str "%").
Definition entry_text (h : hash) (a : aentry) : text :=
  file_text (a_path a) (a_size a) h (a_count a) (held a) (a_chunk a).
Definition listing (A : astate) (order : list hash) : text :=
  concat (map (fun h => match A !! h with Some a => entry_text h a | None => [] end) order).
Definition remote_text (e : lfentry) : text :=
  file_text (e_name e) (Z.of_N (e_size e)) (e_hash e) (Z.of_N (e_count e)) (Z.of_N (e_down e)) (Z.of_N (e_chunk e)).

(** what should be printed about a host *)
Fixpoint ranges (cs : list N) : list (N * N) :=
  match cs with a :: b :: cs' => (a, b) :: ranges cs' | _ => [] end.
Definition ip_text (a : list byte) : text :=
  match a with
  | [a; b; c; d] => dec (Z.of_N (bN a)) ++ str "." ++ dec (Z.of_N (bN b)) ++ str "." ++ dec (Z.of_N (bN c)) ++ str "." ++ dec (Z.of_N (bN d))
  | _ => []
  end.
Definition host_text (r : hostresp) : text :=
  str "IP: " ++ ip_text (h_addr r) ++ str ":" ++ dec (Z.of_N (h_port r)) ++ nl
  ++ concat (map (fun lh => str "  " ++ dec (Z.of_N lh.1) ++ str ":" ++ dec (Z.of_N lh.2) ++ nl) (ranges (h_chunks r))).

(** the words that set the flag of main.go:28, and where the flags end *)
Definition dash : byte := x2d.
Definition truths : list (string * bool) :=
  [("1", true); ("t", true); ("T", true); ("true", true); ("TRUE", true); ("True", true);
   ("0", false); ("f", false); ("F", false); ("false", false); ("FALSE", false); ("False", false)]%string.
Inductive dflag : text -> bool -> Prop :=
| df_plain w : w = str "-d" \/ w = str "--d" -> dflag w true
| df_value w v b : (v, b) ∈ truths -> w = str "-d=" ++ str v \/ w = str "--d=" ++ str v -> dflag w b.
Definition no_flag (w : text) : Prop := w = [dash] \/ forall t, w <> dash :: t.
Definition flags_end (rest : list text) : Prop :=
  match rest with [] => True | w :: _ => no_flag w \/ w = [dash; dash] end.
(** a word that looks like a flag but is not one the program has; asking for help *)
Definition bad_flag (w : text) : Prop := ~ no_flag w /\ w <> [dash; dash] /\ forall b, ~ dflag w b.
Definition help_flag (w : text) : Prop :=
  exists n tl, (n = "h" \/ n = "help")%string /\ (tl = [] \/ exists v, tl = str "=" ++ v)
    /\ (w = str "-" ++ str n ++ tl \/ w = str "--" ++ str n ++ tl).

(** what clean should print about a file; [why]: the reason it cannot be read *)
Definition clean_report (f : fs) (why : text) (h : hash) (a : aentry) : text :=
  a_path a ++ nl ++
  match file_at f (a_path a) with
  | None => str "  - File is missing. Removed from index" ++ nl ++ str "  - " ++ why ++ nl
  | Some l =>
      if decide (complete a) then
        if decide (sha1 l = h) then str "  - Download complete & Hashes match. Ignored" ++ nl
        else str "  - File has changed since indexing. Removed from Index" ++ nl
             ++ str "    Indexed Hash: " ++ hash_string h ++ nl ++ str "    Current Hash: " ++ hash_string (sha1 l) ++ nl
      else str "  - Download in progress. Ignored" ++ nl
  end.
(** the listing of another host's catalogue: names instead of paths *)
Definition shared_text (h : hash) (a : aentry) : text :=
  file_text (name_of (a_path a)) (a_size a) h (a_count a) (held a) (a_chunk a).
(** bytes of the datagram with the listing *)
Definition listing_size (A : astate) (order : list hash) : nat :=
  5 + sum_list (map (fun h => match A !! h with Some a => 41 + length (name_of (a_path a)) | None => 0 end) order).

(** the command lines that ask the host at [a] about the file [h] *)
Definition list_args (a : text) (h : hash) (argv : list text) : Prop :=
  argv = [str "list"; a] /\ h = replicate 20 xff \/ exists x, argv = [str "list"; a; x] /\ hash_text x h.
(** the datagram that should then be sent to the IPv4 address [q] *)
Definition question (s : server) (q : list byte) (h : hash) : dgram :=
  mkDgram q (sv_port s mod 65536) (serialize (ListReq (Z.to_N (sv_reqid s)) h)).
(** the part of an entry that a listing shows *)
Definition seen (a : aentry) : path * Z * Z * Z * Z := (a_path a, a_size a, a_chunk a, a_count a, held a).
