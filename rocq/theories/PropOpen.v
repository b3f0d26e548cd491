(** Properties of opening a catalogue with any index file (C96, C97) and of the index file that is there (C115). *)
From Verif Require Import OpenProofs CatalogueCases.

(** *** C96: an index file is loaded completely or refused, whatever is in it.  It is loaded exactly
    if it is JSON of the right form ([index_text], GrammarSpec.v) and every hash in it is 40 hexadecimal digits; then every entry of the
    file is in the catalogue and nothing else.  Opening does not die and writes nothing. *)
Theorem C96_all_or_nothing :
  forall pid now cwd dir dl f data, is_rooted cwd = true ->
    f !! abs cwd dir = Some NDir -> f !! join2 (abs cwd dir) index_name = Some (NFile data) ->
    exists r, run f (open_cat pid now cwd dir dl) = (f, Done r)
      /\ ((exists c, r = Ok c) <-> exists x, index_text data x /\ sound_index x)
      /\ forall c, r = Ok c -> exists x, index_text data x
           /\ (forall k j, ji_index x !! k = Some j -> exists h, spells k h /\ is_Some (c_index c !! h))
           /\ (forall h r, c_index c !! h = Some r -> exists k j, ji_index x !! k = Some j /\ spells k h /\ tells j r).
Proof. exact C96_lemma. Qed.
Print Assumptions C96_all_or_nothing.
(** two entries, the second under [k] *)
Definition ex_key : list byte := replicate 40 (Nb 97).
Definition quoted (s : list byte) : list byte := [Nb 34] ++ s ++ [Nb 34].
Definition ex_record (name k : list byte) : list byte :=
  bs "{" ++ quoted (bs "FilePath") ++ bs ":" ++ quoted name ++ bs "," ++ quoted (bs "SizeInBytes") ++ bs ":3,"
    ++ quoted (bs "Sha1Hash") ++ bs ":" ++ quoted k ++ bs "," ++ quoted (bs "ChunkSize") ++ bs ":4194304}".
Definition ex_file (k1 k2 h2 : list byte) : list byte :=
  bs "{" ++ quoted (bs "Pid") ++ bs ":1," ++ quoted (bs "LastTouched") ++ bs ":2," ++ quoted (bs "Index") ++ bs ":{"
    ++ quoted k1 ++ bs ":" ++ ex_record (bs "/a") k1 ++ bs "," ++ quoted k2 ++ bs ":" ++ ex_record (bs "/b") h2
    ++ bs "}," ++ quoted (bs "DataDir") ++ bs ":" ++ quoted (bs "/cat") ++ bs "}".
Definition ex_open (data : list byte) : option (list (hash * (list byte * hash))) :=
  match run (<[bs "/cat/index.json" := NFile data]> ex_f0) (open_cat 1 1 ex_cwd (bs "/cat") ex_dl) with
  | (_, Done (Ok c)) => Some (map (fun hr => (hr.1, (r_path hr.2, r_hash hr.2))) (map_to_list (c_index c)))
  | _ => None
  end.
Definition key_of (n : N) : list byte := replicate 40 (Nb n).
(** both are loaded; with a letter that is not a digit in one of them, neither is *)
Example C96_case :
  match ex_open (ex_file (key_of 97) (key_of 66) (key_of 66)) with
  | Some l => bool_decide (length l = 2) && bool_decide ((replicate 20 (Nb 187), (bs "/b", replicate 20 (Nb 187))) ∈ l)
      && bool_decide ((replicate 20 (Nb 170), (bs "/a", replicate 20 (Nb 170))) ∈ l)
  | None => false
  end = true
  /\ ex_open (ex_file (key_of 97) (key_of 103) (key_of 98)) = None
  /\ ex_open (ex_file (key_of 97) (key_of 98) (key_of 103)) = None.
Proof. split; [|split]; vm_compute; reflexivity. Qed.
(** what an index file does not mention is zero or empty *)
Example C96_empty : index_text (bs "{}") (mkJindex 0 0 ∅ []) /\ ex_open (bs "{}") = Some [] /\ forall x, ~ index_text (bs "") x.
Proof.
  split; [apply json_unmarshal_spec; vm_compute; reflexivity|]. split; [vm_compute; reflexivity|].
  intros x H%json_unmarshal_spec. vm_compute in H. discriminate H.
Qed.
(** names in any case and with letters that fold to them, repeated and unknown members, null, escapes,
    surrogates alone and in pairs, white space *)
Example C96_text : exists x,
  index_text (bs " { ""PID"":-0, ""pid"":12 , ""Pid"":null,""x"":[1.5e3,-0.5,{""a"":true},[],{} ],
      ""laſttouched"" : 7, ""index"":{""k"":null},""Index"":{""a\né"":{""ChunKSIZE"":5,""FilePath"":""\/\uD83D\uDE00\ud800\udc00\udc00.""}},
      ""dataDIR"":""""}") x
  /\ ji_pid x = 12%Z /\ ji_touched x = 7%Z /\ ji_dir x = []
  /\ map_to_list (ji_index x) = [(bs "a" ++ [x0a] ++ bs "é", mkJrec (bs "/😀" ++ encode_rune 65536 ++ encode_rune 65533 ++ bs ".") 0 [] 5);
       (bs "k", mkJrec [] 0 [] 0)].
Proof.
  eexists. split; [apply json_unmarshal_spec; vm_compute; reflexivity|]. repeat (split; [reflexivity|]). vm_compute. reflexivity.
Qed.
(** none of these is an index file: not an integer, too large, a leading zero, a comma too many, a
    string where a number belongs, text behind the value, an unknown escape, a line break in a string *)
Example C96_not_text :
  forall data x, data ∈ [bs "{""Pid"":1.0}"; bs "{""Pid"":9223372036854775808}"; bs "{""Pid"":01}"; bs "{""Pid"":1,}"; bs "{""Pid"":""1""}";
    bs "{}}"; bs "{""\x"":1}"; bs "{""a" ++ [x0a] ++ bs """:1}"; bs "[]"; bs "{""Index"":{""k"":{""SizeInBytes"":1e3}}}"] -> ~ index_text data x.
Proof.
  intros data x Hin H%json_unmarshal_spec. rewrite !elem_of_cons, elem_of_nil in Hin.
  repeat (destruct Hin as [-> |Hin]; [vm_compute in H; discriminate H|]). destruct Hin.
Qed.

(** *** C115: at every moment index.json is JSON that says exactly what is in the catalogue: it can
    be read in one way only, there is an entry for every file and no other, and each has the
    file's path, size, hash and chunk size (paths being valid UTF-8; see C31) ... *)
Theorem C115_says_the_catalogue :
  forall cwd dir dl A c f, reached cwd dir dl A c f -> valid_utf8 dir -> (forall h a, A !! h = Some a -> valid_utf8 (a_path a)) ->
    exists data x, f !! join2 dir index_name = Some (NFile data) /\ index_text data x /\ (forall y, index_text data y -> y = x)
      /\ ji_dir x = dir
      /\ (forall k j, ji_index x !! k = Some j -> exists h a, A !! h = Some a /\ spells k h /\ spells (j_hash j) h
            /\ j_path j = a_path a /\ j_size j = a_size a /\ j_chunk j = a_chunk a)
      /\ (forall h a, A !! h = Some a -> exists k, spells k h /\ is_Some (ji_index x !! k)).
Proof. exact C115_lemma. Qed.
Print Assumptions C115_says_the_catalogue.
(** ... and if its end is missing, it is not taken for the index of another catalogue *)
Theorem C115_cut_off :
  forall cwd dir dl A c f p s data, reached cwd dir dl A c f -> f !! join2 dir index_name = Some (NFile data) ->
    data = p ++ s -> s <> [] -> forall y, ~ index_text p y.
Proof. exact C115_cut_lemma. Qed.
Print Assumptions C115_cut_off.
(** the state with a shared file and a half-finished download *)
Example C115_case :
  reached ex_cwd ex_dir ex_dl (<[hnew := hold entry_new 1]> A2) ex3.1.1 ex3.1.2
  /\ match ex3.1.2 !! bs "/cat/index.json" with
     | Some (NFile data) => match json_unmarshal data with
         | Some x => bool_decide (j_path <$> ji_index x !! hash_string habc = Some (bs "/a")) && bool_decide (is_Some (ji_index x !! hash_string hnew))
                       && bool_decide (size (ji_index x) = 2)
         | None => false end
     | _ => false end = true.
Proof. split; [exact ex3_reached|]. vm_compute. reflexivity. Qed.

(** the bytes of an index file with two entries: they are in the order of their hashes *)
Example C115_bytes :
  json_marshal (mkJindex 7 9 {[bs "bb" := mkJrec (bs "/b") 2 (bs "bb") 16; bs "aa" := mkJrec (bs "/a") 1 (bs "aa") 16]} (bs "/d"))
  = bs "{""Pid"":7,""LastTouched"":9,""Index"":{""aa"":{""FilePath"":""/a"",""SizeInBytes"":1,""Sha1Hash"":""aa"",""ChunkSize"":16},""bb"":{""FilePath"":""/b"",""SizeInBytes"":2,""Sha1Hash"":""bb"",""ChunkSize"":16}},""DataDir"":""/d""}".
Proof. vm_compute. reflexivity. Qed.

(** *** C97: what the catalogue has under a hash is the record of that hash.  So it is with index
    files that the program has written ... *)
Theorem C97_filed_partial :
  forall cwd dir dl A c f h r, reached cwd dir dl A c f -> c_index c !! h = Some r -> r_hash r = h.
Proof. exact C97_lemma. Qed.
Print Assumptions C97_filed_partial.
(** ... but an index file that has been tampered with can file a record under another
    hash, and is accepted; peers that ask for the one hash are then told about the other. *)
Theorem C97_misfiled_refuted :
  exists data c h r, run (<[bs "/cat/index.json" := NFile data]> ex_f0) (open_cat 1 1 ex_cwd (bs "/cat") ex_dl)
      = (<[bs "/cat/index.json" := NFile data]> ex_f0, Done (Ok c)) /\ c_index c !! h = Some r /\ r_hash r <> h.
Proof.
  exists (ex_file (key_of 97) (key_of 98) (key_of 99)).
  destruct (C96_lemma 1 1 ex_cwd (bs "/cat") ex_dl (<[bs "/cat/index.json" := NFile (ex_file (key_of 97) (key_of 98) (key_of 99))]> ex_f0)
    (ex_file (key_of 97) (key_of 98) (key_of 99))) as (r & Hr & _).
  1-3: vm_compute; reflexivity.
  assert (E : match r with Ok c => match c_index c !! replicate 20 (Nb 187) with Some r => bool_decide (r_hash r = replicate 20 (Nb 204)) | None => false end | _ => false end = true).
  { assert (E : match run (<[bs "/cat/index.json" := NFile (ex_file (key_of 97) (key_of 98) (key_of 99))]> ex_f0) (open_cat 1 1 ex_cwd (bs "/cat") ex_dl) with
      | (_, Done (Ok c)) => match c_index c !! replicate 20 (Nb 187) with Some r => bool_decide (r_hash r = replicate 20 (Nb 204)) | None => false end
      | _ => false end = true) by (vm_compute; reflexivity).
    rewrite Hr in E. destruct r; done. }
  destruct r as [c|e|e]; [|done..]. destruct (c_index c !! replicate 20 (Nb 187)) as [r|] eqn:Er; [|done].
  apply bool_decide_eq_true in E. exists c, (replicate 20 (Nb 187)), r. split; [done|]. split; [done|]. rewrite E. vm_compute. discriminate.
Qed.
Print Assumptions C97_misfiled_refuted.
(** a catalogue with two entries *)
Example C97_case : Forall (fun h => match c_index ex3.1.1 !! h with Some r => bool_decide (r_hash r = h) | None => false end = true) [habc; hnew].
Proof. repeat constructor; vm_compute; reflexivity. Qed.
