(** Model of encoding/json (Go 1.17) as far as the catalogue uses it
    (catalogue/indexFile.go:77-91 save, 110-124 MarshalJSON, 128-156 UnmarshalJSON,
    179-184 indexFileJSON; catalogue/indexRecord.go:145-150 indexRecordJSON):
    marshalling of structs of ints, strings and a string-keyed map, and
    unmarshalling of arbitrary input into them.
    Simplification: Go rejects input nested deeper than 10000 levels; the model
    has no such limit. *)
From Verif Require Export GoBase Utf8 Hash.

Notation quote_b := x22.
Notation bslash := x5c.
Definition hexd (n : N) : byte := hex_digit n.

(** ** Strings *)
(** encoding/json htmlSafeSet: printable ASCII except double quote, & < > and backslash (0x7f
    counts as printable) *)
Definition html_safe (b : byte) : bool :=
  in_range 32 127 b && negb (bool_decide (b ∈ [quote_b; x26; x3c; x3e; bslash])).
(** encodeState.string: one rune or invalid byte *)
Definition esc_token (t : bool * list byte) : list byte :=
  match t with
  | (true, [b]) =>
      if html_safe b then [b]
      else if bool_decide (b = quote_b \/ b = bslash) then [bslash; b]
      else if bool_decide (b = x0a) then [bslash; x6e]
      else if bool_decide (b = x0d) then [bslash; x72]
      else if bool_decide (b = x09) then [bslash; x74]
      else [bslash; x75; x30; x30; hexd (bN b / 16); hexd (bN b mod 16)]
  | (true, bs) =>
      if bool_decide (bs = [xe2; x80; xa8]) then [bslash; x75; x32; x30; x32; x38]
      else if bool_decide (bs = [xe2; x80; xa9]) then [bslash; x75; x32; x30; x32; x39]
      else bs
  | (false, _) => [bslash; x75; x66; x66; x66; x64]
  end.
Definition escape (s : list byte) : list byte := concat (map esc_token (tokens s)).
Definition print_string (s : list byte) : list byte := quote_b :: escape s ++ [quote_b].

(** the scanner's string states: from just after the opening quote to the closing
    quote; result: the raw text between the quotes and what follows *)
Inductive lstate := LNormal | LEsc | LHex (k : nat).
Definition raw_cons (b : byte) (r : option (list byte * list byte)) : option (list byte * list byte) :=
  match r with Some (raw, rest) => Some (b :: raw, rest) | None => None end.
Fixpoint lex_string (st : lstate) (s : list byte) : option (list byte * list byte) :=
  match s with
  | [] => None
  | b :: r =>
      match st with
      | LNormal =>
          if bool_decide (b = quote_b) then Some ([], r)
          else if bool_decide (b = bslash) then raw_cons b (lex_string LEsc r)
          else if in_range 0 31 b then None
          else raw_cons b (lex_string LNormal r)
      | LEsc =>
          if bool_decide (b ∈ [x62; x66; x6e; x72; x74; bslash; x2f; quote_b]) then raw_cons b (lex_string LNormal r)
          else if bool_decide (b = x75) then raw_cons b (lex_string (LHex 3) r)
          else None
      | LHex k =>
          match from_hex_char b with
          | None => None
          | Some _ => raw_cons b (lex_string (match k with O => LNormal | S k' => LHex k' end) r)
          end
      end
  end.

(** getu4: four hex digits *)
Definition hex4 (a b c d : byte) : option N :=
  match from_hex_char a, from_hex_char b, from_hex_char c, from_hex_char d with
  | Some x, Some y, Some z, Some w => Some (((x * 16 + y) * 16 + z) * 16 + w)%N
  | _, _, _, _ => None
  end.
Definition getu4 (s : list byte) : option N :=
  match s with
  | p :: u :: a :: b :: c :: d :: _ =>
      if bool_decide (p = bslash /\ u = x75) then hex4 a b c d else None
  | _ => None
  end.
(** unquoteBytes on the text between the quotes (which the scanner has accepted);
    [n] bounds the iterations *)
Fixpoint unquote_n (n : nat) (s : list byte) : list byte :=
  match n with
  | O => []
  | S n' =>
      match s with
      | [] => []
      | b :: s1 =>
          if bool_decide (b = bslash) then
            match s1 with
            | [] => []
            | c :: s2 =>
                if bool_decide (c = x75) then
                  match getu4 s with
                  | None => []
                  | Some rr =>
                      if ((55296 <=? rr) && (rr <? 57344))%N then
                        match getu4 (drop 6 s) with
                        | Some r2 =>
                            if ((rr <? 56320) && (56320 <=? r2) && (r2 <? 57344))%N
                            then encode_rune ((rr - 55296) * 1024 + (r2 - 56320) + 65536) ++ unquote_n n' (drop 12 s)
                            else fffd ++ unquote_n n' (drop 6 s)
                        | None => fffd ++ unquote_n n' (drop 6 s)
                        end
                      else encode_rune rr ++ unquote_n n' (drop 6 s)
                  end
                else
                  (if bool_decide (c = x62) then x08 else
                   if bool_decide (c = x66) then x0c else
                   if bool_decide (c = x6e) then x0a else
                   if bool_decide (c = x72) then x0d else
                   if bool_decide (c = x74) then x09 else c) :: unquote_n n' s2
            end
          else
            match rune_len s with
            | O => fffd ++ unquote_n n' s1
            | S k => take (S k) s ++ unquote_n n' (drop (S k) s)
            end
      end
  end.
Definition unquote (s : list byte) : list byte := unquote_n (length s) s.

(** ** Numbers *)
Definition digit (n : N) : byte := Nb (48 + n).
Definition is_digit (b : byte) : bool := in_range 48 57 b.
(** strconv.AppendUint base 10 *)
Fixpoint dec_n (fuel : nat) (n : N) : list byte :=
  match fuel with
  | O => []
  | S f => if (n <? 10)%N then [digit n] else dec_n f (n / 10) ++ [digit (n mod 10)]
  end.
Definition print_nat (n : N) : list byte := dec_n (S (N.to_nat (N.size n))) n.
(** strconv.AppendInt base 10 *)
Definition print_int (z : Z) : list byte :=
  if (z <? 0)%Z then x2d :: print_nat (Z.to_N (- z)) else print_nat (Z.to_N z).

Fixpoint span_digits (s : list byte) : list byte * list byte :=
  match s with
  | b :: r => if is_digit b then let '(d, r') := span_digits r in (b :: d, r') else ([], s)
  | [] => ([], [])
  end.
(** the scanner's number states *)
Definition lex_frac (s : list byte) : option (list byte * list byte) :=
  match s with
  | x2e :: r => match span_digits r with
                | ([], _) => None
                | (d, r') => Some (x2e :: d, r')
                end
  | _ => Some ([], s)
  end.
Definition lex_exp (s : list byte) : option (list byte * list byte) :=
  match s with
  | (x65 | x45) as e :: r =>
      let '(sg, r1) := match r with
                       | (x2b | x2d) as c :: r1 => ([c], r1)
                       | _ => ([], r)
                       end in
      match span_digits r1 with
      | ([], _) => None
      | (d, r') => Some (e :: sg ++ d, r')
      end
  | _ => Some ([], s)
  end.
Definition lex_number (s : list byte) : option (list byte * list byte) :=
  let '(sg, s1) := match s with
                   | x2d :: r => ([x2d], r)
                   | _ => ([], s)
                   end in
  match s1 with
  | [] => None
  | b :: r =>
      let int_part := if bool_decide (b = x30) then Some ([x30], r)
                      else if is_digit b then Some (span_digits s1) else None in
      match int_part with
      | None => None
      | Some (ip, s2) =>
          match lex_frac s2 with
          | None => None
          | Some (fp, s3) =>
              match lex_exp s3 with
              | None => None
              | Some (ep, s4) => Some (sg ++ ip ++ fp ++ ep, s4)
              end
          end
      end
  end.
(** strconv.ParseInt(s, 10, 64) on a number literal *)
Definition digits_value (d : list byte) : N := foldl (fun acc b => acc * 10 + (bN b - 48))%N 0%N d.
Definition parse_int (lit : list byte) : option Z :=
  let '(neg, d) := match lit with x2d :: r => (true, r) | _ => (false, lit) end in
  if forallb is_digit d && negb (bool_decide (d = [])) then
    let v := if neg : bool then (- Z.of_N (digits_value d))%Z else Z.of_N (digits_value d) in
    if ((-9223372036854775808 <=? v) && (v <? 9223372036854775808))%Z then Some v else None
  else None.

(** ** Values *)
Inductive json :=
| JNull
| JBool (b : bool)
| JNum (lit : list byte)
| JStr (s : list byte)
| JArr (vs : list json)
| JObj (ms : list (list byte * json)).

(** json.Marshal's layout (no spaces) *)
Fixpoint print_json (v : json) : list byte :=
  match v with
  | JNull => [x6e; x75; x6c; x6c]
  | JBool true => [x74; x72; x75; x65]
  | JBool false => [x66; x61; x6c; x73; x65]
  | JNum lit => lit
  | JStr s => print_string s
  | JArr vs =>
      x5b :: (fix go l := match l with
                          | [] => []
                          | [v] => print_json v
                          | v :: l' => print_json v ++ x2c :: go l'
                          end) vs ++ [x5d]
  | JObj ms =>
      x7b :: (fix go (l : list (list byte * json)) := match l with
                          | [] => []
                          | [(k, v)] => print_string k ++ x3a :: print_json v
                          | (k, v) :: l' => print_string k ++ x3a :: print_json v ++ x2c :: go l'
                          end) ms ++ [x7d]
  end.

Definition is_ws (b : byte) : bool := bool_decide (b ∈ [x20; x09; x0d; x0a]).
Fixpoint skip_ws (s : list byte) : list byte :=
  match s with b :: r => if is_ws b then skip_ws r else s | [] => [] end.
Definition strip (p s : list byte) : option (list byte) :=
  if bool_decide (take (length p) s = p) then Some (drop (length p) s) else None.

(** the given character after white space *)
Definition expect (c : byte) (s : list byte) : option (list byte) :=
  match skip_ws s with
  | b :: r => if bool_decide (b = c) then Some r else None
  | [] => None
  end.

(** The scanner and decoder: a value at the start of the text and what follows.
    [n] bounds the nesting and the number of elements; more than twice the length of
    the text always suffices (parse_fuel in JsonProofs.v). *)
Fixpoint parse_value (n : nat) (s : list byte) : option (json * list byte) :=
  match n with
  | O => None
  | S n' =>
      match skip_ws s with
      | [] => None
      | b :: r =>
          if bool_decide (b = x7b) then
            match expect x7d r with
            | Some r' => Some (JObj [], r')
            | None => match parse_members n' r with
                   | Some (ms, r') => Some (JObj ms, r')
                   | None => None
                   end
            end
          else if bool_decide (b = x5b) then
            match expect x5d r with
            | Some r' => Some (JArr [], r')
            | None => match parse_elems n' r with
                   | Some (vs, r') => Some (JArr vs, r')
                   | None => None
                   end
            end
          else if bool_decide (b = quote_b) then
            match lex_string LNormal r with
            | Some (raw, r') => Some (JStr (unquote raw), r')
            | None => None
            end
          else if bool_decide (b = x74) then
            match strip [x74; x72; x75; x65] (b :: r) with Some r' => Some (JBool true, r') | None => None end
          else if bool_decide (b = x66) then
            match strip [x66; x61; x6c; x73; x65] (b :: r) with Some r' => Some (JBool false, r') | None => None end
          else if bool_decide (b = x6e) then
            match strip [x6e; x75; x6c; x6c] (b :: r) with Some r' => Some (JNull, r') | None => None end
          else
            match lex_number (b :: r) with Some (lit, r') => Some (JNum lit, r') | None => None end
      end
  end
with parse_members (n : nat) (s : list byte) : option (list (list byte * json) * list byte) :=
  match n with
  | O => None
  | S n' =>
      match skip_ws s with
      | b :: r =>
          if bool_decide (b = quote_b) then
            match lex_string LNormal r with
            | None => None
            | Some (raw, r1) =>
                match expect x3a r1 with
                | Some r2 =>
                    match parse_value n' r2 with
                    | None => None
                    | Some (v, r3) =>
                        match expect x2c r3 with
                        | Some r4 =>
                            match parse_members n' r4 with
                            | Some (ms, r5) => Some ((unquote raw, v) :: ms, r5)
                            | None => None
                            end
                        | None =>
                            match expect x7d r3 with
                            | Some r4 => Some ([(unquote raw, v)], r4)
                            | None => None
                            end
                        end
                    end
                | None => None
                end
            end
          else None
      | [] => None
      end
  end
with parse_elems (n : nat) (s : list byte) : option (list json * list byte) :=
  match n with
  | O => None
  | S n' =>
      match parse_value n' s with
      | None => None
      | Some (v, r3) =>
          match expect x2c r3 with
          | Some r4 =>
              match parse_elems n' r4 with
              | Some (vs, r5) => Some (v :: vs, r5)
              | None => None
              end
          | None =>
              match expect x5d r3 with
              | Some r4 => Some ([v], r4)
              | None => None
              end
          end
      end
  end.
(** checkValid: one value surrounded by white space *)
Definition parse_doc (s : list byte) : option json :=
  match parse_value (S (2 * length s)) s with
  | Some (v, r) => if bool_decide (skip_ws r = []) then Some v else None
  | None => None
  end.

(** ** Decoding into the structs.  [None]: a saved UnmarshalTypeError, which
    UnmarshalJSON returns before using anything that was decoded. *)
(** encoding/json foldFunc/equalFold: ASCII case is ignored, U+017F counts as s and
    U+212A as k; the eight field names are pairwise different under it *)
Fixpoint fold_key (k : list byte) : list byte :=
  match k with
  | xc5 :: xbf :: k' => x73 :: fold_key k'
  | xe2 :: x84 :: xaa :: k' => x6b :: fold_key k'
  | b :: k' => (if in_range 65 90 b then Nb (bN b + 32) else b) :: fold_key k'
  | [] => []
  end.
Definition key_is (k : list byte) (name : string) : bool :=
  bool_decide (fold_key k = fold_key (String.list_byte_of_string name)).
(** a field name as bytes *)
Definition name_bytes (name : string) : list byte := String.list_byte_of_string name.

Definition dec_int (old : Z) (v : json) : option Z :=
  match v with JNull => Some old | JNum lit => parse_int lit | _ => None end.
Definition dec_str (old : list byte) (v : json) : option (list byte) :=
  match v with JNull => Some old | JStr s => Some s | _ => None end.

(** indexRecord.go:145-150 indexRecordJSON *)
Record jrec := mkJrec { j_path : list byte; j_size : Z; j_hash : list byte; j_chunk : Z }.
Definition jrec_zero : jrec := mkJrec [] 0 [] 0.
(** indexFile.go:179-184 indexFileJSON *)
Record jindex := mkJindex {
  ji_pid : Z; ji_touched : Z; ji_index : gmap (list byte) jrec; ji_dir : list byte }.
Definition jindex_zero : jindex := mkJindex 0 0 ∅ [].

Definition dec_rec_field (r : jrec) (kv : list byte * json) : option jrec :=
  let '(k, v) := kv in
  if key_is k "FilePath" then
    match dec_str (j_path r) v with Some x => Some (mkJrec x (j_size r) (j_hash r) (j_chunk r)) | None => None end
  else if key_is k "SizeInBytes" then
    match dec_int (j_size r) v with Some x => Some (mkJrec (j_path r) x (j_hash r) (j_chunk r)) | None => None end
  else if key_is k "Sha1Hash" then
    match dec_str (j_hash r) v with Some x => Some (mkJrec (j_path r) (j_size r) x (j_chunk r)) | None => None end
  else if key_is k "ChunkSize" then
    match dec_int (j_chunk r) v with Some x => Some (mkJrec (j_path r) (j_size r) (j_hash r) x) | None => None end
  else Some r.
Fixpoint fold_opt {A B} (f : A -> B -> option A) (a : A) (l : list B) : option A :=
  match l with
  | [] => Some a
  | b :: l' => match f a b with Some a' => fold_opt f a' l' | None => None end
  end.
Definition dec_rec (v : json) : option jrec :=
  match v with JNull => Some jrec_zero | JObj ms => fold_opt dec_rec_field jrec_zero ms | _ => None end.
Definition dec_map (old : gmap (list byte) jrec) (v : json) : option (gmap (list byte) jrec) :=
  match v with
  | JNull => Some ∅
  | JObj ms => fold_opt (fun m (kv : list byte * json) =>
                 match dec_rec kv.2 with Some r => Some (<[kv.1 := r]> m) | None => None end) old ms
  | _ => None
  end.
Definition dec_index_field (x : jindex) (kv : list byte * json) : option jindex :=
  let '(k, v) := kv in
  if key_is k "Pid" then
    match dec_int (ji_pid x) v with Some y => Some (mkJindex y (ji_touched x) (ji_index x) (ji_dir x)) | None => None end
  else if key_is k "LastTouched" then
    match dec_int (ji_touched x) v with Some y => Some (mkJindex (ji_pid x) y (ji_index x) (ji_dir x)) | None => None end
  else if key_is k "Index" then
    match dec_map (ji_index x) v with Some y => Some (mkJindex (ji_pid x) (ji_touched x) y (ji_dir x)) | None => None end
  else if key_is k "DataDir" then
    match dec_str (ji_dir x) v with Some y => Some (mkJindex (ji_pid x) (ji_touched x) (ji_index x) y) | None => None end
  else Some x.
Definition dec_index (v : json) : option jindex :=
  match v with JNull => Some jindex_zero | JObj ms => fold_opt dec_index_field jindex_zero ms | _ => None end.
(** json.Unmarshal(data, &intermediary) (indexFile.go:130) *)
Definition json_unmarshal (data : list byte) : option jindex :=
  match parse_doc data with Some v => dec_index v | None => None end.

(** ** Encoding the structs (json.Marshal(intermediary), indexFile.go:123) *)
Definition rec_json (r : jrec) : json :=
  JObj [(name_bytes "FilePath", JStr (j_path r)); (name_bytes "SizeInBytes", JNum (print_int (j_size r)));
        (name_bytes "Sha1Hash", JStr (j_hash r)); (name_bytes "ChunkSize", JNum (print_int (j_chunk r)))].
(** map entries are sorted by key *)
Fixpoint bytes_le (a b : list byte) : bool :=
  match a, b with
  | [], _ => true
  | _ :: _, [] => false
  | x :: a', y :: b' => if (bN x <? bN y)%N then true else if (bN y <? bN x)%N then false else bytes_le a' b'
  end.
Fixpoint insert_sorted {A} (kv : list byte * A) (l : list (list byte * A)) : list (list byte * A) :=
  match l with
  | [] => [kv]
  | kv' :: l' => if bytes_le kv.1 kv'.1 then kv :: l else kv' :: insert_sorted kv l'
  end.
Definition sort_keys {A} (l : list (list byte * A)) : list (list byte * A) := foldr insert_sorted [] l.
Definition index_json (x : jindex) : json :=
  JObj [(name_bytes "Pid", JNum (print_int (ji_pid x)));
        (name_bytes "LastTouched", JNum (print_int (ji_touched x)));
        (name_bytes "Index", JObj (map (fun kv : list byte * jrec => (kv.1, rec_json kv.2))
                                     (sort_keys (map_to_list (ji_index x)))));
        (name_bytes "DataDir", JStr (ji_dir x))].
Definition json_marshal (x : jindex) : list byte := print_json (index_json x).
