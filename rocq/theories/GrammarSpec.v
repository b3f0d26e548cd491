(** Specification of JSON texts (RFC 8259) and of what an index file says.  Of the model only
    the types of values ([json], [jrec], [jindex]) and the encoding of code points are used. *)
From Verif Require Export Json.

(** ** Strings *)
(** [hex_value c n]: the hexadecimal digit [c] stands for [n] *)
Definition hex_value (c : byte) (n : N) : Prop :=
  (48 <= bN c <= 57 /\ n = bN c - 48 \/ 97 <= bN c <= 102 /\ n = bN c - 87 \/ 65 <= bN c <= 70 /\ n = bN c - 55)%N.
(** [u_escape u e]: [e] is a backslash, a u and the four digits of [u] *)
Definition u_escape (u : N) (e : list byte) : Prop :=
  exists a b c d x y z w, e = [x5c; x75; a; b; c; d] /\ hex_value a x /\ hex_value b y /\ hex_value c z /\ hex_value d w
    /\ u = (x * 4096 + y * 256 + z * 16 + w)%N.
(** the surrogates, which stand for a code point only in pairs *)
Definition high (u : N) : Prop := (55296 <= u < 56320)%N.
Definition low (u : N) : Prop := (56320 <= u < 57344)%N.
Definition short_escapes : list (byte * byte) :=
  [(x22, x22); (x5c, x5c); (x2f, x2f); (x62, x08); (x66, x0c); (x6e, x0a); (x72, x0d); (x74, x09)].
(** [chars t v]: [t] can stand between quotes and means the text [v].  What is not UTF-8 and
    surrogates that are not paired mean U+FFFD. *)
Inductive chars : list byte -> list byte -> Prop :=
| ch_end : chars [] []
| ch_rune r t v : scalar r -> (32 <= r)%N -> r <> 34%N -> r <> 92%N -> chars t v -> chars (encode_rune r ++ t) (encode_rune r ++ v)
| ch_broken b t v : (forall r u, scalar r -> b :: t <> encode_rune r ++ u) -> chars t v -> chars (b :: t) (encode_rune 65533 ++ v)
| ch_short c x t v : (c, x) ∈ short_escapes -> chars t v -> chars (x5c :: c :: t) (x :: v)
| ch_unicode e u t v : u_escape u e -> ~ high u -> ~ low u -> chars t v -> chars (e ++ t) (encode_rune u ++ v)
| ch_pair e1 u1 e2 u2 t v : u_escape u1 e1 -> high u1 -> u_escape u2 e2 -> low u2 -> chars t v ->
    chars (e1 ++ e2 ++ t) (encode_rune (65536 + (u1 - 55296) * 1024 + (u2 - 56320)) ++ v)
| ch_alone e u t v : u_escape u e -> high u \/ low u -> (high u -> forall e2 u2 t', u_escape u2 e2 -> low u2 -> t <> e2 ++ t') ->
    chars t v -> chars (e ++ t) (encode_rune 65533 ++ v).

(** ** Numbers *)
Definition digits (d : list byte) : Prop := Forall (fun b => 48 <= bN b <= 57)%N d.
Definition number (lit : list byte) : Prop :=
  exists sg ip fp ep, lit = sg ++ ip ++ fp ++ ep
    /\ (sg = [] \/ sg = [x2d])
    /\ (ip = [x30] \/ exists b d, ip = b :: d /\ (49 <= bN b <= 57)%N /\ digits d)
    /\ (fp = [] \/ exists d, fp = x2e :: d /\ digits d /\ d <> [])
    /\ (ep = [] \/ exists e es d, ep = e :: es ++ d /\ (e = x65 \/ e = x45) /\ (es = [] \/ es = [x2b] \/ es = [x2d]) /\ digits d /\ d <> []).
Fixpoint decimal (d : list byte) : N :=
  match d with [] => 0 | b :: d' => (bN b - 48) * 10 ^ N.of_nat (length d') + decimal d' end%N.
(** [whole lit z]: [lit] is the integer [z], which fits into 64 bits *)
Definition whole (lit : list byte) (z : Z) : Prop :=
  (- 2 ^ 63 <= z < 2 ^ 63)%Z /\ exists d, d <> [] /\ digits d
    /\ (lit = d /\ z = Z.of_N (decimal d) \/ lit = x2d :: d /\ z = (- Z.of_N (decimal d))%Z).

(** ** Values *)
Definition blanks (s : list byte) : Prop := Forall (fun b => b = x20 \/ b = x09 \/ b = x0a \/ b = x0d) s.
Inductive value : json -> list byte -> Prop :=
| v_null : value JNull [x6e; x75; x6c; x6c]
| v_true : value (JBool true) [x74; x72; x75; x65]
| v_false : value (JBool false) [x66; x61; x6c; x73; x65]
| v_number lit : number lit -> value (JNum lit) lit
| v_string t v : chars t v -> value (JStr v) ([x22] ++ t ++ [x22])
| v_empty_array w : blanks w -> value (JArr []) ([x5b] ++ w ++ [x5d])
| v_array vs s : elems vs s -> value (JArr vs) ([x5b] ++ s ++ [x5d])
| v_empty_object w : blanks w -> value (JObj []) ([x7b] ++ w ++ [x7d])
| v_object ms s : members ms s -> value (JObj ms) ([x7b] ++ s ++ [x7d])
with element : json -> list byte -> Prop :=
| e_value v w1 s w2 : blanks w1 -> value v s -> blanks w2 -> element v (w1 ++ s ++ w2)
with elems : list json -> list byte -> Prop :=
| es_last v s : element v s -> elems [v] s
| es_more v s vs s' : element v s -> elems vs s' -> elems (v :: vs) (s ++ [x2c] ++ s')
with members : list (list byte * json) -> list byte -> Prop :=
| ms_last w1 t k w2 v s : blanks w1 -> chars t k -> blanks w2 -> element v s ->
    members [(k, v)] (w1 ++ [x22] ++ t ++ [x22] ++ w2 ++ [x3a] ++ s)
| ms_more w1 t k w2 v s ms s' : blanks w1 -> chars t k -> blanks w2 -> element v s -> members ms s' ->
    members ((k, v) :: ms) (w1 ++ [x22] ++ t ++ [x22] ++ w2 ++ [x3a] ++ s ++ [x2c] ++ s').

(** ** What an index file says *)
(** a letter in either case; U+017F counts as an s, U+212A as a k *)
Definition letter (p : list byte) (c : byte) : Prop :=
  p = [c]
  \/ (exists c', p = [c'] /\ (65 <= bN c <= 90 /\ bN c' = bN c + 32 \/ 97 <= bN c <= 122 /\ bN c = bN c' + 32)%N)
  \/ (c = x73 \/ c = x53) /\ p = [xc5; xbf]
  \/ (c = x6b \/ c = x4b) /\ p = [xe2; x84; xaa].
Definition same_name (k : list byte) (name : string) : Prop :=
  exists ps, k = concat ps /\ Forall2 letter ps (String.list_byte_of_string name).
(** [field P name z0 ms z]: the field [name] of an object with the members [ms] is [z]: the last
    member with that name that is not null counts; [z0] if there is none.  Each of them must be
    of the right type. *)
Inductive field {A} (P : json -> A -> Prop) (name : string) (z0 : A) : list (list byte * json) -> A -> Prop :=
| fi_none : field P name z0 [] z0
| fi_other ms k v z : field P name z0 ms z -> ~ same_name k name -> field P name z0 (ms ++ [(k, v)]) z
| fi_null ms k z : field P name z0 ms z -> same_name k name -> field P name z0 (ms ++ [(k, JNull)]) z
| fi_set ms k v z y : field P name z0 ms z -> same_name k name -> P v y -> field P name z0 (ms ++ [(k, v)]) y.
Definition is_int (v : json) (z : Z) : Prop := exists lit, v = JNum lit /\ whole lit z.
Definition is_text (v : json) (s : list byte) : Prop := v = JStr s.
Definition record_of (v : json) (r : jrec) : Prop :=
  v = JNull /\ r = mkJrec [] 0 [] 0
  \/ exists ms, v = JObj ms /\ field is_text "FilePath" [] ms (j_path r) /\ field is_int "SizeInBytes" 0%Z ms (j_size r)
       /\ field is_text "Sha1Hash" [] ms (j_hash r) /\ field is_int "ChunkSize" 0%Z ms (j_chunk r).
(** the members [es] are added to the table [m]; a later one replaces an earlier one of the same name *)
Inductive adds (m : gmap (list byte) jrec) : list (list byte * json) -> gmap (list byte) jrec -> Prop :=
| en_none : adds m [] m
| en_more es k v r m' : adds m es m' -> record_of v r -> adds m (es ++ [(k, v)]) (<[k := r]> m').
(** the tables in the members called Index together; null empties the table *)
Inductive table : list (list byte * json) -> gmap (list byte) jrec -> Prop :=
| ta_none : table [] ∅
| ta_other ms k v m : table ms m -> ~ same_name k "Index" -> table (ms ++ [(k, v)]) m
| ta_null ms k m : table ms m -> same_name k "Index" -> table (ms ++ [(k, JNull)]) ∅
| ta_more ms k es m m' : table ms m -> same_name k "Index" -> adds m es m' -> table (ms ++ [(k, JObj es)]) m'.
Definition index_of (v : json) (x : jindex) : Prop :=
  v = JNull /\ x = mkJindex 0 0 ∅ []
  \/ exists ms, v = JObj ms /\ field is_int "Pid" 0%Z ms (ji_pid x) /\ field is_int "LastTouched" 0%Z ms (ji_touched x)
       /\ table ms (ji_index x) /\ field is_text "DataDir" [] ms (ji_dir x).
(** the text [data] is JSON and says [x] *)
Definition index_text (data : list byte) (x : jindex) : Prop := exists v, element v data /\ index_of v x.
