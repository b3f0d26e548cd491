(** Model of catalogue/ (catalogue.go, indexFile.go, indexRecord.go,
    progressFile.go) as programs over the file system.  The daemon's memory is
    the record [cat]; every function returns its new value.  The public methods
    hold Cat.lock for their whole duration (catalogue.go:49,64,90,120,149,194,
    204,215,225,242), so they are atomic with respect to each other; the two that
    do not (Rehash, Contains) are modelled as atomic too, see DESIGN.md. *)
From Verif Require Export IO Bitset Json.

(** catalogue/progressFile.go:15-19 progressFile (without its mutex, which is only
    taken while Cat.lock is held) *)
Record prog := mkProg { p_bits : bitset; p_file : path }.
(** catalogue/indexRecord.go:20-26 indexRecord; the pointer ProgressFile is nil or
    points to a progressFile nobody else points to *)
Record irec := mkRec { r_path : path; r_size : Z; r_hash : hash; r_prog : option prog; r_chunk : Z }.
(** catalogue/catalogue.go:17-22 Cat together with catalogue/indexFile.go:19-27
    indexFile *)
Record cat := mkCat {
  c_dir : path; c_dl : path;
  c_pid : Z; c_touched : Z; c_index : gmap (list byte) irec; c_inddir : path }.
Definition set_index (c : cat) (m : gmap (list byte) irec) : cat :=
  mkCat (c_dir c) (c_dl c) (c_pid c) (c_touched c) m (c_inddir c).
Definition set_prog (r : irec) (p : prog) : irec :=
  mkRec (r_path r) (r_size r) (r_hash r) (Some p) (r_chunk r).
(** catalogue/indexRecord.go:33-39 IndexRecordExport *)
Record export := mkExport { x_path : path; x_size : Z; x_hash : hash; x_bits : bitset; x_chunk : Z }.

(** indexFile.go:14 indexFileName, indexRecord.go:13 defaultChunkSize *)
Definition index_name : list byte := name_bytes "index.json".
Definition default_chunk_size : Z := 4194304.

(** ** indexFile.go *)
(** indexRecord.go:117-124 toJSON *)
Definition rec_to_json (r : irec) : jrec := mkJrec (r_path r) (r_size r) (hash_string (r_hash r)) (r_chunk r).
(** indexFile.go:110-124 MarshalJSON.  (Intermediary.Index is keyed by
    hash.String(); json.Marshal(ind) at line 78 re-validates and compacts this
    output, which changes nothing because it is already compact and escaped.) *)
Definition marshal (c : cat) : list byte :=
  json_marshal (mkJindex (c_pid c) (c_touched c)
    (kmap hash_string (rec_to_json <$> c_index c))
    (c_inddir c)).
(** indexRecord.go:127-141 fromJSON *)
Definition rec_from_json (j : jrec) : res irec :=
  match from_string_safe zero_hash (j_hash j) with
  | (h, None) => Ok (mkRec (j_path j) (j_size j) h None (j_chunk j))
  | (_, Some e) => Err e
  end.
(** indexFile.go:140-151: the loop over the decoded map.  Go iterates in random
    order; the order matters only for a hand-made file in which two keys spell the
    same hash in different case, where the model picks one. *)
Fixpoint load_entries (l : list (list byte * jrec)) (m : gmap (list byte) irec) : res (gmap (list byte) irec) :=
  match l with
  | [] => Ok m
  | (k, j) :: l' =>
      match from_string_safe zero_hash k with
      | (_, Some e) => Err e
      | (h, None) => let! r := rec_from_json j in load_entries l' (<[h := r]> m)
      end
  end.
(** indexFile.go:128-156 UnmarshalJSON: pid, lastTouched, index, dataDir *)
Definition unmarshal (data : list byte) : res (Z * Z * gmap (list byte) irec * path) :=
  match json_unmarshal data with
  | None => Err "json"
  | Some x =>
      let! m := load_entries (map_to_list (ji_index x)) ∅ in
      Ok (ji_pid x, ji_touched x, m, ji_dir x)
  end.
Definition ok_or {A} (r : reply) (a : A) : res A := match r with ROk => Ok a | _ => Err "i/o error" end.
(** indexFile.go:77-91 save *)
Definition save_index (c : cat) : io (res unit) :=
  Do (OWrite (join2 (c_inddir c) index_name) (marshal c)) (fun r => Ret (ok_or r tt)).
(** indexFile.go:95-101 AddIndexRecord: the record stays in memory even when
    saving fails *)
Definition add_record (c : cat) (r : irec) : io (cat * res unit) :=
  match c_index c !! r_hash r with
  | Some _ => Ret (c, Err "identical file already shared")
  | None =>
      let c' := set_index c (<[r_hash r := r]> (c_index c)) in
      do! e := save_index c' in Ret (c', e)
  end.
(** indexFile.go:105-108 RemoveIndexRecord *)
Definition remove_record (c : cat) (r : irec) : io (cat * res unit) :=
  let c' := set_index c (delete (r_hash r) (c_index c)) in
  do! e := save_index c' in Ret (c', e).
(** indexFile.go:31-75 Init with os.Getpid() = pid and time.Now().Unix() = now.
    [c] is a Cat whose index fields are still empty. *)
Definition ind_load (c : cat) : io (res cat) :=
  Do (ORead (join2 (c_dir c) index_name)) (fun r =>
    match r with
    | RData data =>
        match unmarshal data with
        | Ok (pid', t', m, d) => Ret (Ok (mkCat (c_dir c) (c_dl c) pid' t' m d))
        | Err e => Ret (Err e)
        | Panic p => Die p
        end
    | _ => Ret (Err "i/o error")
    end).
Definition ind_init (pid now : Z) (c : cat) : io (res cat) :=
  Do (OMkdirAll (c_dir c)) (fun r =>
  match r with
  | ROk =>
    Do (OStat (c_dir c)) (fun r =>
    match r with
    | RStat true _ =>
      Do (OStat (join2 (c_dir c) index_name)) (fun r =>
      match r with
      | RStat _ _ => ind_load c
      | RFail true =>
          let c' := mkCat (c_dir c) (c_dl c) pid now ∅ (c_dir c) in
          do! e := save_index c' in
          match e with Ok _ => ind_load c' | Err w => Ret (Err w) | Panic w => Die w end
      | _ => Ret (Err "i/o error")
      end)
    | RStat false _ => Ret (Err "DataDir is not a directory")
    | _ => Ret (Err "i/o error")
    end)
  | _ => Ret (Err "i/o error")
  end).
(** catalogue.go:25-41 NewCat (filepath.Abs cannot fail once the working directory
    [cwd] is known) followed by catalogue.go:48-58 Init; main.go:53-55 *)
Definition new_cat (cwd dir dl : path) : cat := mkCat (abs cwd dir) (abs cwd dl) 0 0 ∅ [].
Definition open_cat (pid now : Z) (cwd dir dl : path) : io (res cat) := ind_init pid now (new_cat cwd dir dl).

(** ** progressFile.go *)
(** progressFile.go:88,109: the progress file of a hash *)
Definition prog_path (dir : path) (h : hash) : path := join2 dir (hash_string h).
(** progressFile.go:78-90 newProgressFile *)
Definition new_progress (r : irec) (dir : path) : res prog :=
  let! n := chunk_count (r_size r) (r_chunk r) in
  let! b := new_bitset n in
  Ok (mkProg b (prog_path dir (r_hash r))).
(** progressFile.go:92-101 save *)
Definition save_prog (p : prog) : io (res unit) :=
  Do (OWrite (join1 (p_file p)) (bserialize (p_bits p))) (fun r => Ret (ok_or r tt)).
(** progressFile.go:103-105 delete *)
Definition delete_prog (p : prog) : io (res unit) :=
  Do (ORemove (join1 (p_file p))) (fun r => Ret (ok_or r tt)).
(** progressFile.go:108-126 deserializeProgressFile *)
Definition load_prog (r : irec) (dir : path) : io (res prog) :=
  Do (ORead (prog_path dir (r_hash r))) (fun rep =>
    match rep with
    | RData data => lift (let! b := bdeserialize data in Ok (mkProg b (prog_path dir (r_hash r))))
    | _ => Ret (Err "i/o error")
    end).

(** ** catalogue.go *)
(** catalogue.go:259-268 fill: the record with its progress, stored back (it is a
    pointer shared with the index map, whose key is [k]) *)
Definition fill (c : cat) (k : hash) (r : irec) : io (cat * res (irec * prog)) :=
  match r_prog r with
  | Some p => Ret (c, Ok (r, p))
  | None =>
      do! lp := load_prog r (c_dir c) in
      match lp with
      | Ok p => let r' := set_prog r p in Ret (set_index c (<[k := r']> (c_index c)), Ok (r', p))
      | Err e => Ret (c, Err e)
      | Panic w => Die w
      end
  end.
(** catalogue.go:251-257 getIndexRecord *)
Definition get_record (c : cat) (h : hash) : io (cat * res (irec * prog)) :=
  match c_index c !! h with
  | Some r => fill c h r
  | None => Ret (c, Err "file not found")
  end.
(** indexRecord.go:42-50 export *)
Definition export_of (r : irec) (p : prog) : export :=
  mkExport (r_path r) (r_size r) (r_hash r) (bcopy (p_bits p)) (r_chunk r).

(** utils.go:13-44 HashFile as a whole; [hash_of] is what its read loop computes
    whatever sizes the individual reads return (hash_of_correct in
    CatalogueProofs.v) *)
Definition hash_of (f : fobj) : res hash :=
  match f with FRegular l => Ok (from_slice zero_hash (sha1 l)) | FBroken => Err "read error" end.
Definition hash_path (p : path) : io (res hash) :=
  Do (OOpen p) (fun r => match r with RObj f => Ret (hash_of f) | _ => Ret (Err "i/o error") end).
(** indexRecord.go:90-114 generateIndexRecordForFile; [cwd] is the daemon's
    working directory.  os.Stat of a directory reports some size; hashing a
    directory then fails, so the size is never used. *)
Definition generate_record (cwd p : path) : io (res irec) :=
  let q := abs cwd p in
  Do (OStat q) (fun r =>
    match r with
    | RStat _ size =>
        do! h := hash_path q in
        Ret (let! h := h in Ok (mkRec q size h None default_chunk_size))
    | _ => Ret (Err "i/o error")
    end).

(** run the rest only when the first part returned no error *)
Definition on_ok {A B} (c : cat) (r : res A) (k : A -> io (cat * res B)) : io (cat * res B) :=
  match r with Ok a => k a | Err e => Ret (c, Err e) | Panic w => Die w end.

(** catalogue.go:63-85 ShareFile *)
Definition share_file (cwd : path) (c : cat) (p : path) : io (cat * res (irec * prog)) :=
  do! g := generate_record cwd p in
  on_ok c g (fun r =>
    do! (c1, e) := add_record c r in
    on_ok c1 e (fun _ =>
      match (let! pr := new_progress r (c_dir c1) in let! b := bfill (p_bits pr) in Ok (mkProg b (p_file pr))) with
      | Ok pr =>
          let r' := set_prog r pr in
          let c2 := set_index c1 (<[r_hash r := r']> (c_index c1)) in
          do! e := save_prog pr in
          on_ok c2 e (fun _ => Ret (c2, Ok (r', pr)))
      | Err e => Ret (c1, Err e)
      | Panic w => Die w
      end)).

(** catalogue.go:89-109 UnshareFile *)
Definition unshare_file (c : cat) (h : hash) : io (cat * res unit) :=
  do! (c1, g) := get_record c h in
  on_ok c1 g (fun rp =>
    do! e := delete_prog rp.2 in
    on_ok c1 e (fun _ => remove_record c1 rp.1)).

(** catalogue.go:113-143 RegisterDownload.  The result of saving the progress file
    is dropped (line 137) and [count] is not used. *)
Definition register_download (c : cat) (size count chunk : N) (h : hash) (name : list byte)
  : io (cat * res export) :=
  let r := mkRec (join2 (c_dl c) name) (int_of_u64 size) h None (Z.of_N chunk) in
  do! (c1, e) := add_record c r in
  on_ok c1 e (fun _ =>
    match new_progress r (c_dir c1) with
    | Ok pr =>
        let c2 := set_index c1 (<[h := set_prog r pr]> (c_index c1)) in
        do! _ := save_prog pr in
        Ret (c2, Ok (export_of r pr))
    | Err e => Ret (c1, Err e)
    | Panic w => Die w
    end).

(** catalogue.go:148-166 ListFiles; [order] is the order in which Go happens to
    iterate over the map (a permutation of its keys) *)
Fixpoint list_loop (c : cat) (order : list hash) (acc : list export) : io (cat * res (list export)) :=
  match order with
  | [] => Ret (c, Ok acc)
  | h :: order' =>
      match c_index c !! h with
      | None => list_loop c order' acc
      | Some r =>
          do! (c1, g) := fill c h r in
          on_ok c1 g (fun rp => list_loop c1 order' (acc ++ [export_of rp.1 rp.2]))
      end
  end.
Definition list_files (c : cat) (order : list hash) : io (cat * res (list export)) := list_loop c order [].

(** catalogue.go:170-180 Rehash: the returned hash pointer and error.  The pointer
    is nil when the record is not available and a blank hash when the file is not
    readable. *)
Definition rehash (c : cat) (h : hash) : io (cat * (option hash * option string)) :=
  do! (c1, g) := get_record c h in
  match g with
  | Ok rp =>
      do! r := hash_path (r_path rp.1) in
      Ret (c1, match r with
               | Ok h' => (Some h', None)
               | Err e | Panic e => (Some (hash_blank zero_hash), Some e)
               end)
  | Err e => Ret (c1, (None, Some e))
  | Panic w => Die w
  end.
(** catalogue.go:184-190 Contains *)
Definition contains (c : cat) (h : hash) : io (cat * res export) :=
  do! (c1, g) := get_record c h in
  on_ok c1 g (fun rp => Ret (c1, Ok (export_of rp.1 rp.2))).
(** catalogue.go:193-201 Get: panics on any error *)
Definition cat_get (c : cat) (h : hash) : io (cat * export) :=
  do! (c1, g) := contains c h in
  match g with Ok x => Ret (c1, x) | Err e | Panic e => Die e end.
(** catalogue.go:203-211 FileComplete *)
Definition file_complete (c : cat) (h : hash) : io (cat * bool) :=
  do! (c1, g) := get_record c h in
  match g with
  | Ok rp => match bfull (p_bits rp.2) with Ok b => Ret (c1, b) | Err e | Panic e => Die e end
  | Err e | Panic e => Die e
  end.
(** catalogue.go:214-222 MissingChunks (maxCount is not used) *)
Definition missing_chunks (c : cat) (h : hash) (maxCount : Z) : io (cat * list range) :=
  do! (c1, g) := get_record c h in
  match g with
  | Ok rp => match bunfilled_ranges (p_bits rp.2) with Ok b => Ret (c1, b) | Err e | Panic e => Die e end
  | Err e | Panic e => Die e
  end.
(** indexRecord.go:52-67 saveChunk *)
Definition save_chunk_data (r : irec) (chunk : Z) (data : list byte) : io (res unit) :=
  Do (OWriteAt (r_path r) (wrap64 (chunk * r_chunk r)) data) (fun rep => Ret (ok_or rep tt)).
(** catalogue.go:224-239 SaveChunk *)
Definition save_chunk (c : cat) (h : hash) (chunk : N) (data : list byte) : io (cat * res unit) :=
  do! (c1, g) := get_record c h in
  match g with
  | Ok (r, p) =>
      do! e := save_chunk_data r (Z.of_N chunk) data in
      on_ok c1 e (fun _ =>
        match bset (p_bits p) chunk with
        | Ok b =>
            let p' := mkProg b (p_file p) in
            let c2 := set_index c1 (<[h := set_prog r p']> (c_index c1)) in
            do! e := save_prog p' in Ret (c2, e)
        | Err e | Panic e => Die e
        end)
  | Err e | Panic e => Die e
  end.
(** indexRecord.go:71-88 getChunkReader; [fuel] bounds the hashing loop of
    NewChunkReader.  The result includes the opened file. *)
Definition get_chunk_reader_of (fuel : nat) (r : irec) (p : prog) (chunk : Z) : io (res (fobj * creader)) :=
  match bget (p_bits p) (u64_of_int chunk) with
  | Ok false => Ret (Err "missing requested chunk")
  | Ok true =>
      Do (OOpen (r_path r)) (fun rep =>
        match rep with
        | RObj f =>
            match new_chunk_reader fuel f (chunk_section chunk (r_chunk r)) with
            | Some cr => Ret (Ok (f, cr))
            | None => Spin
            end
        | _ => Ret (Err "i/o error")
        end)
  | Err e | Panic e => Die e
  end.
(** catalogue.go:241-249 GetChunkReader *)
Definition get_chunk_reader (fuel : nat) (c : cat) (h : hash) (chunk : Z) : io (cat * res (fobj * creader)) :=
  do! (c1, g) := get_record c h in
  on_ok c1 g (fun rp => do! r := get_chunk_reader_of fuel rp.1 rp.2 chunk in Ret (c1, r)).
