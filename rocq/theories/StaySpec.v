(** Specification vocabulary for what is kept while the daemon is used (C124). *)
From Verif Require Export PeerSpec CliSpec.

(** [e] is what the machine and the network can answer to the command [argv]: the order
    in which the catalogue is walked has every entry once, a file that is shared is not
    larger than an int64 allows, and metadata from peers is sound (C41 treats the rest) *)
Definition ordinary (cwd : path) (A : astate) (f : fs) (e : cenv) (argv : list text) : Prop :=
  ce_cwd e = cwd /\ NoDup (ce_order e) /\ (forall k, k ∈ ce_order e <-> A !! k <> None)
  /\ (forall q l, argv = [str "share"; q] -> file_at f (abs cwd q) = Some l -> small l)
  /\ (forall es, listing_received (ce_listing e) = Ok es ->
        Forall (fun en => (e_size en < 9223372036854775808)%N /\ (0 < e_chunk en)%N /\ normal_name (e_name en)) es).
(** What happens to a daemon in the course of time, the file [h] at [p] with the contents
    [l] being in its catalogue: any commands, datagrams, uploads, downloads of other files,
    changes of files by other programs, and ends and new starts of the daemon between two
    of these.  Only [clean] is restricted: the file is unchanged when it is typed. *)
Inductive onward (cwd dir dl : path) (h : hash) (p : path) (l : list byte) : server -> fs -> server -> fs -> Prop :=
| on_refl s f : onward cwd dir dl h p l s f s f
| on_command s0 f0 A s f e argv s' f' ds o : onward cwd dir dl h p l s0 f0 s f ->
    srv_reached cwd dir dl A s f -> ordinary cwd A f e argv ->
    (argv = [str "clean"] -> file_at f p = Some l /\ forall k a, A !! k = Some a -> parent (a_path a) <> dir) ->
    session true e s f argv = (f', Some s', ds, o) -> onward cwd dir dl h p l s0 f0 s' f'
| on_message s0 f0 A s f e buffer ra s' f' ds r : onward cwd dir dl h p l s0 f0 s f ->
    srv_reached cwd dir dl A s f -> NoDup (en_order e) -> (forall k, k ∈ en_order e <-> A !! k <> None) ->
    run f (handle_message e s buffer ra) = (f', Done (s', ds, r)) -> onward cwd dir dl h p l s0 f0 s' f'
| on_upload s0 f0 s f k u v u' ps : onward cwd dir dl h p l s0 f0 s f ->
    sv_uploads s !! k = Some u -> sstep u v = SGo u' ps -> onward cwd dir dl h p l s0 f0 (set_upload s k u') f
| on_download s0 f0 A s f own k a pc D resps dg b out : onward cwd dir dl h p l s0 f0 s f ->
    srv_reached cwd dir dl A s f -> k <> h -> A !! k = Some a -> parent (a_path a) <> dir -> (a_count a <= 65536)%Z ->
    match pc with LHosts i | LChunk i _ => (Z.of_N i < a_count a)%Z | _ => True end -> pc <> LDone ->
    lstep own k resps dg (mkL pc (sv_cat s) f D) = Some (b, out) -> onward cwd dir dl h p l s0 f0 (set_cat s (l_cat b)) (l_fs b)
| on_outside s0 f0 s f f' : onward cwd dir dl h p l s0 f0 s f ->
    f' !! dir = f !! dir -> (forall q, parent q = dir -> f' !! q = f !! q) -> onward cwd dir dl h p l s0 f0 s f'
| on_restart s0 f0 A s f pid now port f' c' : onward cwd dir dl h p l s0 f0 s f ->
    srv_reached cwd dir dl A s f -> valid_utf8 dir -> (forall k a, A !! k = Some a -> valid_utf8 (a_path a)) ->
    run f (open_cat pid now cwd dir dl) = (f', Done (Ok c')) -> onward cwd dir dl h p l s0 f0 (new_server port c') f'.
