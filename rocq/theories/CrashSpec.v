(** Specification vocabulary for crashes of the daemon (C32, C33) and for the
    directory the index is written to (C70). *)
From Verif Require Export CatalogueSpec.

(** the hash a changing call is about *)
Definition about (cwd : path) (f : fs) (q : ccall) (h : hash) : Prop :=
  match q with
  | CShare p => exists l, file_at f (abs cwd p) = Some l /\ h = sha1 l
  | CRegister _ _ _ h' _ | CUnshare h' | CSave h' _ _ => h = h'
  | _ => False
  end.
(** the process is killed somewhere in call [q], possibly after some of the I/O
    of the call failed; [f'] is the disk it leaves behind *)
Definition ckilled (cwd : path) (c : cat) (f : fs) (q : ccall) (f' : fs) : Prop :=
  match q with
  | CShare p => killed f (share_file cwd c p) f'
  | CRegister size count chunk h name => killed f (register_download c size count chunk h name) f'
  | CUnshare h => killed f (unshare_file c h) f'
  | CSave h i data => killed f (save_chunk c h i data) f'
  | _ => False
  end.
(** the paths the call would add to the index are valid UTF-8 *)
Definition utf8_call (cwd dl : path) (q : ccall) : Prop :=
  match q with
  | CShare p => valid_utf8 (abs cwd p)
  | CRegister _ _ _ _ name => valid_utf8 (join2 dl name)
  | _ => True
  end.
Definition is_save (q : ccall) : Prop := match q with CSave _ _ _ => True | _ => False end.
(** the daemon does not start on this disk *)
Definition wont_start (cwd dir dl : path) (f : fs) : Prop :=
  forall pid now, exists e, run f (open_cat pid now cwd dir dl) = (f, Done (Err e)).
(** the daemon starts, as [c] *)
Definition starts (cwd dir dl : path) (f : fs) (c : cat) : Prop :=
  forall pid now, run f (open_cat pid now cwd dir dl) = (f, Done (Ok c)).
(** what Contains says about hash [h] is entry [a] / that it is unknown *)
Definition says (c : cat) (f : fs) (h : hash) (oa : option aentry) : Prop :=
  match oa with
  | Some a => exists c' x, run f (contains c h) = (f, Done (c', Ok x)) /\ shows x h a
  | None => run f (contains c h) = (f, Done (c, Err "file not found"))
  end.

(** a daemon later in its life: calls (that no I/O fault disturbs), also ones that
    kill it, after which it is started again, and changes made by other programs
    outside the catalogue directory *)
Definition cprog (cwd : path) (c : cat) (q : ccall) : io (cat * bool) :=
  match q with
  | CShare p => do! r := share_file cwd c p in Ret (r.1, match r.2 with Ok _ => true | _ => false end)
  | CRegister size count chunk h name =>
      do! r := register_download c size count chunk h name in Ret (r.1, match r.2 with Ok _ => true | _ => false end)
  | CUnshare h => do! r := unshare_file c h in Ret (r.1, match r.2 with Ok _ => true | _ => false end)
  | CSave h i data => do! r := save_chunk c h i data in Ret (r.1, match r.2 with Ok _ => true | _ => false end)
  | CList order => do! r := list_files c order in Ret (r.1, match r.2 with Ok _ => true | _ => false end)
  | CContains h => do! r := contains c h in Ret (r.1, match r.2 with Ok _ => true | _ => false end)
  | CRehash h => do! r := rehash c h in Ret (r.1, match r.2 with (Some _, None) => true | _ => false end)
  | CReader fuel h i => do! r := get_chunk_reader fuel c h (Z.of_nat i) in Ret (r.1, match r.2 with Ok _ => true | _ => false end)
  | CComplete h => do! r := file_complete c h in Ret (r.1, r.2)
  | CRestart pid now => do! r := open_cat pid now cwd (c_dir c) (c_dl c) in
      match r with Ok c' => Ret (c', true) | Err w | Panic w => Die w end
  end.
(** arguments have their Go types, and chunks are not saved into the catalogue
    directory itself *)
Definition typed (cwd dir : path) (c : cat) (f : fs) (q : ccall) : Prop :=
  match q with
  | CRegister size count chunk h name =>
      (size < 18446744073709551616)%N /\ (chunk < 4294967296)%N /\ hash_wf h
  | CSave h i data => (i < 65536)%N /\ forall r, c_index c !! h = Some r -> parent (r_path r) <> dir
  | CShare p => forall l, file_at f (abs cwd p) = Some l -> small l
  | _ => True
  end.
Inductive later (cwd dir dl : path) : cat -> fs -> cat -> fs -> Prop :=
| la_refl c f : later cwd dir dl c f c f
| la_call c f c1 f1 q c' f' b : later cwd dir dl c f c1 f1 -> typed cwd dir c1 f1 q ->
    run f1 (cprog cwd c1 q) = (f', Done (c', b)) -> later cwd dir dl c f c' f'
| la_died c f c1 f1 q w f' pid now c' f2 : later cwd dir dl c f c1 f1 -> typed cwd dir c1 f1 q ->
    run f1 (cprog cwd c1 q) = (f', Died w) ->
    run f' (open_cat pid now cwd dir dl) = (f2, Done (Ok c')) -> later cwd dir dl c f c' f2
| la_outside c f c1 f1 f' : later cwd dir dl c f c1 f1 ->
    f' !! dir = f1 !! dir -> (forall p, parent p = dir -> f' !! p = f1 !! p) -> later cwd dir dl c f c1 f'.
(** listing never succeeds, nor does removing, querying or sharing [h] again *)
Definition broken (cwd : path) (h : hash) (c : cat) (f : fs) : Prop :=
  (forall order f' c', (forall h', h' ∈ order <-> c_index c !! h' <> None) -> run f (cprog cwd c (CList order)) <> (f', Done (c', true)))
  /\ (forall f' c', run f (cprog cwd c (CUnshare h)) <> (f', Done (c', true)))
  /\ (forall f' c', run f (cprog cwd c (CContains h)) <> (f', Done (c', true)))
  /\ (forall p l f' c', file_at f (abs cwd p) = Some l -> small l -> sha1 l = h -> run f (cprog cwd c (CShare p)) <> (f', Done (c', true))).
(** the daemon starts, and whatever is done with it from then on stays broken *)
Definition stuck (cwd dir dl : path) (h : hash) (f : fs) : Prop :=
  exists c, starts cwd dir dl f c /\ forall c' f', later cwd dir dl c f c' f' -> broken cwd h c' f'.
