(** Specification vocabulary for a download while the daemon is used for other things. *)
From Verif Require Export PeerSpec.

(** the daemon, its disk, and where the download is *)
Record bworld := mkBusy { b_srv : server; b_fs : fs; b_pc : lpc; b_active : active }.
(** Between two steps of the download of [h] to [p], the daemon may handle datagrams,
    obey commands and serve uploads, and other programs may change files: anything that
    leaves the entry of [h] and the file [p] alone. *)
Definition besides (cwd dir dl : path) (h : hash) (p : path) (s : server) (f : fs) (s' : server) (f' : fs) : Prop :=
  exists A A', srv_reached cwd dir dl A s f /\ srv_reached cwd dir dl A' s' f' /\ A' !! h = A !! h
    /\ f' !! p = f !! p /\ f' !! parent p = f !! parent p.
(** [busy … a n b]: from [a] to [b] with [n] steps of the download *)
Inductive busy (cwd dir dl : path) (own : list byte) (h : hash) (p : path) (net : network) : bworld -> nat -> bworld -> Prop :=
| bu_nil a : busy cwd dir dl own h p net a 0 a
| bu_step a n s f pc D resps dg b out : busy cwd dir dl own h p net a n (mkBusy s f pc D) -> pc <> LDone -> net pc resps dg ->
    lstep own h resps dg (mkL pc (sv_cat s) f D) = Some (b, out) ->
    busy cwd dir dl own h p net a (S n) (mkBusy (set_cat s (l_cat b)) (l_fs b) (l_pc b) (l_active b))
| bu_besides a n s f pc D s' f' : busy cwd dir dl own h p net a n (mkBusy s f pc D) -> besides cwd dir dl h p s f s' f' ->
    busy cwd dir dl own h p net a n (mkBusy s' f' pc D).
