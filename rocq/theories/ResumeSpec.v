(** Specification vocabulary for downloads that are interrupted by a kill. *)
From Verif Require Export DownloadSpec CrashSpec.

(** the process is killed somewhere in the step that follows [b], possibly after some of its I/O
    failed; [f'] is the disk it leaves *)
Definition stopped (own : list byte) (h : hash) (net : network) (b : lworld) (f' : fs) : Prop :=
  exists resps dg, net (l_pc b) resps dg /\ killed (l_fs b) (loop_step own h resps dg (l_pc b) (l_cat b) (l_active b)) f'.
(** the download is asked for again (StartDownload, whatever is on the network and whichever file
    operations fail) and begins; [f'] and [c'] are then the disk and the catalogue *)
Definition begins (h : hash) (c : cat) (f : fs) (own : list byte) (c' : cat) (f' : fs) : Prop :=
  exists ifs resps meta, execs f (start_download ifs c h resps meta) f' (Done (c', Ok own)).
(** the daemon is started on disk [f] and the download again, under any circumstances, and killed
    again, as often as one likes; [f'] is a disk that is then there *)
Inductive disks (h : hash) (cwd dir dl : path) (f : fs) : fs -> Prop :=
| di_now : disks h cwd dir dl f f
| di_begin f1 c ifs resps meta f2 : disks h cwd dir dl f f1 -> starts cwd dir dl f1 c ->
    killed f1 (start_download ifs c h resps meta) f2 -> disks h cwd dir dl f f2
| di_loop f1 c own c2 f2 n out b resps dg f3 : disks h cwd dir dl f f1 -> starts cwd dir dl f1 c -> begins h c f1 own c2 f2 ->
    lexec own h any_network (mkL LCheck c2 f2 ∅) n out b ->
    killed (l_fs b) (loop_step own h resps dg (l_pc b) (l_cat b) (l_active b)) f3 -> disks h cwd dir dl f f3.
(** [b] is a state of the download after that *)
Definition attempts (h : hash) (cwd dir dl : path) (f : fs) (b : lworld) : Prop :=
  exists f1 c own c2 f2 n out, disks h cwd dir dl f f1 /\ starts cwd dir dl f1 c /\ begins h c f1 own c2 f2
    /\ lexec own h any_network (mkL LCheck c2 f2 ∅) n out b.
(** the progress file of a file of [count] chunks has its whole length: eight bytes and one bit for
    each chunk, in words of eight bytes *)
Definition whole_progress (dir : path) (h : hash) (count : Z) (f : fs) : Prop :=
  exists l, file_at f (prog_path dir h) = Some l /\ Z.of_nat (length l) = (8 + 8 * ((count + 63) / 64))%Z.
(** the daemon starts on disk [f] and can download the rest of the file: if it is asked to, and any
    usable host answers the search, it begins.  With any honest host the loop is never stuck, takes
    a bounded number of steps, asks for the chunks [rest] and for no others, leaves the right bytes at
    [p], over [old], and can end *)
Definition continues (cwd dir dl : path) (h : hash) (content : list byte) (cs : nat) (p : path) (old : list byte)
    (rest : list N) (f : fs) : Prop :=
  exists c, starts cwd dir dl f c
    /\ forall ifs own resps r hs meta, no_spare ifs -> own_address ifs own -> selected (good own) resps (r :: hs) ->
         exists c', run f (start_download (Some ifs) c h resps meta) = (f, Done (c', Ok own))
    /\ (forall host port n out b, lexec own h (honest own host port content cs) (mkL LCheck c' f ∅) n out b ->
          n <= 5 * length rest + 1
          /\ (forall resps dg, l_pc b <> LDone -> honest own host port content cs (l_pc b) resps dg -> is_Some (lstep own h resps dg b))
          /\ (l_pc b = LDone -> out = map (request host port h) rest
               /\ default [] (file_at (l_fs b) p) = content ++ drop (length content) old))
    /\ forall host port, host <> own ->
          exists n out b, lexec own h (honest own host port content cs) (mkL LCheck c' f ∅) n out b /\ l_pc b = LDone.
