(** Specification vocabulary for several downloads at the same time. *)
From Verif Require Export SwarmSpec.

(** ** What is downloaded *)
(** the file behind a hash and who can deliver it: its content, its chunk size, which
    host has which chunk, the answers to searches that may be seen and
    how many hosts answer at most *)
Record target := mkTarget {
  t_content : list byte; t_cs : nat; t_has : list byte -> N -> Prop; t_R : list hostresp -> Prop; t_K : nat }.
Notation targets := (gmap (list byte) target).
(** the network as seen by a download of [t] *)
Definition t_net (own : list byte) (t : target) : network := swarm own (t_has t) (t_R t) (t_content t) (t_cs t).
(** searches for [t] can be answered by hosts one of which has the chunk *)
Definition t_alive (own : list byte) (t : target) : Prop :=
  forall i, (Z.of_N i * Z.of_nat (t_cs t) < Z.of_nat (length (t_content t)))%Z ->
    exists hs, t_R t hs /\ someone_has (t_has t) i hs /\ Forall (good own) hs.

(** ** Executions *)
(** the catalogue, the disk, the keys of s.downloads, and where each loop is; several
    loops may be about the same hash *)
Record mworld := mkM { m_cat : cat; m_fs : fs; m_active : active; m_loops : list (list byte * lpc) }.
(** calls other than those of the loops that leave the downloads alone *)
Definition harmless (T : targets) (q : ccall) : Prop :=
  match q with
  | CUnshare h => T !! h = None
  | CSave _ _ _ | CRestart _ _ => False
  | _ => True
  end.
(** [mexec … a n b]: the daemon goes from [a] to [b]; [n] steps of loops are among the
    steps.  In between come calls of the catalogue by anybody else and changes other
    programs make to files. *)
Inductive mexec (cwd dir dl : path) (own : list byte) (T : targets) : mworld -> nat -> mworld -> Prop :=
| me_nil a : mexec cwd dir dl own T a 0 a
| me_loop a n b j h pc t resps dg d out : mexec cwd dir dl own T a n b ->
    m_loops b !! j = Some (h, pc) -> T !! h = Some t -> pc <> LDone -> t_net own t pc resps dg ->
    lstep own h resps dg (mkL pc (m_cat b) (m_fs b) (m_active b)) = Some (d, out) ->
    mexec cwd dir dl own T a (S n) (mkM (l_cat d) (l_fs d) (l_active d) (<[j := (h, l_pc d)]> (m_loops b)))
| me_call a n b A q c' f' ans : mexec cwd dir dl own T a n b ->
    reached cwd dir dl A (m_cat b) (m_fs b) -> allowed cwd dir dl A (m_fs b) q -> harmless T q ->
    crun cwd (m_cat b) (m_fs b) q = Some (c', f', ans) ->
    mexec cwd dir dl own T a n (mkM c' f' (m_active b) (m_loops b))
| me_outside a n b A f' : mexec cwd dir dl own T a n b ->
    reached cwd dir dl A (m_cat b) (m_fs b) ->
    f' !! dir = m_fs b !! dir -> (forall p, parent p = dir -> f' !! p = m_fs b !! p) ->
    (forall h t a, T !! h = Some t -> A !! h = Some a ->
       f' !! a_path a = m_fs b !! a_path a /\ f' !! parent (a_path a) = m_fs b !! parent (a_path a)) ->
    mexec cwd dir dl own T a n (mkM (m_cat b) f' (m_active b) (m_loops b)).

(** ** Where the downloads start *)
(** the entry [a] is about target [t] and the chunks it holds are right *)
Definition fits (dir : path) (f : fs) (t : target) (a : aentry) : Prop :=
  0 < t_cs t /\ a_chunk a = Z.of_nat (t_cs t)
  /\ a_count a = Z.of_nat ((length (t_content t) + t_cs t - 1) / t_cs t) /\ (a_count a <= 65536)%Z
  /\ can_write f (a_path a) /\ parent (a_path a) <> dir /\ right_so_far (t_content t) (t_cs t) f a
  /\ (forall i, ~ ragged (t_cs t) (chunk_bytes (t_content t) (t_cs t) i)
               \/ first_empty (chunk_bytes (t_content t) (t_cs t) i) <= 1024)
  /\ (forall hs, t_R t hs -> length hs <= t_K t).
(** every target has a fitting entry, and no two of them are stored in the same place *)
Definition well_set (dir : path) (A : astate) (f : fs) (T : targets) : Prop :=
  (forall h t, T !! h = Some t -> exists a, A !! h = Some a /\ fits dir f t a)
  /\ (forall h1 h2 t1 t2 a1 a2, h1 <> h2 -> T !! h1 = Some t1 -> T !! h2 = Some t2 ->
        A !! h1 = Some a1 -> A !! h2 = Some a2 -> a_path a1 <> a_path a2).
(** loops for the hashes [hs] that are about to start *)
Definition starting (hs : list (list byte)) : list (list byte * lpc) := map (fun h => (h, LCheck)) hs.
(** at most this many steps are needed by the loop for [h] *)
Definition steps_for (T : targets) (A : astate) (h : list byte) : nat :=
  match T !! h, A !! h with
  | Some t, Some a => (4 + t_K t) * length (todo a) + 1
  | _, _ => 0
  end.

(** ** Places *)
(** no two entries have the same path *)
Definition apart (A : astate) : Prop :=
  forall h1 h2 a1 a2, h1 <> h2 -> A !! h1 = Some a1 -> A !! h2 = Some a2 -> a_path a1 <> a_path a2.
Definition unused (A : astate) (p : path) : Prop := forall h a, A !! h = Some a -> a_path a <> p.
(** the entry that call [q] adds, if any, has a path of its own *)
Definition new_place (cwd dl : path) (A : astate) (f : fs) (q : ccall) : Prop :=
  match q with
  | CShare p => forall l, file_at f (abs cwd p) = Some l -> A !! sha1 l = None -> unused A (abs cwd p)
  | CRegister _ _ _ h name => A !! h = None -> unused A (join2 dl name)
  | _ => True
  end.
