(** Specification vocabulary for files that change after they were shared, or while they are. *)
From Verif Require Export PeerSpec.

(** where daemon [M] has the file that it lists under [h] *)
Definition path_of (M : remote) (h : hash) : path := match rm_A M !! h with Some a => a_path a | None => [] end.
(** [M] after another program has overwritten the file [p] *)
Definition overwritten (M : remote) (p : path) (content : list byte) : remote :=
  mkRemote (rm_cwd M) (rm_dir M) (rm_dl M) (rm_A M) (<[p := NFile content]> (rm_fs M)) (rm_env M).

(** ** A call during which other programs act *)
(** executions of a program in which, before each of its calls, others may have changed the disk as
    [others] says *)
Inductive among {A : Type} (others : fs -> fs -> Prop) : fs -> io A -> fs -> outcome A -> Prop :=
| am_other f f1 m f' out : others f f1 -> among others f1 m f' out -> among others f m f' out
| am_ret f a : among others f (Ret a) f (Done a)
| am_die f w : among others f (Die w) f (Died w)
| am_spin f : among others f Spin f Hangs
| am_do f o k r f1 f' out : do_op f o = (r, f1) -> among others f1 (k r) f' out -> among others f (Do o k) f' out.
(** others write file [q]; its contents are always among [V] *)
Definition rewrites (q : path) (V : list byte -> Prop) (f f' : fs) : Prop := exists l, V l /\ f' = <[q := NFile l]> f.
