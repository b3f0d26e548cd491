(** Specification vocabulary for Clean when the daemon is killed or files cannot be opened (C126, C127). *)
From Verif Require Export CleanSpec CrashSpec.

(** the disk states that a kill at some point of the run leaves, if no call fails before it *)
Inductive cut_short {A : Type} : fs -> io A -> fs -> Prop :=
| cs_here f m : cut_short f m f
| cs_during f o k f' : partial f o f' -> cut_short f (Do o k) f'
| cs_later f o k r f1 f' : do_op f o = (r, f1) -> cut_short f1 (k r) f' -> cut_short f (Do o k) f'.
(** what Clean reports and does if the files of the entries [bad] cannot be opened *)
Definition verdict_with (bad : gset hash) (f : fs) (h : hash) (a : aentry) : action * hash :=
  if decide (h ∈ bad) then (RemovedMissing, replicate 20 xff) else verdict f h a.
