(** Specification vocabulary for concurrent uploads. *)
From Verif Require Export Uploads ServerSpec.

Definition u_reached (U : ustate) : Prop := rtc ustep u_init U.
(** the bytes of the chunk a handler was asked for *)
Definition asked (h : uhandler) : list byte := chunk_bytes (uh_l h) (uh_cs h) (uh_i h).
(** no two requests come from the same address and port *)
Definition distinct_peers (U : ustate) : Prop :=
  forall j j' h h', u_hs U !! j = Some h -> u_hs U !! j' = Some h' -> uh_key h = uh_key h' -> j = j'.
(** two goroutines are about to write to the map at the same time: the Go runtime
    detects this and ends the process *)
Definition map_race (U : ustate) (j j' : nat) : Prop :=
  j <> j' /\ (uh_pc <$> u_hs U !! j) = Some UInsert /\ (uh_pc <$> u_hs U !! j') = Some UInsert.
(** the table of uploads, without the names *)
Definition same_table (U : ustate) (tbl : gmap (list byte * N) sender) : Prop :=
  forall k, tbl !! k = (u_map U !! k ≫= fun n => u_heap U !! n).
