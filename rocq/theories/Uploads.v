(** Model of the part of StartUpload (serverStartUpload.go:36-46) that uses the map
    of uploads, for any number of goroutines (main.go:93 starts one per datagram).
    Nothing locks the map.  Every access to it is one step here; in Go two accesses
    at the same time of which one is a write are a data race.  kickstart is one
    step. *)
From Verif Require Export Server.

(** where a handler is *)
Inductive upc :=
| UCheck                             (* about to look the key up (line 42) *)
| UInsert                            (* about to store a new upload (line 43) *)
| UKick                              (* about to look it up again and kickstart (line 46) *)
| UEnd (r : res packet).             (* returned; what kickstart sent *)
(** a call of StartUpload for chunk [uh_i] of a file with contents [uh_l] and chunk
    size [uh_cs], that has its reader (line 21) and the key (36-39) *)
Record uhandler := mkUh {
  uh_key : list byte * N; uh_l : list byte; uh_cs : nat; uh_i : nat; uh_rd : creader;
  uh_cap : N; uh_wok : bool; uh_pc : upc }.
Definition set_upc (h : uhandler) (p : upc) : uhandler :=
  mkUh (uh_key h) (uh_l h) (uh_cs h) (uh_i h) (uh_rd h) (uh_cap h) (uh_wok h) p.
(** Server.uploads is a map to pointers: the uploads have names *)
Record ustate := mkU {
  u_map : gmap (list byte * N) nat; u_heap : gmap nat sender; u_hs : gmap nat uhandler }.
Definition u_init : ustate := mkU ∅ ∅ ∅.
Definition u_set (U : ustate) (j : nat) (h : uhandler) : ustate := mkU (u_map U) (u_heap U) (<[j := h]> (u_hs U)).

Inductive ustep : ustate -> ustate -> Prop :=
(** a request has come in and its chunk can be read (lines 17-34) *)
| us_arrive U j key l cs i rd cap wok fuel : u_hs U !! j = None ->
    (Z.of_nat cs < 4294967296)%Z -> (Z.of_nat i < 65536)%Z ->
    new_chunk_reader fuel (FRegular l) (chunk_section (Z.of_nat i) (Z.of_nat cs)) = Some rd ->
    ustep U (u_set U j (mkUh key l cs i rd cap wok UCheck))
(** line 42 *)
| us_check U j h : u_hs U !! j = Some h -> uh_pc h = UCheck ->
    ustep U (u_set U j (set_upc h (match u_map U !! uh_key h with Some _ => UKick | None => UInsert end)))
(** line 43 *)
| us_insert U j h n : u_hs U !! j = Some h -> uh_pc h = UInsert -> u_heap U !! n = None ->
    ustep U (mkU (<[uh_key h := n]> (u_map U)) (<[n := new_sender (FRegular (uh_l h)) (uh_rd h) (uh_cap h)]> (u_heap U))
                 (<[j := set_upc h UKick]> (u_hs U)))
(** line 46 *)
| us_kick U j h n u u' r : u_hs U !! j = Some h -> uh_pc h = UKick ->
    u_map U !! uh_key h = Some n -> u_heap U !! n = Some u ->
    kickstart (cr_hash (uh_rd h)) (cr_size (uh_rd h)) u (uh_wok h) = (u', r) ->
    ustep U (mkU (u_map U) (<[n := u']> (u_heap U)) (<[j := set_upc h (UEnd r)]> (u_hs U)))
(** line 46: there is nothing under the key *)
| us_nil U j h : u_hs U !! j = Some h -> uh_pc h = UKick -> u_map U !! uh_key h = None ->
    ustep U (u_set U j (set_upc h (UEnd (Panic "nil pointer dereference"))))
(** an acknowledgement arrives, or a worker of an upload acts *)
| us_work U n u v u' ps : u_heap U !! n = Some u -> sstep u v = SGo u' ps ->
    ustep U (mkU (u_map U) (<[n := u']> (u_heap U)) (u_hs U)).
