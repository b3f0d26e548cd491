(** C103, C104: chunk transfers over a network that loses, repeats and reorders datagrams *)
From Verif Require Import LossyProofs.

(** *** C103: what a lossy network can make the receiver save *)
(** Exactly: the first packet to arrive is the header, any packets but the end
    packet follow, then a last header, data packets, the end packet.  What counts is what
    arrives after the last header; the rest is filled with zeros, and the buffer is saved
    whether or not its hash is right. *)
Theorem C103_what_is_saved l cs i cap g buf ok :
  (Z.of_nat cs < 4294967296)%Z -> (Z.of_nat i < 65536)%Z -> (1 <= cap < 65536)%N -> chunk_bytes l cs i <> [] ->
  let B := chunk_bytes l cs i in let pk := stream (sha1 B) B in let M := first_empty B in
  delivers l cs i cap g buf ok <->
  exists pre post k, g = map pk (pre ++ 0 :: post ++ [k]) /\ head (pre ++ [0]) = Some 0
    /\ Forall (fun j => j < M) pre /\ Forall (fun j => 1 <= j < M) post /\ M <= k
    /\ assembled B (0 :: post) buf /\ ok = bool_decide (sha1 buf = sha1 B).
Proof. intros. by apply exact_lemma. Qed.
Print Assumptions C103_what_is_saved.
(** Missing: that the receiver asks again for what has not arrived.  Guarded by: every
    data packet arrives after the last header. *)
Theorem C103_all_arrived_partial l cs i cap ks0 ks buf ok :
  (Z.of_nat cs < 4294967296)%Z -> (Z.of_nat i < 65536)%Z -> (1 <= cap < 65536)%N -> chunk_bytes l cs i <> [] ->
  let B := chunk_bytes l cs i in let pk := stream (sha1 B) B in
  delivers l cs i cap (map pk (ks0 ++ 0 :: ks)) buf ok ->
  0 ∉ ks -> (forall j, 1 <= j < first_empty B -> j ∈ ks) -> buf = B /\ ok = true.
Proof. intros. by eapply all_arrived_lemma. Qed.
Print Assumptions C103_all_arrived_partial.
(** Every chunk with a byte other than zero after the first 1000 is saved wrongly if
    only its first and its last packet arrive. *)
Theorem C103_loss_refuted l cs i cap b x :
  (Z.of_nat cs < 4294967296)%Z -> (Z.of_nat i < 65536)%Z -> (1 <= cap < 65536)%N ->
  let B := chunk_bytes l cs i in let pk := stream (sha1 B) B in
  B !! b = Some x -> x <> x00 -> 1000 <= b ->
  exists buf, delivers l cs i cap (map pk [0; first_empty B]) buf (bool_decide (sha1 buf = sha1 B)) /\ buf <> B.
Proof.
  intros H1 H2 H3 B pk Hb Hx Hge. eapply loss_lemma; try done. intros E. unfold B in Hb. rewrite E in Hb. done.
Qed.
Print Assumptions C103_loss_refuted.
(** The same if nothing at all is lost and the header arrives a second time, late. *)
Theorem C103_repeat_refuted l cs i cap b x :
  (Z.of_nat cs < 4294967296)%Z -> (Z.of_nat i < 65536)%Z -> (1 <= cap < 65536)%N ->
  let B := chunk_bytes l cs i in let pk := stream (sha1 B) B in
  B !! b = Some x -> x <> x00 -> 1000 <= b ->
  exists buf, delivers l cs i cap (map pk (seq 0 (first_empty B) ++ [0; first_empty B])) buf (bool_decide (sha1 buf = sha1 B))
    /\ buf <> B.
Proof.
  intros H1 H2 H3 B pk Hb Hx Hge. eapply repeat_lemma; try done. intros E. unfold B in Hb. rewrite E in Hb. done.
Qed.
Print Assumptions C103_repeat_refuted.
(** 1500 letters "a", of which the first and the last packet arrive: the rest is saved as zeros *)
Example C103_case : let l := replicate 1500 x61 in
  exists buf, delivers l 2000 0 32 (map (stream (sha1 l) l) [0; 2]) buf false
    /\ buf = replicate 1000 x61 ++ replicate 500 x00.
Proof.
  intros l. exists (replicate 1000 x61 ++ replicate 500 x00). split; [|reflexivity].
  change l with (chunk_bytes (replicate 1500 x61) 2000 0).
  assert (bool_decide (sha1 (replicate 1000 x61 ++ replicate 500 x00)
    = sha1 (chunk_bytes (replicate 1500 x61) 2000 0)) = false) as <- by (vm_compute; reflexivity).
  apply exact_lemma; [lia|lia|lia|discriminate|].
  exists [], [], 2. split; [reflexivity|]. split; [reflexivity|]. split; [constructor|]. split; [constructor|].
  split; [vm_compute; lia|]. split; [|reflexivity]. apply assembled_case.
Qed.

(** *** C104: whatever the network does, neither side of a transfer between two honest peers crashes *)
Theorem C104_no_crash l cs i cap a b :
  (Z.of_nat cs < 4294967296)%Z -> (Z.of_nat i < 65536)%Z -> (1 <= cap < 65536)%N -> chunk_bytes l cs i <> [] ->
  nstart l cs i cap a -> rtc nstep a b ->
  n_recv b <> RCrash /\ forall ps, sstep (n_sender b) (SKick None) <> SDead ps.
Proof. intros. by eapply no_crash_lemma. Qed.
Print Assumptions C104_no_crash.
(** a state in which the sender has work to do and the receiver waits, after the header has
    arrived twice *)
Example C104_case : exists a b, nstart (replicate 1500 x61) 2000 0 32 a /\ rtc nstep a b
  /\ (exists r, n_recv b = RRun r) /\ n_up b = 2 /\ exists s' ps, sstep (n_sender b) (SKick None) = SGo s' ps.
Proof. apply two_headers; (lia || discriminate). Qed.
