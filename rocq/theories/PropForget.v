(** Properties of what is left of an upload (C107, C108). *)
From Verif Require Import ForgetProofs.

(** *** C107 (refuted): an upload that was ever started stays in the table of the server whatever
    happens, and stays an upload of the chunk it was made for *)
Theorem C107_never_forgotten_refuted :
  forall s f s' f' k u, rtc srv_step (s, f) (s', f') -> sv_uploads s !! k = Some u ->
    exists u', sv_uploads s' !! k = Some u' /\ forall l cs i, carries l cs i u -> carries l cs i u'.
Proof. exact C107_lemma. Qed.
Print Assumptions C107_never_forgotten_refuted.
(** records are made for requests of chunks only, and at most one for each address and port *)
Theorem C107_only_requests_partial :
  forall e s f buffer ra ip s' f' ds r k, run f (handle_message e s buffer ra) = (f', Done (s', ds, r)) -> from_ipv4 ra ip ->
    sv_uploads s !! k = None -> sv_uploads s' !! k <> None ->
    k = (ip, u16_of_int (ua_port ra)) /\ exists h i cap, parse buffer = Ok (OpenReq h i cap).
Proof. exact C107_only_lemma. Qed.
Print Assumptions C107_only_requests_partial.
(** so peers that fetch a chunk, acknowledge everything and go away fill the table: one address can
    leave 65536 uploads behind, one for each port *)
Theorem C107_table_fills_refuted :
  forall cwd dir dl A s f h a l i ip n, let cs := Z.to_nat (a_chunk a) in
    srv_reached cwd dir dl A s f -> A !! h = Some a -> i ∈ a_held a -> (i < 65536)%N ->
    file_at f (a_path a) = Some l -> length ip = 4 -> (forall p, sv_uploads s !! (ip, p) = None) -> (Z.of_nat n <= 65536)%Z ->
    exists s', srv_reached cwd dir dl A s' f /\ rtc srv_step (s, f) (s', f)
      /\ size (sv_uploads s') = size (sv_uploads s) + n
      /\ (forall p, p < n -> exists u, sv_uploads s' !! (ip, N.of_nat p) = Some u /\ over l cs (N.to_nat i) 1 u).
Proof. exact C107_grows_lemma. Qed.
Print Assumptions C107_table_fills_refuted.

(** the file /a of the example server, fetched from 300 ports *)
Example C107_case : exists s', srv_reached ex_cwd ex_dir ex_dl A3 s' ex3.1.2 /\ size (sv_uploads s') = 300
  /\ (forall p, p < 300 -> exists u, sv_uploads s' !! ([xc0; xa8; x01; x09], N.of_nat p) = Some u
        /\ over (bs "abc") (Z.to_nat (a_chunk entry_abc)) 0 1 u).
Proof.
  destruct (C107_table_fills_refuted ex_cwd ex_dir ex_dl A3 ex_srv ex3.1.2 habc entry_abc (bs "abc") 0 [xc0; xa8; x01; x09] 300)
    as (s' & H1 & _ & H2 & H3).
  - exact ex_srv_reached.
  - exact A3_abc.
  - exact abc_held.
  - reflexivity.
  - exact ex3_a.
  - reflexivity.
  - intros p. apply lookup_empty.
  - apply Z.leb_le. reflexivity.
  - exists s'. split; [exact H1|]. split; [exact H2|exact H3].
Qed.

(** *** C108: no more acknowledgements than packets, and no handler waits: there is room in the channel *)
Theorem C108_room_for_acknowledgements_partial :
  forall l cs i cap u ps n, (Z.of_nat cs < 4294967296)%Z -> (Z.of_nat i < 65536)%Z -> (1 <= cap < 65536)%N ->
    uploads_acked l cs i cap u ps n -> n <= length ps -> blocked u = 0.
Proof. exact C108_lemma. Qed.
Print Assumptions C108_room_for_acknowledgements_partial.
(** and while the worker is there it takes what is in the channel *)
Theorem C108_acknowledgements_are_taken_partial :
  forall l cs i cap u ps n, (Z.of_nat cs < 4294967296)%Z -> (Z.of_nat i < 65536)%Z -> (1 <= cap < 65536)%N ->
    uploads_acked l cs i cap u ps n -> 0 < sd_workers u -> 0 < sd_acks u ->
    exists u' ps', sstep u (SKick None) = SGo u' ps' /\ sd_acks u' = pred (sd_acks u).
Proof. exact C108_taken_lemma. Qed.
Print Assumptions C108_acknowledgements_are_taken_partial.
(** (refuted) once the worker is gone, which is how every upload ends (C48), the peer can
    leave behind as many waiting handlers as it likes; they wait until it starts another upload *)
Theorem C108_handlers_pile_up_refuted :
  forall cwd dir dl A s f e buffer ra ip off u m, let key := (ip, u16_of_int (ua_port ra)) in
    srv_reached cwd dir dl A s f -> NoDup (en_order e) -> (forall h, h ∈ en_order e <-> A !! h <> None) ->
    parse buffer = Ok (Ack off) -> from_ipv4 ra ip ->
    sv_uploads s !! key = Some u -> sd_workers u = 0 ->
    exists s' u', srv_reached cwd dir dl A s' f /\ rtc srv_step (s, f) (s', f) /\ sv_uploads s' !! key = Some u'
      /\ blocked u' = sd_acks u + m - N.to_nat (sd_cap u)
      /\ forall u'', left_alone u' u'' -> blocked u' <= blocked u''.
Proof. exact C108_piles_lemma. Qed.
Print Assumptions C108_handlers_pile_up_refuted.

(** the same acknowledgement a thousand times, after the chunk has been delivered *)
Example C108_case : exists s u, srv_reached ex_cwd ex_dir ex_dl A3 s ex3.1.2
  /\ sv_uploads s !! ([xc0; xa8; x01; x09], 0%N) = Some u /\ 999 <= blocked u
  /\ forall u', left_alone u u' -> 999 <= blocked u'.
Proof.
  destruct C107_case as (s & Hs & _ & Hu). destruct (Hu 0) as (u & Hk & ps & Hua & Hw); [apply Nat.ltb_lt; reflexivity|].
  destruct (C108_handlers_pile_up_refuted ex_cwd ex_dir ex_dl A3 s ex3.1.2 (ex_env [hnew; habc]) (udp_buffer 1024 (serialize (Ack 3)))
    (mkAddr (exact_slice [xc0; xa8; x01; x09]) 0) [xc0; xa8; x01; x09] 3 u 1000) as (s' & u' & H1 & _ & H2 & H3 & H4).
  - exact Hs.
  - exact (proj1 ex_order).
  - exact (proj2 ex_order).
  - vm_compute. reflexivity.
  - eexists. split; [reflexivity|]. split; [reflexivity|]. left. reflexivity.
  - exact Hk.
  - exact Hw.
  - assert (sd_cap u = 1%N) as Hc by exact (acked_cap _ _ _ _ _ _ _ Hua).
    rewrite Hc in H3. exists s', u'. split; [exact H1|]. split; [exact H2|]. split; [lia|]. intros u'' Hl. specialize (H4 _ Hl). lia.
Qed.
