(** Proofs about message handling, part 5: repeated uploads, what ends the process,
    request IDs, host selection, large listings. *)
From Verif Require Export ServerProofs4.
From Coq Require Import ZifyBool ZifyNat ZifyN.
Ltac Zify.zify_post_hook ::= Z.div_mod_to_equations.

(** *** C53 *)
Lemma C53_again_lemma cwd dir dl A s f e buffer h a l i cap ra ip u l0 cs0 i0 :
  let cs := Z.to_nat (a_chunk a) in let B := chunk_bytes l cs (N.to_nat i) in let key := (ip, u16_of_int (ua_port ra)) in
  srv_reached cwd dir dl A s f ->
  parse buffer = Ok (OpenReq h i cap) -> A !! h = Some a -> i ∈ a_held a ->
  file_at f (a_path a) = Some l -> length l < en_fuel e -> from_ipv4 ra ip -> en_wok e = true ->
  sv_uploads s !! key = Some u -> (Z.of_nat cs0 < 4294967296)%Z -> (Z.of_nat i0 < 65536)%Z -> carries l0 cs0 i0 u ->
  exists s' u', run f (handle_message e s buffer ra) =
      (f, Done (s', [mkDgram (slice_bytes (ua_ip ra)) (ua_port ra)
                      (wire (0%N, sha1 B ++ be 4 (N.of_nat (length B)) ++ take 1000 (chunk_bytes l0 cs0 i0)))], HRet (Ok tt)))
    /\ sv_uploads s' = <[key := u']> (sv_uploads s) /\ carries l0 cs0 i0 u'.
Proof.
  intros cs B key Hsr Hp Ha Hh Hl Hfuel Hip Hw Hk Hcs0 Hi0 Hc.
  destruct (srv_inv _ _ _ _ _ _ Hsr) as (H & _ & _). destruct (parse_typed _ _ Hp) as [(_ & Hi & _) _].
  destruct (start_upload_run cwd dir dl A s f e h a l i cap ra ip u l0 cs0 i0)
    as (s' & u' & Hu & Hup & Hre & _ & _ & Hrun); try done.
  { unfold up_key. fold key. rewrite Hk. done. }
  { apply carries_at; done. }
  fold cs B in Hu, Hrun. fold key in Hup. unfold handle_message. rewrite Hp. rewrite Hrun, Hw.
  exists s', u'. split; [done|]. split; [done|].
  destruct (kickstart (sha1 B) (Z.of_nat (length B)) u (en_wok e)) as [u2 r] eqn:E. cbn [fst] in Hu. subst u2.
  eapply ca_request; done.
Qed.
Lemma C53_carried_lemma cwd dir dl A s f k u : srv_reached cwd dir dl A s f -> sv_uploads s !! k = Some u ->
  exists l cs i, (Z.of_nat cs < 4294967296)%Z /\ (Z.of_nat i < 65536)%Z /\ carries l cs i u.
Proof. intros H Hk. destruct (srv_inv _ _ _ _ _ _ H) as (_ & _ & Hu). exact (Hu _ _ Hk). Qed.
Lemma C53_refused_lemma cwd dir dl A s f e buffer h i cap ra : srv_reached cwd dir dl A s f -> parse buffer = Ok (OpenReq h i cap) ->
  readable A f (en_fuel e) ->
  (forall a, A !! h = Some a -> i ∈ a_held a -> file_at f (a_path a) = None) ->
  exists s' w, run f (handle_message e s buffer ra) = (f, Done (s', [], HRet (Err w))) /\ sv_uploads s' = sv_uploads s.
Proof.
  intros Hsr Hp Hrd Hno. destruct (srv_inv _ _ _ _ _ _ Hsr) as (H & _ & _). destruct (parse_typed _ _ Hp) as [(_ & Hi & _) _].
  destruct (start_upload_refused cwd dir dl A s f e h i cap ra H Hi) as (s' & w & Hr & _ & _ & _ & Hu).
  - intros a Ha. apply (Hrd h). done.
  - left. done.
  - exists s', w. unfold handle_message. rewrite Hp. done.
Qed.

(** *** C61 *)
Lemma homeless_first e addrs : en_ifs e = Some addrs -> Forall if_wf addrs -> homeless e -> first_ipv4 addrs = None.
Proof.
  intros He Hw Hh. pose proof (first_ipv4_spec addrs Hw) as H. destruct (first_ipv4 addrs) as [r|]; [|done].
  exfalso. apply Hh. exists addrs, (slice_bytes r). split; [done|]. apply H.
Qed.
Lemma parse_not_data buffer off d : parse buffer <> Ok (Data off d).
Proof.
  intros E. destruct buffer as [|ty rest]; [done|]. revert E. unfold parse.
  change (rd_byte (ty :: rest) 0) with (@Ok (byte * nat) (ty, 1)). cbn [rbind].
  destruct (bN ty) as [|[[|[]|]|[[]|[]|]|]]; repeat (case_match || (cbn [rbind])); try done;
    repeat match goal with |- context [rbind ?r _] => destruct r as [[]| |]; cbn [rbind]; try done end.
Qed.
Lemma parse_panics ty rest : 533 <= length rest ->
  (is_panic (parse (ty :: rest)) <-> ty = x03 /\ ~ entries_fit (N.to_nat (unbe (take 2 (drop 2 rest)))) (drop 4 rest)).
Proof.
  intros Hl. split.
  - intros Hp. destruct (decide (ty = x03)) as [->|Hne].
    + split; [done|]. apply parse_type3; [lia|done].
    + exfalso. apply (parse_total ty rest Hl); [|done]. intros Hx. apply Hne.
      apply (f_equal Nb) in Hx. rewrite Nb_bN in Hx. done.
  - intros [-> Hn]. apply parse_type3; [lia|done].
Qed.
Lemma ipv4_dec l : {exists a, ipv4_of l a} + {forall a, ~ ipv4_of l a}.
Proof.
  assert (slice_wf (exact_slice l)) as Hw by (unfold slice_wf, exact_slice; cbn; lia).
  assert (slice_bytes (exact_slice l) = l) as Hb by (unfold slice_bytes, exact_slice; cbn; apply take_ge; lia).
  destruct (to4 (exact_slice l)) as [r|] eqn:E.
  - left. destruct (to4_spec _ _ Hw E) as (G & _). rewrite Hb in G. eauto.
  - right. rewrite (to4_none _ Hw), Hb in E. done.
Qed.
Lemma handle_outcome cwd dir dl A s f e ra buffer addrs lip : 534 <= length buffer ->
  srv_reached cwd dir dl A s f -> en_ifs e = Some addrs -> Forall if_wf addrs -> ua_ip ra = exact_slice lip ->
  NoDup (en_order e) -> (forall k, k ∈ en_order e <-> A !! k <> None) -> readable A f (en_fuel e) ->
  (dies_on A e buffer /\ exists w, run f (handle_message e s buffer ra) = (f, Died w))
  \/ (~ dies_on A e buffer /\ exists x, run f (handle_message e s buffer ra) = (f, Done x)).
Proof.
  intros Hlen Hsr He Hw Hra Hnd Hin Hrd. destruct (srv_inv _ _ _ _ _ _ Hsr) as (H & _ & Hups). destruct buffer as [|ty rest]; [cbn in Hlen; lia|].
  assert (forall (P : Prop), (is_panic (parse (ty :: rest)) -> P) ->
    (exists rest', ty :: rest = x03 :: rest' /\ ~ entries_fit (N.to_nat (unbe (take 2 (drop 2 rest')))) (drop 4 rest')) -> P) as Hk1.
  { intros P HP (r' & [= -> ->] & Hn). apply HP. apply parse_panics; [cbn in Hlen; lia|done]. }
  unfold handle_message. destruct (parse (ty :: rest)) as [m|w|w] eqn:Hp; cbn [run].
  2:{ right. split; [|by eexists]. intros [[Hx|[(?&?&?&?&_)|(?&?&?&_)]]|(_&?&?&?&?)]; try congruence. revert Hx. apply Hk1. intros [? ?]. done. }
  2:{ left. split; [|by eexists]. left. left. exists rest. assert (is_panic (parse (ty :: rest))) as Hx by (rewrite Hp; by eexists).
      apply parse_panics in Hx as [-> Hx]; [done|cbn in Hlen; lia]. }
  assert (forall P : Prop, (exists rest', ty :: rest = x03 :: rest' /\ ~ entries_fit (N.to_nat (unbe (take 2 (drop 2 rest')))) (drop 4 rest')) -> P) as Hk2.
  { intros P. apply Hk1. intros [? ?]. done. }
  assert ((forall reqid h cs, m <> DiscReq reqid h cs) -> (forall reqid h, m <> ListReq reqid h) -> ~ dies_on A e (ty :: rest)) as Hno.
  { intros N1 N2 [[Hx|[(?&?&?&E&_)|(?&?&E&_)]]|(_&?&?&?&E)]; [revert Hx; apply Hk2|..]; rewrite Hp in E; injection E as ->; first [by eapply N1|by eapply N2]. }
  destruct (parse_typed _ _ Hp) as [Ht _].
  destruct m as [reqid h cs|addr port reqid cs|reqid h|reqid es|h i cap|off data|off].
  - destruct Ht as (_ & Hh & Hcs). destruct (first_ipv4 addrs) as [r|] eqn:Ef.
    + pose proof (first_ipv4_spec addrs Hw) as Hs. rewrite Ef in Hs. destruct Hs as (Ho & _).
      pose proof (respond_discover_run cwd dir dl A s f e ra reqid h cs addrs _ H He Hw Ho Hh Hcs) as Hr.
      destruct (decide _) as [Hd|Hd].
      * left. split; [|exact Hr]. left. right. left. exists reqid, h, cs. tauto.
      * right. split; [|destruct Hr as (s' & out & Hr & _); by eexists].
        intros [[Hx|[(r1&h1&c1&E&Hx)|(?&?&E&_)]]|(Hx&_)]; [revert Hx; apply Hk2| |congruence|].
        -- rewrite Hp in E. injection E as <- <- <-. apply Hd. tauto.
        -- apply Hx. eauto.
    + left. split.
      * right. split; [|eauto]. intros (addrs' & a & E & Ho). rewrite He in E. injection E as <-.
        destruct (own_first addrs a Hw Ho) as (r & Hr & _). congruence.
      * unfold respond_discover. rewrite He. cbn [local_ip]. rewrite Ef. by eexists.
  - right. split; [apply Hno; done|]. by eexists.
  - destruct Ht as (_ & Hh). pose proof (respond_list_run cwd dir dl A s f e ra reqid h H Hh Hnd Hin) as Hr.
    destruct (decide _) as [Hd|Hd].
    + left. split; [|exact Hr]. left. right. right. exists reqid, h. tauto.
    + right. split; [|destruct Hr as (s' & out & Hr & _); by eexists].
      intros [[Hx|[(?&?&?&E&_)|(r1&h1&E&Hx)]]|(_&?&?&?&E)]; [revert Hx; apply Hk2|congruence| |congruence].
      rewrite Hp in E. injection E as <- <-. apply Hd. tauto.
  - right. split; [apply Hno; done|]. by eexists.
  - right. split; [apply Hno; done|]. destruct Ht as (_ & Hi & _).
    destruct (ipv4_dec lip) as [[ip Hip]|Hip].
    + destruct (A !! h) as [a|] eqn:Ha; [destruct (file_at f (a_path a)) as [l|] eqn:El; [destruct (decide (i ∈ a_held a)) as [Hh|Hh]|]|].
      * destruct (Hrd h a Ha) as [_ Hf]. destruct (entry_facts _ _ _ _ _ _ _ _ H Ha) as (F1 & F2 & F3 & F4).
        set (cs := Z.to_nat (a_chunk a)).
        set (u0 := default (new_sender (FRegular l) (rd_at l cs (N.to_nat i) 0) cap) (sv_uploads s !! up_key ip ra)).
        assert (exists l0 cs0 i0, (Z.of_nat cs0 < 4294967296)%Z /\ (Z.of_nat i0 < 65536)%Z /\ sends_at l0 cs0 i0 u0) as (l0 & cs0 & i0 & G1 & G2 & G3).
        { subst u0. destruct (sv_uploads s !! up_key ip ra) as [u|] eqn:Eu; cbn [default].
          - destruct (Hups _ _ Eu) as (l0 & cs0 & i0 & G1 & G2 & G3). exists l0, cs0, i0. split; [done|]. split; [done|]. apply carries_at; done.
          - exists l, cs, (N.to_nat i). split; [subst cs; lia|]. split; [unfold u16 in Hi; lia|]. split; [done|]. exists 0. split; [done|]. lia. }
        destruct (start_upload_run cwd dir dl A s f e h a l i cap ra ip u0 l0 cs0 i0) as (s' & u' & _ & _ & _ & _ & _ & Hrun); try done.
        { apply Hf. done. } { exists lip. done. } by eexists.
      * destruct (start_upload_refused cwd dir dl A s f e h i cap ra H Hi) as (s' & w & Hr & _); [intros b Hb; apply (Hrd h b Hb)|left; naive_solver|]. by eexists.
      * destruct (start_upload_refused cwd dir dl A s f e h i cap ra H Hi) as (s' & w & Hr & _); [intros b Hb; apply (Hrd h b Hb)|left; naive_solver|]. by eexists.
      * destruct (start_upload_refused cwd dir dl A s f e h i cap ra H Hi) as (s' & w & Hr & _); [intros b Hb; apply (Hrd h b Hb)|left; naive_solver|]. by eexists.
    + destruct (start_upload_refused cwd dir dl A s f e h i cap ra H Hi) as (s' & w & Hr & _); [intros b Hb; apply (Hrd h b Hb)|right; eauto|]. by eexists.
  - exfalso. eapply parse_not_data. done.
  - right. split; [apply Hno; done|]. unfold continue_upload. rewrite Hra.
    destruct (C66_lemma lip) as [G1 G2]. destruct (ipv4_dec lip) as [[ip Hip]|Hip].
    + rewrite (G1 _ Hip). cbn [on_ret]. destruct (_ !! _); cbn [run]; by eexists.
    + destruct (G2 Hip) as [w ->]. cbn [on_ret run]. by eexists.
Qed.
(** *** C54 *)
Lemma request_ids_eq n : forall s, (0 <= sv_reqid s < 65536)%Z ->
  request_ids n s = map (fun i => Z.to_N ((sv_reqid s + Z.of_nat i) mod 65536)) (seq 0 n).
Proof.
  induction n as [|n IH]; intros s Hs; [done|]. cbn [request_ids generate_request_id]. cbn [seq map]. f_equal.
  - unfold u16_of_int. rewrite Z.add_0_r. done.
  - rewrite IH by (cbn; rewrite Z.rem_mod_nonneg by lia; lia). rewrite <- seq_shift, map_map. apply map_ext. intros i. cbn [sv_reqid].
    rewrite Z.rem_mod_nonneg by lia. f_equal. lia.
Qed.
Lemma C54_lemma cwd dir dl A s f n : srv_reached cwd dir dl A s f ->
  length (request_ids n s) = n /\ Forall u16 (request_ids n s)
  /\ (forall i j a b, request_ids n s !! i = Some a -> request_ids n s !! j = Some b -> (i < j)%nat -> (Z.of_nat (j - i) < 65536)%Z -> a <> b)
  /\ (forall i j a b, request_ids n s !! i = Some a -> request_ids n s !! j = Some b -> (Z.of_nat j = Z.of_nat i + 65536)%Z -> a = b).
Proof.
  intros H. destruct (srv_inv _ _ _ _ _ _ H) as (_ & Hs & _). rewrite request_ids_eq by done.
  assert (forall i a, map (fun i => Z.to_N ((sv_reqid s + Z.of_nat i) mod 65536)) (seq 0 n) !! i = Some a ->
    a = Z.to_N ((sv_reqid s + Z.of_nat i) mod 65536)) as Hl.
  { intros i a Hi. rewrite list_lookup_fmap in Hi. apply fmap_Some in Hi as (k & Hk & ->). apply lookup_seq in Hk as [-> _]. done. }
  split; [rewrite map_length, seq_length; done|]. split; [apply Forall_forall; intros x Hx; apply elem_of_list_lookup in Hx as [i Hi]; rewrite (Hl _ _ Hi); unfold u16; lia|].
  split; intros i j a b Hi Hj; rewrite (Hl _ _ Hi), (Hl _ _ Hj); [intros Hij Hd|intros Hd]; lia.
Qed.
Lemma C54_others_lemma cwd dir dl A s f e buffer ra f' s' ds r : srv_reached cwd dir dl A s f ->
  NoDup (en_order e) -> (forall h, h ∈ en_order e <-> A !! h <> None) ->
  run f (handle_message e s buffer ra) = (f', Done (s', ds, r)) -> forall n, request_ids n s' = request_ids n s.
Proof.
  intros H Hnd Hin Hr n. destruct (srv_inv _ _ _ _ _ _ H) as (H1 & Hs & _).
  destruct (handle_keeps _ _ _ _ _ _ _ _ _ _ _ _ _ H1 Hnd Hin Hr) as (_ & _ & _ & Hq & _).
  rewrite !request_ids_eq by lia. rewrite Hq. done.
Qed.
(** *** C62 *)
Lemma good_loop own n : forall i resps acc, i + n = length resps ->
  good_hosts_loop own n i resps acc = Ok (acc ++ filter (fun r => 0 < length (h_chunks r) /\ h_addr r <> own) (drop i resps)).
Proof.
  induction n as [|n IH]; intros i resps acc Hl; cbn [good_hosts_loop].
  - rewrite drop_ge by lia. rewrite app_nil_r. done.
  - destruct (lookup_lt_is_Some_2 resps i ltac:(lia)) as [r Hr]. rewrite Hr. rewrite IH by lia. rewrite (drop_S _ _ _ Hr). rewrite filter_cons.
    destruct (decide _); rewrite <- ?app_assoc; done.
Qed.
Lemma filter_selected {X} (P Q : X -> Prop) `{forall x, Decision (P x)} xs : (forall x, P x <-> Q x) -> selected Q xs (filter P xs).
Proof.
  intros HPQ. induction xs as [|x xs IH]; [constructor|]. rewrite filter_cons. destruct (decide (P x)) as [Hx|Hx]; rewrite HPQ in Hx; constructor; done.
Qed.
Lemma C62_lemma own resps : exists l, good_hosts own resps = Ok l /\ selected (good own) resps l.
Proof.
  unfold good_hosts. rewrite good_loop by lia. rewrite drop_0. eexists. split; [done|]. cbn [app]. apply filter_selected.
  intros r. unfold good. destruct (h_chunks r); cbn; intuition (try lia; try done).
Qed.
