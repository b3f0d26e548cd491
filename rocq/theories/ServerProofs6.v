(** Proofs about message handling, part 6: fragmented progress and large listings. *)
From Verif Require Export ServerProofs5 CatalogueCases.
From Coq Require Import ZifyBool ZifyNat ZifyN.
Ltac Zify.zify_post_hook ::= Z.div_mod_to_equations.

(** *** C58 *)
Lemma be2s_app xs ys : be2s (xs ++ ys) = be2s xs ++ be2s ys.
Proof. unfold be2s. rewrite ?map_app, ?concat_app, ?flat_map_app. done. Qed.
Lemma be2s_len xs : length (be2s xs) = 2 * length xs.
Proof. induction xs as [|x xs IH]; [done|]. change (be2s (x :: xs)) with (be 2 x ++ be2s xs). rewrite app_length, be_length, IH. cbn. lia. Qed.
Lemma Nb_mod n : Nb (n mod 256) = Nb n.
Proof. rewrite <- (Nb_bN (Nb n)). rewrite bN_Nb. done. Qed.
(** a reply is cut to the number of chunks that the count byte announces, even when
    the datagram itself is cut to the buffer *)
Lemma reply_received a p r cs : length a = 4 -> u16 p -> u16 r -> Forall u16 cs ->
  parse (udp_buffer 1024 (serialize (DiscResp a p r cs))) = Ok (DiscResp a p r (take (length cs mod 256) cs)).
Proof.
  intros Ha Hp Hr Hc. set (n := length cs mod 256). set (cs1 := take n cs).
  assert (length cs1 = n) as Hl by (subst cs1 n; rewrite take_length; lia).
  assert (serialize (DiscResp a p r cs) = serialize (DiscResp a p r cs1) ++ be2s (drop n cs)) as Hs.
  { cbn [serialize]. rewrite !ser_disc_resp_eq by done. cbn [app]. f_equal. rewrite <- !app_assoc. f_equal. f_equal. f_equal.
    cbn [app]. f_equal.
    - rewrite Hl. rewrite <- (Nb_mod (N.of_nat (length cs))). rewrite <- (Nb_mod (N.of_nat n)). f_equal. subst n. lia.
    - rewrite <- be2s_app. subst cs1. rewrite take_drop. done. }
  assert (length (serialize (DiscResp a p r cs1)) <= 1024) as Hle.
  { rewrite serialize_length by (split_and!; try done; apply Forall_take; done). cbn [wire_size]. rewrite Hl. subst n. lia. }
  assert (exists tail, udp_buffer 1024 (serialize (DiscResp a p r cs)) = serialize (DiscResp a p r cs1) ++ tail) as [tail ->].
  { rewrite Hs. set (x := serialize (DiscResp a p r cs1)) in *. destruct (decide (length (x ++ be2s (drop n cs)) <= 1024)) as [Hd|Hd].
    - rewrite udp_buffer_fits by done. rewrite <- app_assoc. eauto.
    - rewrite udp_buffer_long by lia. rewrite take_app_ge by done. eauto. }
  rewrite parse_disc_resp by (done || (apply Forall_take; done)).
  rewrite Hl. do 2 f_equal. subst cs1. rewrite take_take. f_equal. subst n. lia.
Qed.
Lemma flatten_take ps k : take (2 * k) (flatten ps) = flatten (take k ps).
Proof.
  revert k. induction ps as [|[s e] ps IH]; intros [|k]; try done.
  unfold flatten in *. replace (2 * S k) with (S (S (2 * k))) by lia. cbn [flat_map app take fst snd]. rewrite IH. done.
Qed.
Lemma covered_typed ps : (forall x, covered ps x -> (x < 65536)%N) -> separated 0 ps -> Forall u16 (flatten ps).
Proof.
  intros Hc. assert (forall lo ps', separated lo ps' -> (forall p, p ∈ ps' -> p ∈ ps) -> Forall u16 (flatten ps')) as Haux.
  { intros lo ps'. revert lo. induction ps' as [|[s e] ps' IH]; intros lo Hs Hin; [constructor|].
    destruct Hs as (H1 & H2 & H3). unfold flatten. cbn [flat_map app fst snd].
    constructor; [apply Hc; exists s, e; split; [apply Hin; left|lia]|]. constructor; [apply Hc; exists s, e; split; [apply Hin; left|lia]|].
    eapply IH; [exact H3|]. intros p Hp. apply Hin. right. done. }
  intros Hs. eapply Haux; [exact Hs|done].
Qed.
Lemma C58_lemma cwd dir dl A s f e ra buffer reqid h a addrs ip :
  srv_reached cwd dir dl A s f -> en_ifs e = Some addrs -> Forall if_wf addrs -> own_address addrs ip ->
  en_wok e = true -> parse buffer = Ok (DiscReq reqid h []) -> h <> blank -> A !! h = Some a -> (a_count a <= 65536)%Z ->
  exists s' data ps, run f (handle_message e s buffer ra) =
      (f, Done (s', [mkDgram (slice_bytes (ua_ip ra)) (sv_port s) data], HRet (Ok tt)))
    /\ separated 0 ps /\ (forall x, covered ps x <-> x ∈ a_held a)
    /\ parse (udp_buffer 1024 data) = Ok (DiscResp ip (u16_of_int (sv_port s)) reqid (flatten (take (length ps mod 128) ps))).
Proof.
  intros Hsr He Hw Ho Hwok Hp Hb Ha Hmax. destruct (srv_inv _ _ _ _ _ _ Hsr) as (H & _ & _).
  destruct (parse_typed _ _ Hp) as [(Hr & _) _].
  destruct (C57_lemma cwd dir dl A s f e ra buffer reqid h [] addrs ip H He Hw Ho Hwok Hp) as (s' & cs & Hrun & Ht & _).
  { intros a' Ha'. simplify_eq. done. }
  unfold truthful in Ht. rewrite Ha, decide_False, decide_True in Ht by done. destruct Ht as (ps & -> & Hsep & Hcov).
  exists s'. eexists. exists ps. split; [exact Hrun|]. split; [done|]. split; [done|].
  pose proof (reached_synced _ _ _ _ _ _ H) as (_ & Hs & _).
  assert (forall x, x ∈ a_held a -> (Z.of_N x < a_count a)%Z) as Hx.
  { intros x Hx. destruct (get_record_ok _ f A h a Hs Ha) as (rr & b & _ & _ & _ & (Hbi & Hbn & Hbb) & _). cbn [fst snd] in *.
    apply Hbb in Hx. rewrite <- Hbn. apply (binv_bits _ Hbi). done. }
  rewrite reply_received.
  - rewrite flatten_length. do 2 f_equal. replace ((2 * length ps) mod 256) with (2 * (length ps mod 128)) by lia. apply flatten_take.
  - destruct Ho as (pre & i & post & _ & (? & _ & (? & _) & _) & _). done.
  - unfold u16, u16_of_int. lia.
  - done.
  - apply covered_typed; [|done]. intros x Hc. apply Hcov, Hx in Hc. lia.
Qed.
(** the number of runs, seen from the set *)
Lemma covered_low ps : forall lo y, separated lo ps -> covered ps y -> (lo <= y)%N.
Proof.
  induction ps as [|[s e] ps IH]; intros lo y.
  - intros _ (s & e & Hin & _). set_solver.
  - intros (H1 & H2 & H3) (s' & e' & Hin & Hy). apply elem_of_cons in Hin as [E|Hin]; [simplify_eq; lia|].
    assert (covered ps y) as Hcy by (exists s', e'; done). specialize (IH _ _ H3 Hcy). lia.
Qed.
Lemma covered_cons s e ps y : covered ((s, e) :: ps) y <-> (s <= y <= e)%N \/ covered ps y.
Proof.
  split.
  - intros (s' & e' & Hin & Hy). apply elem_of_cons in Hin as [E|Hin]; [simplify_eq; auto|]. right. exists s', e'. done.
  - intros [H|(s' & e' & Hin & Hy)]; [exists s, e; split; [left|done]|exists s', e'; split; [right; done|done]].
Qed.
Lemma starts_spec ps : forall lo x, separated lo ps ->
  (x ∈ map fst ps <-> covered ps x /\ forall y, (y + 1 = x)%N -> ~ covered ps y).
Proof.
  induction ps as [|[s e] ps IH]; intros lo x.
  - intros _. split; [intros H; set_solver|]. intros [(s & e & Hin & _) _]. set_solver.
  - intros (H1 & H2 & H3). cbn [map fst]. rewrite elem_of_cons, (IH _ x H3). split.
    + intros [->|[Hx Hy]].
      * split; [apply covered_cons; left; lia|]. intros y Hy Hc. apply covered_cons in Hc as [Hc|Hc]; [lia|].
        pose proof (covered_low _ _ _ H3 Hc). lia.
      * split; [apply covered_cons; right; done|]. intros y E Hc. apply covered_cons in Hc as [Hc|Hc]; [|by eapply Hy].
        pose proof (covered_low _ _ _ H3 Hx). lia.
    + intros [Hx Hy]. apply covered_cons in Hx as [Hx|Hx].
      * destruct (decide (x = s)) as [->|Hne]; [left; done|]. exfalso. apply (Hy (x - 1)%N); [lia|]. apply covered_cons. left. lia.
      * right. split; [done|]. intros y E Hc. apply (Hy y E). apply covered_cons. right. done.
Qed.
Lemma starts_nodup ps : forall lo, separated lo ps -> NoDup (map fst ps).
Proof.
  induction ps as [|[s e] ps IH]; intros lo; [constructor|]. intros (H1 & H2 & H3). cbn [map fst]. constructor; [|eauto].
  rewrite (starts_spec _ _ _ H3). intros [Hc _]. pose proof (covered_low _ _ _ H3 Hc). lia.
Qed.
Lemma runs_count ps X : separated 0 ps -> (forall x, covered ps x <-> x ∈ X) -> length ps = size (run_starts X).
Proof.
  intros Hs Hc. assert (run_starts X = list_to_set (map fst ps)) as ->.
  { apply set_eq. intros x. unfold run_starts. rewrite elem_of_filter, elem_of_list_to_set, (starts_spec _ _ _ Hs), <- !Hc. split.
    - intros [Hx Hin]. split; [done|]. intros y Hy. destruct Hx as [Hx|Hx]; [lia|]. replace y with (x - 1)%N by lia. done.
    - intros [Hin Hy]. split; [|done]. destruct (decide (x = 0%N)); [auto|]. right. apply Hy. lia. }
  rewrite size_list_to_set by (eapply starts_nodup; done). rewrite map_length. done.
Qed.

Definition evens : list nat := map (fun k => 2 * k) (seq 0 128).
Lemma ex_frag : exists A c f a, reached ex_cwd ex_dir ex_dl A c f /\ A !! hnew = Some a /\ a_count a = 256%Z
  /\ size (a_held a) = 128 /\ size (run_starts (a_held a)) = 128.
Proof.
  set (q := CRegister 256 0 1 hnew (bs "new")).
  assert (allowed ex_cwd ex_dir ex_dl {[habc := entry_abc]} ex1.1.2 q) as Hal.
  { cbn [q allowed]. split_and!; [lia|lia|lia|apply hnew_wf|]. unfold normal_name. split_and!; [done..|].
    refine (bool_decide_unpack (slash ∉ bs "new") _). vm_compute. done. }
  destruct (reached_call _ _ _ _ _ _ _ ex1_reached Hal) as (c & f & A' & ans & _ & Hsp & Hre).
  cbn [q aspec] in Hsp. rewrite hnew_free in Hsp. destruct Hsp as (Hsu & -> & _). set (a := new_entry _ _ _) in Hre.
  assert (a_path a = bs "/dl/new") as Hpath by (vm_compute; reflexivity).
  assert (parent (bs "/dl/new") = bs "/dl") as Hpar by (vm_compute; reflexivity).
  assert (can_write f (a_path a)) as Hcw.
  { rewrite Hpath. unfold can_write. rewrite Hpar, !Hsu by (vm_compute; discriminate). apply ex1_can. }
  destruct (saves_ok ex_cwd ex_dir ex_dl hnew 1 [] ltac:(lia) evens _ c f a (fun _ => False) (default [] (file_at f (a_path a))) Hre)
    as (c' & f' & A' & _ & H2 & H3 & _).
  { apply lookup_insert. } { reflexivity. } { done. } { rewrite Hpath. vm_compute. discriminate. }
  { apply (bool_decide_unpack _). vm_compute. done. } { apply holds_start. }
  exists A', c', f', (foldl hold a (map N.of_nat evens)). split; [done|]. split; [done|]. split.
  { rewrite foldl_hold_count; [reflexivity|]. apply (bool_decide_unpack _). vm_compute. done. }
  rewrite foldl_hold_held. change (a_held a) with (∅ : gset N). rewrite union_empty_r_L. split; vm_compute; reflexivity.
Qed.

(** *** C60 *)
Lemma entries_size_low es : 41 * length es <= entries_size es.
Proof. induction es as [|e es IH]; cbn [entries_size length]; [lia|]. lia. Qed.
Lemma C60_lemma cwd dir dl A s f e ra buffer reqid :
  srv_reached cwd dir dl A s f -> NoDup (en_order e) -> (forall k, k ∈ en_order e <-> A !! k <> None) ->
  en_wok e = true -> parse buffer = Ok (ListReq reqid blank) -> size A <= N.to_nat 65535 ->
  exists s' data es, run f (handle_message e s buffer ra) =
      (f, Done (s', [mkDgram (slice_bytes (ua_ip ra)) (ua_port ra) data], HRet (Ok tt)))
    /\ Forall2 (fun en k => exists a, A !! k = Some a /\ describes en k a) es (en_order e)
    /\ if decide (5 + entries_size es <= 1024)
       then listing_received (Some data) = Ok (map cut_name es)
       else is_panic (listing_received (Some data)).
Proof.
  intros Hsr Hnd Hin Hwok Hp Hsz. destruct (srv_inv _ _ _ _ _ _ Hsr) as (H & _ & _).
  destruct (parse_typed _ _ Hp) as [(Hr & Hh) _].
  pose proof (respond_list_run cwd dir dl A s f e ra reqid blank H Hh Hnd Hin) as Hrun. rewrite decide_False in Hrun by naive_solver.
  rewrite (decide_True (P := blank = blank)) in Hrun by done.
  destruct Hrun as (s' & es & Hrun & _ & _ & _ & _ & Hty & HF).
  exists s', (serialize (ListResp reqid es)), es. unfold handle_message. rewrite Hp, Hrun. unfold send. rewrite Hwok. split; [done|]. split; [done|].
  apply C60_received_lemma; [done|done|].
  assert (length es = size A) as Hlen; [|lia].
  rewrite (Forall2_length _ _ _ HF). rewrite <- size_dom.
  assert (dom A = list_to_set (en_order e)) as ->; [|rewrite size_list_to_set by done; done].
  apply set_eq. intros k. rewrite elem_of_dom, elem_of_list_to_set, Hin. symmetry. apply not_eq_None_Some.
Qed.
Lemma C60_crash_lemma cwd dir dl A s f e ra buffer reqid :
  srv_reached cwd dir dl A s f -> NoDup (en_order e) -> (forall k, k ∈ en_order e <-> A !! k <> None) ->
  en_wok e = true -> parse buffer = Ok (ListReq reqid blank) -> 25 <= size A <= N.to_nat 65535 ->
  exists s' data, run f (handle_message e s buffer ra) =
      (f, Done (s', [mkDgram (slice_bytes (ua_ip ra)) (ua_port ra) data], HRet (Ok tt)))
    /\ is_panic (listing_received (Some data)).
Proof.
  intros Hsr Hnd Hin Hwok Hp Hsz.
  destruct (C60_lemma cwd dir dl A s f e ra buffer reqid Hsr Hnd Hin Hwok Hp ltac:(lia)) as (s' & data & es & Hr & HF & Hd).
  exists s', data. split; [done|]. rewrite decide_False in Hd; [done|].
  pose proof (entries_size_low es). rewrite (Forall2_length _ _ _ HF) in *.
  assert (length (en_order e) = size A) as Hlen; [|lia].
  rewrite <- size_dom. assert (dom A = list_to_set (en_order e)) as ->; [|rewrite size_list_to_set by done; done].
  apply set_eq. intros k. rewrite elem_of_dom, elem_of_list_to_set, Hin. symmetry. apply not_eq_None_Some.
Qed.
(** a catalogue with any number of files *)
Definition nth_hash (n : nat) : hash := replicate 16 x05 ++ be 4 (N.of_nat n).
Lemma ex_many n : n <= 1000 -> exists A c f, reached ex_cwd ex_dir ex_dl A c f /\ size A = n
  /\ forall k, A !! k <> None -> exists i, i < n /\ k = nth_hash i.
Proof.
  induction n as [|n IH]; intros Hn.
  - exists ∅, ex_c0, ex_f0. split; [apply ex_reached0|]. split; [done|]. intros k Hk. rewrite lookup_empty in Hk. done.
  - destruct (IH ltac:(lia)) as (A & c & f & H & Hs & Hk).
    assert (A !! nth_hash n = None) as Hnone.
    { destruct (A !! nth_hash n) eqn:E; [|done]. exfalso. destruct (Hk (nth_hash n)) as (i & Hi & Ei); [congruence|].
      unfold nth_hash in Ei. apply app_inj_1 in Ei as [_ Ei]; [|done]. apply (f_equal unbe) in Ei.
      rewrite !unbe_be_small in Ei by (change (256 ^ N.of_nat 4)%N with 4294967296%N; lia). lia. }
    destruct (reached_call _ _ _ _ _ _ (CRegister 1 1 1 (nth_hash n) (bs "new")) H) as (c' & f' & A' & ans & _ & Hsp & Hre).
    { cbn [allowed]. split_and!; [lia|lia|lia|reflexivity|]. unfold normal_name. split_and!; [done..|].
      refine (bool_decide_unpack (slash ∉ bs "new") _). vm_compute. done. }
    cbn [aspec] in Hsp. rewrite Hnone in Hsp. destruct Hsp as (_ & -> & _). eexists _, c', f'. split; [exact Hre|]. split.
    + rewrite map_size_insert_None by done. lia.
    + intros k Hne. destruct (decide (k = nth_hash n)) as [->|E]; [exists n; split; [lia|done]|].
      rewrite lookup_insert_ne in Hne by done. destruct (Hk k Hne) as (i & Hi & ->). exists i. split; [lia|done].
Qed.
