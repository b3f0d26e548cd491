(** Proofs about the command line: a listing from another host, what can be read off
    a listing, and working directories. *)
From Verif Require Export CliProofs3.
From Verif Require Import JsonProofs JsonProofs2 PathProofs CatalogueProofs ServerProofs7 DownloadProofs4 HashProofs CleanProofs ServerProofs2 MessagesProofs.
From Coq Require Import ZifyBool ZifyNat ZifyN.
Ltac Zify.zify_post_hook ::= Z.div_mod_to_equations.

(** ** Two hosts *)
Lemma name_of_plain n : slash ∉ n -> name_of n = n.
Proof. intros H. rewrite name_of_base. unfold base_name. rewrite split_no_slash by done. done. Qed.
Lemma last_part (d d' x y : path) : d ++ slash :: x = d' ++ slash :: y -> slash ∉ x -> slash ∉ y -> x = y.
Proof.
  revert d'. induction d as [|b d IH]; intros d' E Hx Hy; destruct d' as [|b' d']; cbn in E.
  - injection E as E. done.
  - injection E as <- ->. destruct Hx. set_solver.
  - injection E as -> <-. destruct Hy. set_solver.
  - injection E as -> E. eauto.
Qed.
Lemma describes_text en h a : clean_abs (a_path a) -> describes en h a -> (a_count a < 4294967296)%Z -> (0 <= held a <= a_count a)%Z ->
  length (name_of (a_path a)) <= 255 -> remote_text (cut_name en) = shared_text h a /\ e_name en = name_of (a_path a)
    /\ Z.of_N (e_count (cut_name en)) = a_count a /\ Z.of_N (e_size (cut_name en)) = a_size a.
Proof.
  intros Hcl (D1 & D2 & D3 & D4 & D5 & D6 & d & D7) Hc Hh Hl. destruct (base_name_split _ Hcl) as [d' Hd'].
  assert (e_name en = name_of (a_path a)) as En.
  { rewrite name_of_base. apply (last_part d d'); [congruence|done|apply base_name_no_slash]. }
  unfold held in *. rewrite Z.mod_small in D2, D4 by lia. split; [|done]. unfold remote_text, shared_text, cut_name, held.
  cbn [e_name e_size e_hash e_count e_down e_chunk]. rewrite D1, D2, D3, D4, D5, En. rewrite take_ge by done. unfold file_text. rewrite (name_of_plain (name_of (a_path a))) by (rewrite name_of_base; apply base_name_no_slash). done.
Qed.
Lemma C82_two_hosts_lemma cwd dir dl A1 s1 f1 cwd2 dir2 dl2 A2 s2 f2 e2 ra a q :
  srv_reached cwd dir dl A1 s1 f1 -> srv_reached cwd2 dir2 dl2 A2 s2 f2 ->
  NoDup (en_order e2) -> (forall h, h ∈ en_order e2 <-> A2 !! h <> None) -> en_wok e2 = true ->
  length q = 4 -> address a (mapped q) ->
  (forall h x, A2 !! h = Some x -> (0 < a_count x < 4294967296)%Z /\ length (name_of (a_path x)) <= 255) ->
  listing_size A2 (en_order e2) <= 1024 ->
  let dg := question s1 q (replicate 20 xff) in
  exists s2' data,
    run f2 (handle_message e2 s2 (udp_buffer 1024 (dg_data dg)) ra) =
      (f2, Done (s2', [mkDgram (slice_bytes (ua_ip ra)) (ua_port ra) data], HRet (Ok tt)))
    /\ forall e1, ce_listing e1 = Some data ->
       exists s1', session true e1 s1 f1 [str "list"; a] = (f1, Some s1', [dg],
         Shown (concat (map (fun h => match A2 !! h with Some x => shared_text h x | None => [] end) (en_order e2)))).
Proof.
  intros Hs1 Hs2 Hnd Hin Hwok Hq Ha Hok Hsz dg. destruct (srv_inv _ _ _ _ _ _ Hs1) as (Hre1 & Hr1 & _). destruct (srv_inv _ _ _ _ _ _ Hs2) as (Hre2 & _ & _).
  assert (parse (udp_buffer 1024 (dg_data dg)) = Ok (ListReq (Z.to_N (sv_reqid s1)) blank)) as Hp.
  { unfold dg, question. cbn [dg_data]. rewrite buffer_parse; [done| |cbn; tauto|].
    - split; [unfold u16; lia|reflexivity].
    - vm_compute. lia. }
  assert (length (en_order e2) <= 24) as Hlen.
  { unfold listing_size in Hsz. revert Hsz. assert (forall k l, k + 41 * length l <= k + sum_list (map (fun h => match A2 !! h with Some a => 41 + length (name_of (a_path a)) | None => 0 end) l) \/ Exists (fun h => A2 !! h = None) l) as G.
    { intros k l. induction l as [|h l [IH|IH]]; [left; cbn; lia| |right; constructor 2; done]. destruct (A2 !! h) eqn:E; [|right; constructor; done].
      left. cbn [map sum_list_with length]. rewrite E. unfold id at 1. lia. }
    destruct (G 5 (en_order e2)) as [G1|G1]; [lia|]. apply Exists_exists in G1 as (h & Hm & E). apply Hin in Hm. done. }
  pose proof (order_length A2 (en_order e2) Hnd Hin) as Hol.
  destruct (C60_lemma _ _ _ _ _ _ _ ra _ _ Hs2 Hnd Hin Hwok Hp ltac:(lia)) as (s2' & data & es & Hrun & Hes & Hrecv).
  exists s2', data. split; [done|]. intros e1 He1.
  assert (Forall2 (fun en h => exists x, A2 !! h = Some x /\ remote_text (cut_name en) = shared_text h x /\ e_name en = name_of (a_path x)
       /\ Z.of_N (e_count (cut_name en)) = a_count x /\ Z.of_N (e_size (cut_name en)) = a_size x /\ (0 < a_count x)%Z /\ (a_size x < 9223372036854775808)%Z /\ length (e_name en) <= 255) es (en_order e2)) as Hes2.
  { eapply Forall2_impl; [exact Hes|]. intros en h (x & Hx & Hd). destruct (Hok _ _ Hx) as [Hc Hl].
    destruct (count_facts _ _ _ _ _ _ _ _ Hre2 Hx) as (_ & _ & Hh & _). destruct (entry_facts _ _ _ _ _ _ _ _ Hre2 Hx) as (_ & Hcl & Hs & _).
    destruct (describes_text en h x Hcl Hd ltac:(lia) Hh Hl) as (T1 & T2 & T3 & T4). exists x. rewrite T2. repeat (split; [done || lia|]). lia. }
  rewrite decide_True in Hrecv.
  2: { unfold listing_size in Hsz. enough (entries_size es = sum_list (map (fun h => match A2 !! h with Some a => 41 + length (name_of (a_path a)) | None => 0 end) (en_order e2))) as -> by lia.
       clear -Hes2. induction Hes2 as [|en h es hs (x & Hx & _ & Hn & _ & _ & _ & _ & Hl) _ IH]; [done|]. cbn [entries_size map sum_list_with]. rewrite Hx, IH, Hn in *. unfold id at 2. lia. }
  rewrite <- He1 in Hrecv.
  destruct (C82_lemma _ _ _ _ _ _ e1 a q (replicate 20 xff) [str "list"; a] _ Hs1 Hq Ha (or_introl (conj eq_refl eq_refl)) Hrecv) as (s1' & _ & Hshow & _).
  exists s1'. rewrite Hshow.
  - unfold dg. do 3 f_equal. rewrite map_map. clear -Hes2. induction Hes2 as [|en h es hs (x & Hx & T & _) _ IH]; [done|]. cbn [map]. rewrite Hx, T, IH. done.
  - apply Forall_map. clear -Hes2. induction Hes2 as [|en h es hs (x & Hx & _ & _ & T3 & T4 & T5 & T6 & _) _ IH]; constructor; [|done]. lia.
Qed.

(** ** Reading a listing *)
Definition with_nl (l : text) : text := l ++ nl.
Lemma lines_inj (ls ms : list text) : Forall (fun l => x0a ∉ l) ls -> Forall (fun l => x0a ∉ l) ms ->
  concat (map with_nl ls) = concat (map with_nl ms) -> ls = ms.
Proof.
  assert (forall (l m r t : text), x0a ∉ l -> x0a ∉ m -> l ++ x0a :: r = m ++ x0a :: t -> l = m /\ r = t) as Hcut.
  { induction l as [|b l IH]; intros m r t Hl Hm E; destruct m as [|c m]; cbn in E.
    - injection E as ->. done.
    - injection E as <- _. destruct Hm. set_solver.
    - injection E as -> _. destruct Hl. set_solver.
    - injection E as <- E. apply IH in E as [-> ->]; [done|set_solver|set_solver]. }
  intros Hl. revert ms. induction Hl as [|l ls Hl1 Hl2 IH]; intros ms Hm E; destruct Hm as [|m ms Hm1 Hm2]; cbn in E.
  - done.
  - unfold with_nl in E. destruct m; done.
  - unfold with_nl in E. destruct l; done.
  - unfold with_nl, nl in E. rewrite <- !app_assoc in E. cbn [app] in E. apply Hcut in E as [-> E]; [|done|done]. f_equal. apply IH; done.
Qed.
Record shown_item := mkShown { si_path : path; si_size : Z; si_hash : hash; si_count : Z; si_held : Z; si_chunk : Z }.
Definition shown_text (i : shown_item) : text := file_text (si_path i) (si_size i) (si_hash i) (si_count i) (si_held i) (si_chunk i).
Definition item_lines (i : shown_item) : list text :=
  [name_of (si_path i); tab ++ str "Path: " ++ si_path i; tab ++ str "Size (bytes): " ++ dec (si_size i); tab ++ str "Sha1 Hash: " ++ hash_string (si_hash i);
   tab ++ str "Chunk Count: " ++ dec (si_count i); tab ++ str "Chunks Downloaded: " ++ dec (si_held i); tab ++ str "Chunk Size: " ++ dec (si_chunk i);
   tab ++ str "Integrity: " ++ dec (percent (si_held i) (si_count i)) ++ str "%"].
Lemma shown_lines i : shown_text i = concat (map with_nl (item_lines i)).
Proof.
  unfold shown_text, item_lines, file_text, line, with_nl. cbn [map concat]. rewrite <- !app_assoc. rewrite app_nil_r. done.
Qed.
Lemma shown_all l : concat (map shown_text l) = concat (map with_nl (concat (map item_lines l))).
Proof. induction l as [|i l IH]; [done|]. cbn [map concat]. rewrite IH, shown_lines, map_app, concat_app. done. Qed.
Lemma not_nl_list (P : byte -> Prop) l : ~ P x0a -> Forall P l -> x0a ∉ l.
Proof. intros Hn HF Hin. rewrite Forall_forall in HF. auto. Qed.
Lemma dec_no_nl z : x0a ∉ dec z.
Proof.
  unfold dec, print_int. pose proof (print_nat_digits (Z.to_N z)) as H1. pose proof (print_nat_digits (Z.to_N (- z))) as H2.
  apply not_nl_list in H1; [|done]. apply not_nl_list in H2; [|done]. destruct (z <? 0)%Z; [|done]. set_solver.
Qed.
Lemma hash_no_nl h : hash_wf h -> x0a ∉ hash_string h.
Proof. intros H. destruct (C14_string_shape_lemma h H) as (_ & Hx & _). eapply not_nl_list; [|exact Hx]. intros G. destruct (proj1 (from_hex_char_some x0a) G) as [n Hn]. done. Qed.
Lemma split_part p c b : c ∈ split_slash p -> b ∈ c -> b ∈ p.
Proof.
  revert c. induction p as [|x p IH]; intros c Hc Hb; cbn [split_slash] in Hc; [apply elem_of_list_singleton in Hc; subst; done|].
  case_decide.
  - apply elem_of_cons in Hc as [->|Hc]; [inversion Hb|]. right. eauto.
  - destruct (split_slash p) as [|w ws] eqn:E.
    + apply elem_of_list_singleton in Hc; subst. apply elem_of_list_singleton in Hb. subst. left.
    + apply elem_of_cons in Hc as [->|Hc]; [|right; eapply IH; [right; done|done]].
      apply elem_of_cons in Hb as [->|Hb]; [left|]. right. eapply IH; [left|done].
Qed.
Lemma base_no_nl p : x0a ∉ p -> x0a ∉ name_of p.
Proof.
  intros H G. apply H. rewrite name_of_base in G. unfold base_name in G. pose proof (split_nonempty p) as Hn. destruct (exists_last Hn) as (l & c & E). rewrite E, last_last in G.
  eapply split_part; [|exact G]. rewrite E. set_solver.
Qed.
Definition readable_item (i : shown_item) : Prop :=
  x0a ∉ si_path i /\ hash_wf (si_hash i) /\ Forall (fun z => -9223372036854775808 <= z < 9223372036854775808)%Z [si_size i; si_count i; si_held i; si_chunk i].
Lemma no_nl_b (l : text) : forallb (fun b => negb (bool_decide (b = x0a))) l = true -> x0a ∉ l.
Proof. intros H G. rewrite forallb_forall in H. apply elem_of_list_In in G. specialize (H _ G). rewrite bool_decide_true in H by done. done. Qed.
Lemma item_lines_no_nl i : readable_item i -> Forall (fun l => x0a ∉ l) (item_lines i).
Proof.
  intros (Hp & Hh & _). unfold item_lines.
  assert (forall pre s v : text, forallb (fun b => negb (bool_decide (b = x0a))) (pre ++ s) = true -> x0a ∉ v -> x0a ∉ pre ++ s ++ v) as Happ.
  { intros pre s v H1 H2. rewrite app_assoc. intros G; apply elem_of_app in G as [G|G]; [|auto]. apply no_nl_b in H1. auto. }
  repeat constructor; try (apply Happ; [reflexivity|]).
  - apply base_no_nl; done.
  - done.
  - apply dec_no_nl.
  - apply hash_no_nl; done.
  - apply dec_no_nl.
  - apply dec_no_nl.
  - apply dec_no_nl.
  - intros G. apply elem_of_app in G as [G|G]; [eapply dec_no_nl; done|]. revert G. apply no_nl_b. reflexivity.
Qed.
Lemma dec_inj a b : (-9223372036854775808 <= a < 9223372036854775808)%Z -> (-9223372036854775808 <= b < 9223372036854775808)%Z -> dec a = dec b -> a = b.
Proof. intros Ha Hb E. apply parse_print_int in Ha, Hb. unfold dec in E. congruence. Qed.
Lemma shown_inj l : forall m, Forall readable_item l -> Forall readable_item m -> concat (map shown_text l) = concat (map shown_text m) -> l = m.
Proof.
  intros m Hl Hm E. rewrite !shown_all in E. apply lines_inj in E.
  - revert m Hm E. induction Hl as [|i l Hi Hl IH]; intros m Hm E; destruct Hm as [|j m Hj Hm]; [done|cbn in E; discriminate E|cbn in E; discriminate E|].
    cbn [map concat item_lines app] in E. injection E as _ E2 E3 E4 E5 E6 E7 _ E8. f_equal; [|apply IH; done].
    destruct Hi as (_ & _ & Bi), Hj as (_ & _ & Bj). rewrite !Forall_cons in Bi, Bj. destruct Bi as (B1 & B2 & B3 & B4 & _), Bj as (C1 & C2 & C3 & C4 & _).
    apply dec_inj in E3, E5, E6, E7; [|done..]. apply C14_string_inj_lemma in E4. destruct i, j; cbn in *. congruence.
  - clear E. induction Hl as [|i l Hi Hl IH]; [constructor|]. cbn [map concat]. apply Forall_app. split; [apply item_lines_no_nl; done|done].
  - clear E Hl. induction Hm as [|i m Hi Hm IH]; [constructor|]. cbn [map concat]. apply Forall_app. split; [apply item_lines_no_nl; done|done].
Qed.
Lemma C79_lemma cwd dir dl A c f cwd' dir' dl' A' c' f' order order' :
  reached cwd dir dl A c f -> reached cwd' dir' dl' A' c' f' ->
  (forall h, h ∈ order <-> A !! h <> None) -> (forall h, h ∈ order' <-> A' !! h <> None) ->
  (forall h a, A !! h = Some a -> x0a ∉ a_path a) -> (forall h a, A' !! h = Some a -> x0a ∉ a_path a) ->
  listing A order = listing A' order' -> order = order' /\ forall h, seen <$> A !! h = seen <$> A' !! h.
Proof.
  assert (forall cwd dir dl A c f order, reached cwd dir dl A c f -> (forall h, h ∈ order -> A !! h <> None) -> (forall h a, A !! h = Some a -> x0a ∉ a_path a) ->
    exists l, listing A order = concat (map shown_text l) /\ Forall readable_item l /\ order = map si_hash l
      /\ Forall (fun i => seen <$> A !! si_hash i = Some (si_path i, si_size i, si_chunk i, si_count i, si_held i)) l) as Hex.
  { clear. intros cwd dir dl A c f order Hre Hin Hnl. induction order as [|h order IH]; [exists []; done|].
    destruct IH as (l & E1 & E2 & E3 & E4); [intros k Hk; apply Hin; right; done|].
    destruct (A !! h) as [a|] eqn:Ha; [|destruct (Hin h); [left|done]].
    exists (mkShown (a_path a) (a_size a) h (a_count a) (held a) (a_chunk a) :: l).
    unfold listing in *. cbn [map concat]. rewrite Ha, E1, E3. cbn [si_hash]. split; [done|]. split; [|split; [done|]].
    - constructor; [|done]. destruct (entry_facts _ _ _ _ _ _ _ _ Hre Ha) as (F1 & F2 & F3 & F4). destruct (count_facts _ _ _ _ _ _ _ _ Hre Ha) as (_ & G1 & G2 & _).
      split; [eapply Hnl; exact Ha|]. split; [done|]. cbn [si_size si_count si_held si_chunk]. rewrite !Forall_cons. repeat (split; [lia|]). done.
    - constructor; [|done]. cbn [si_hash si_path si_size si_chunk si_count si_held]. rewrite Ha. done. }
  intros Hre Hre' Hin Hin' Hnl Hnl' E.
  destruct (Hex _ _ _ _ _ _ order Hre (fun h => proj1 (Hin h)) Hnl) as (l & E1 & E2 & E3 & E4).
  destruct (Hex _ _ _ _ _ _ order' Hre' (fun h => proj1 (Hin' h)) Hnl') as (m & G1 & G2 & G3 & G4).
  rewrite E1, G1 in E. apply shown_inj in E; [|done|done]. subst m. split; [congruence|]. intros h.
  destruct (decide (h ∈ order)) as [Hh|Hh].
  - rewrite E3 in Hh. apply elem_of_list_fmap in Hh as (i & -> & Hi). rewrite Forall_forall in E4, G4. rewrite (E4 _ Hi), (G4 _ Hi). done.
  - assert (A !! h = None) as ->. { destruct (A !! h) eqn:Eh; [|done]. destruct Hh. apply Hin. congruence. }
    assert (A' !! h = None) as ->; [|done]. destruct (A' !! h) eqn:Eh; [|done]. destruct Hh. rewrite E3, <- G3. apply Hin'. congruence.
Qed.
(** a file name with a line break puts a hash into the listing that no file has *)
Lemma C79_forged_lemma cwd dir dl A s f e h a u v k :
  srv_reached cwd dir dl A s f -> NoDup (ce_order e) -> (forall h, h ∈ ce_order e <-> A !! h <> None) -> (forall h a, A !! h = Some a -> a_count a <> 0%Z) ->
  A !! h = Some a -> a_path a = u ++ nl ++ line "Sha1 Hash: " (hash_string k) ++ v ->
  exists s' before after, session true e s f [str "list"] = (f, Some s', [], Shown (before ++ nl ++ line "Sha1 Hash: " (hash_string k) ++ after)).
Proof.
  intros Hsr Hnd Hin Hc Ha Hp. destruct (C68_list_lemma _ _ _ _ _ _ _ Hsr Hnd Hin) as (s' & _ & [[_ ->]|[(h' & a' & H1 & _ & H2) _]]); [|destruct (Hc _ _ H1 H2)].
  assert (h ∈ ce_order e) as Hh by (apply Hin; congruence). apply elem_of_list_split in Hh as (o1 & o2 & ->).
  unfold listing. rewrite map_app, concat_app. cbn [map concat]. rewrite Ha.
  generalize (concat (map (fun h => match A !! h with Some a => entry_text h a | None => [] end) o1)) as X.
  generalize (concat (map (fun h => match A !! h with Some a => entry_text h a | None => [] end) o2)) as Y. intros Y X. unfold entry_text, file_text. generalize (name_of (a_path a)) as B. intros B. rewrite Hp.
  change (line "Path: " ?x) with (tab ++ str "Path: " ++ x ++ nl). exists s'. eexists (X ++ B ++ nl ++ tab ++ str "Path: " ++ u), _. do 2 f_equal. rewrite <- !app_assoc. reflexivity.
Qed.

(** ** Working directories *)
Lemma abs_rooted d d' p : is_rooted p = true -> abs d p = abs d' p.
Proof. unfold abs. intros ->. done. Qed.
