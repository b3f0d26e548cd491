(** The remaining lemmas about the command line, and a concrete daemon and client. *)
From Verif Require Export CliProofs4.
From Verif Require Import JsonProofs PathProofs CatalogueProofs ServerProofs7 DownloadProofs4 HashProofs CleanProofs ServerProofs2 ServerProofs3 MessagesProofs.
From Coq Require Import ZifyBool ZifyNat ZifyN.
Ltac Zify.zify_post_hook ::= Z.div_mod_to_equations.

Lemma C67_lemma cwd dir dl A s f e :
  srv_reached cwd dir dl A s f -> NoDup (ce_order e) -> (forall h, h ∈ ce_order e <-> A !! h <> None) ->
  (forall h a, A !! h = Some a -> a_count a <> 0%Z) ->
  (exists s', session true e s f [str "list"] = (f, Some s', [], Shown (listing A (ce_order e))))
  /\ forall h a, A !! h = Some a ->
       (0 <= percent (held a) (a_count a) <= 100)%Z
       /\ (percent (held a) (a_count a) * a_count a <= 100 * held a < (percent (held a) (a_count a) + 1) * a_count a)%Z
       /\ (percent (held a) (a_count a) = 100%Z <-> complete a).
Proof.
  intros Hsr Hnd Hin Hc. split.
  - destruct (C68_list_lemma _ _ _ _ _ _ _ Hsr Hnd Hin) as (s' & _ & [[_ H]|[(h' & a' & H1 & _ & H2) _]]); [eauto|destruct (Hc _ _ H1 H2)].
  - intros h a Ha. pose proof (proj1 (srv_inv _ _ _ _ _ _ Hsr)) as Hre. destruct (count_facts _ _ _ _ _ _ _ _ Hre Ha) as (_ & Hn & Hh & _).
    specialize (Hc _ _ Ha). destruct (percent_facts (held a) (a_count a) Hh ltac:(lia)) as (P1 & P2 & P3). split; [done|]. split; [done|].
    rewrite P2. unfold complete. eapply held_all; done.
Qed.
Lemma one_entry reqid en : u16 reqid -> entry_typed en -> length (e_name en) <= 255 ->
  listing_received (Some (serialize (ListResp reqid [en]))) = Ok [en].
Proof.
  intros Hr Ht Hl. pose proof (C60_received_lemma reqid [en] Hr ltac:(constructor; done) ltac:(cbn; lia)) as H.
  rewrite decide_True in H by (cbn [entries_size]; lia). rewrite H. cbn [map]. unfold cut_name. rewrite take_ge by done. destruct en; done.
Qed.
Lemma C67_remote_lemma cwd dir dl A s f e a q reqid en :
  srv_reached cwd dir dl A s f -> length q = 4 -> address a (mapped q) -> u16 reqid -> entry_typed en -> length (e_name en) <= 255 ->
  (0 < e_count en)%N -> (e_size en < 9223372036854775808)%N -> (101 * e_count en <= 100 * e_down en)%N ->
  ce_listing e = Some (serialize (ListResp reqid [en])) ->
  (exists s', session true e s f [str "list"; a] = (f, Some s', [question s q (replicate 20 xff)], Shown (remote_text en)))
  /\ (100 < percent (Z.of_N (e_down en)) (Z.of_N (e_count en)))%Z.
Proof.
  intros Hsr Hq Ha Hr Ht Hl Hc Hs Hd He. split.
  - pose proof (one_entry reqid en Hr Ht Hl) as H. rewrite <- He in H.
    destruct (C82_lemma _ _ _ _ _ _ e a q (replicate 20 xff) [str "list"; a] _ Hsr Hq Ha (or_introl (conj eq_refl eq_refl)) H) as (s' & _ & G & _).
    exists s'. rewrite G by (constructor; [lia|done]). cbn [map concat]. rewrite app_nil_r. done.
  - unfold percent. apply Z.lt_le_trans with (m := 101%Z); [lia|]. apply Z.div_le_lower_bound; lia.
Qed.
Lemma C82_size_lemma cwd dir dl A s f e a q reqid en :
  srv_reached cwd dir dl A s f -> length q = 4 -> address a (mapped q) -> u16 reqid -> entry_typed en -> length (e_name en) <= 255 ->
  (0 < e_count en)%N -> (9223372036854775808 <= e_size en)%N ->
  ce_listing e = Some (serialize (ListResp reqid [en])) ->
  exists s' sz, session true e s f [str "list"; a] = (f, Some s', [question s q (replicate 20 xff)],
     Shown (file_text (e_name en) sz (e_hash en) (Z.of_N (e_count en)) (Z.of_N (e_down en)) (Z.of_N (e_chunk en)))) /\ (sz < 0)%Z.
Proof.
  intros Hsr Hq Ha Hr Ht Hl Hc Hs He.
  pose proof (one_entry reqid en Hr Ht Hl) as H. rewrite <- He in H. destruct (srv_inv _ _ _ _ _ _ Hsr) as (_ & Hrq & _).
  exists (generate_request_id s).2, (int_of_u64 (e_size en)).
  rewrite (session_cases _ _ _ _ _ (list_args_parse _ _ (replicate 20 xff) _ Ha (or_introl (conj eq_refl eq_refl)))), (remote_run e s f q _ Hq Hrq), H.
  cbn [response_text map texts]. destruct Ht as (T1 & T2 & T3 & T4 & T5). unfold u32, u64 in *. unfold item_of_entry.
  rewrite item_text_ok by lia. cbn [rbind]. rewrite app_nil_r. split; [done|]. unfold int_of_u64, p63, p64. destruct (N.ltb_spec (e_size en) 9223372036854775808); lia.
Qed.
Lemma C68_empty_lemma cwd dir dl A s f e p e' :
  srv_reached cwd dir dl A s f -> ce_cwd e = cwd -> file_at f (abs cwd p) = Some [] -> A !! sha1 [] = None ->
  NoDup (ce_order e') -> (forall h, h ∈ ce_order e' <-> h = sha1 [] \/ A !! h <> None) ->
  exists s' f', session true e s f [str "share"; p] = (f', Some s', [], Crashed)
    /\ exists s2, session true e' s' f' [str "list"] = (f', Some s2, [], Crashed).
Proof.
  intros Hsr Hcw Hf Hn Hnd Hin.
  destruct (C68_share_lemma _ _ _ _ _ _ e p [] Hsr Hcw Hf ltac:(unfold small; cbn; lia) Hn) as (s' & f' & Hsr' & _ & Hs).
  exists s', f'. split; [exact Hs|].
  destruct (C68_list_lemma _ _ _ _ _ _ e' Hsr' Hnd) as (s2 & _ & [[H _]|[_ H]]).
  - intros h. rewrite Hin. destruct (decide (h = sha1 [])) as [->|N]; [rewrite lookup_insert; split; [intros _; discriminate|intros _; left; reflexivity]|rewrite lookup_insert_ne by done]. split; [intros [E|E]; [destruct (N E)|exact E]|intros E; right; exact E].
  - destruct (H (sha1 []) (full_entry (abs cwd p) 0 4194304)); [apply lookup_insert|reflexivity].
  - eauto.
Qed.
Lemma dotted_address t q : dotted t q -> length q = 4 /\ address t (mapped q).
Proof. intros H. split; [|left; eauto]. pose proof (address_length t (mapped q) (or_introl (ex_intro _ q (conj H eq_refl)))) as E.
  unfold mapped in E. rewrite app_length, replicate_length, app_length in E. cbn in E. lia. Qed.
Lemma C69_dotted_lemma cwd dir dl A s f e a q h argv :
  srv_reached cwd dir dl A s f -> dotted a q -> list_args a h argv -> ~ is_panic (listing_received (ce_listing e)) ->
  exists s' end_, session true e s f argv = (f, Some s', [question s q h], end_) /\ srv_reached cwd dir dl A s' f.
Proof.
  intros Hsr Hd Hargs Hp. destruct (dotted_address _ _ Hd) as [Hq Ha].
  destruct (C69_lemma _ _ _ _ _ _ e _ _ _ _ Hsr Ha Hargs) as [_ H]. eapply (H q); done.
Qed.
Lemma C69_six_lemma cwd dir dl A s f e a ip h argv :
  srv_reached cwd dir dl A s f -> v6_text a ip -> take 12 ip <> replicate 10 x00 ++ [xff; xff] -> list_args a h argv ->
  session true e s f argv = (f, None, [], Failed).
Proof.
  intros Hsr Ha Hn Hargs. destruct (C69_lemma _ _ _ _ _ _ e a ip _ _ Hsr (or_intror Ha) Hargs) as [H _]. apply H. intros q _ ->. destruct Hn. done.
Qed.
Lemma get_alone : client_parse [str "get"] = PDie.
Proof. reflexivity. Qed.
Lemma C72_die_lemma argv : client_parse argv = PDie <-> argv = [str "get"].
Proof.
  split; [|intros ->; reflexivity]. intros H. destruct (decide (argv = [str "get"])) as [|Hn]; [done|]. exfalso.
  destruct argv as [|cmd args]; [done|]. revert H. cbn [client_parse]. unfold arg_count, arg_hash.
  destruct (decide (cmd = str "share")); [case_decide as E; [destruct args; done|done]|].
  destruct (decide (cmd = str "clean")); [case_decide; done|].
  destruct (decide (cmd = str "list")).
  { cbn zeta. destruct args as [|a [|x rest]]; [done|destruct (parse_ip a); done|destruct (parse_ip a); [|done]].
    destruct (from_string_safe _ x) as [h [|]]; done. }
  destruct (decide (cmd = str "get")) as [->|].
  { destruct args as [|x rest]; [done|]. destruct (from_string_safe _ x) as [h [|]]; [done|]. case_decide; done. }
  destruct (decide (cmd = str "chims")); [|done]. destruct args as [|x rest]; [done|]. destruct (from_string_safe _ x) as [h [|]]; done.
Qed.
Lemma C72_code_lemma argv code : client_parse argv = PRefuse code <-> refused_with code argv.
Proof.
  split.
  - destruct argv as [|cmd args]; [intros [= <-]; constructor|]. cbn [client_parse]. unfold arg_count.
    destruct (decide (cmd = str "share")) as [->|N1].
    { case_decide as E; [destruct args; done|]. intros [= <-]. apply rw_share. done. }
    destruct (decide (cmd = str "clean")) as [->|N2].
    { case_decide as E; [done|]. intros [= <-]. apply rw_clean. intros ->. done. }
    destruct (decide (cmd = str "list")) as [->|N3].
    { cbn zeta. destruct args as [|a rest]; [done|]. destruct (parse_ip a) as [ip|] eqn:Ea.
      - destruct rest as [|x rest]; [done|]. destruct (arg_hash_cases (hash_blank zero_hash) x (fun h => PSend (RqList ip h)) eq_refl) as [(h & Hh & ->)|[Hn ->]]; [done|].
        intros [= <-]. eapply rw_list; [apply address_parse; exact Ea|done].
      - intros [= <-]. apply rw_address. intros ip Hip. apply address_parse in Hip. congruence. }
    destruct (decide (cmd = str "get")) as [->|N4].
    { destruct args as [|x rest]; [done|]. set (k := fun h : hash => _). destruct (arg_hash_cases zero_hash x k eq_refl) as [(h & Hh & ->)|[Hn ->]].
      - subst k. cbn beta. case_decide as E; [done|]. intros [= <-]. apply rw_get. right. intros ->. done.
      - intros [= <-]. apply rw_get. auto. }
    destruct (decide (cmd = str "chims")) as [->|N5].
    { destruct args as [|x rest]; [done|]. destruct (arg_hash_cases zero_hash x (fun h => PSend (RqChims h)) eq_refl) as [(h & Hh & ->)|[Hn ->]]; [done|].
      intros [= <-]. apply rw_chims. done. }
    intros [= <-]. apply rw_unknown. repeat constructor; done.
  - intros H. destruct H as [|cmd args H|a rest H|args H|args H|a ip x rest Ha H|x rest H|x rest H]; cbn [client_parse].
    + done.
    + rewrite !Forall_cons in H. destruct H as (N1 & N2 & N3 & N4 & N5 & _). rewrite !decide_False by done. done.
    + do 2 rewrite decide_False by done. rewrite decide_True by done. cbn zeta. destruct (parse_ip a) as [ip|] eqn:Ea; [|done].
      apply address_parse in Ea. destruct (H _ Ea).
    + rewrite decide_True by done. unfold arg_count. rewrite decide_False by congruence. done.
    + rewrite decide_False by done. rewrite decide_True by done. unfold arg_count. rewrite decide_False; [done|]. destruct args; done.
    + do 2 rewrite decide_False by done. rewrite decide_True by done. cbn zeta. apply address_parse in Ha. rewrite Ha.
      destruct (arg_hash_cases (hash_blank zero_hash) x (fun h => PSend (RqList ip h)) eq_refl) as [(h & Hh & _)|[Hn ->]]; [destruct (H _ Hh)|done].
    + do 3 rewrite decide_False by done. rewrite decide_True by done. set (k := fun h : hash => _).
      destruct (arg_hash_cases zero_hash x k eq_refl) as [(h & Hh & ->)|[Hn ->]]; [|done].
      subst k. cbn beta. unfold arg_count. destruct H as [H|H]; [destruct (H _ Hh)|]. rewrite decide_False; [done|]. destruct rest; done.
    + do 4 rewrite decide_False by done. rewrite decide_True by done.
      destruct (arg_hash_cases zero_hash x (fun h => PSend (RqChims h)) eq_refl) as [(h & Hh & _)|[Hn ->]]; [destruct (H _ Hh)|done].
Qed.
Lemma C72_harmless_lemma up e s f argv code : refused_with code argv ->
  session up e s f argv = (f, Some s, [], if decide (up = true \/ argv = []) then Refused code else Crashed).
Proof.
  intros H. destruct argv as [|cmd args].
  - inversion H. rewrite decide_True by auto. done.
  - destruct up; cbn [session].
    + apply C72_code_lemma in H. rewrite H. rewrite decide_True by auto. done.
    + rewrite decide_False by (intros [?|?]; done). done.
Qed.
Lemma C78_absolute_lemma cwd dir dl A s f e wd p l :
  srv_reached cwd dir dl A s f -> ce_cwd e = cwd -> is_rooted p = true -> file_at f (abs wd p) = Some l -> small l -> l <> [] -> A !! sha1 l = None ->
  exists s' f', srv_reached cwd dir dl (<[sha1 l := full_entry (abs wd p) (Z.of_nat (length l)) 4194304]> A) s' f' /\
    session true e s f [str "share"; p] = (f', Some s', [], Shown (entry_text (sha1 l) (full_entry (abs wd p) (Z.of_nat (length l)) 4194304))).
Proof.
  intros Hsr Hcw Hr. rewrite (abs_rooted wd cwd p Hr). intros Hf Hsm Hl Hn.
  destruct (C68_share_lemma _ _ _ _ _ _ e p l Hsr Hcw Hf Hsm Hn) as (s' & f' & H1 & _ & H2). rewrite decide_False in H2 by done. eauto.
Qed.
Lemma C81_odd_lemma cwd dir dl A s f e argv h :
  srv_reached cwd dir dl A s f -> asks argv (RqChims h) -> Forall (fun r => length (h_addr r) = 4) (ce_resps e) ->
  Exists (fun r => Nat.odd (length (h_chunks r)) = true) (ce_resps e) -> (session true e s f argv).2 = Crashed.
Proof.
  intros H1 H2 H3 He. destruct (C81_lemma _ _ _ _ _ _ e _ _ H1 H2 H3) as (s' & _ & ->). rewrite decide_False; [done|].
  intros HF. apply Exists_exists in He as (r & Hm & Ho). rewrite Forall_forall in HF. specialize (HF _ Hm). rewrite <- Nat.negb_even, HF in Ho. done.
Qed.
Lemma C81_even_lemma cwd dir dl A s f e argv h :
  srv_reached cwd dir dl A s f -> asks argv (RqChims h) -> Forall (fun r => length (h_addr r) = 4) (ce_resps e) ->
  Forall (fun r => Nat.even (length (h_chunks r)) = true) (ce_resps e) ->
  exists s', srv_reached cwd dir dl A s' f /\
    session true e s f argv = (f, Some s', [mkDgram (replicate 4 xff) (sv_port s) (serialize (DiscReq (Z.to_N (sv_reqid s)) h []))],
      Shown (concat (map host_text (ce_resps e)))).
Proof.
  intros H1 H2 H3 He. destruct (C81_lemma _ _ _ _ _ _ e _ _ H1 H2 H3) as (s' & G & E). rewrite decide_True in E by done. eauto.
Qed.

(** ** Concrete sessions *)
Definition ex_why (i : citem) : text := str "gone".
Definition ex_cenv (answer : option (list byte)) : cenv := mkCenv ex_cwd [hnew; habc] (Some ex_ifs) ex_resps answer ex_why.
Definition ex_session (argv : list string) (answer : option (list byte)) : fs * option server * list dgram * cend :=
  session true (ex_cenv answer) ex_srv ex3.1.2 (map str argv).
Lemma A3_counts h a : A3 !! h = Some a -> a_count a <> 0%Z.
Proof.
  unfold A3, A2. intros H. apply lookup_insert_Some in H as [[_ <-]|[_ H]]; [vm_compute; done|].
  apply lookup_insert_Some in H as [[_ <-]|[_ H]]; [vm_compute; done|]. apply lookup_singleton_Some in H as [_ <-]. vm_compute. done.
Qed.
(** a file whose name is a forged line of a listing *)
Definition forged : path := slash :: str "b" ++ nl ++ line "Sha1 Hash: " (hash_string hnew).
Lemma forged_reached : exists A s f h a, srv_reached ex_cwd ex_dir ex_dl A s f /\ A !! hnew = None /\ A !! h = Some a
  /\ (forall h a, A !! h = Some a -> a_count a <> 0%Z)
  /\ a_path a = (slash :: str "b") ++ nl ++ line "Sha1 Hash: " (hash_string hnew) ++ [] /\ NoDup [h] /\ forall k, k ∈ [h] <-> A !! k <> None.
Proof.
  set (f1 := <[forged := NFile (bs "abc")]> ex_f0).
  assert (parent forged <> ex_dir) as Hp by (intros E; apply (f_equal length) in E; revert E; vm_compute; done).
  assert (reached ex_cwd ex_dir ex_dl ∅ ex_c0 f1) as H1.
  { eapply re_outside; [apply ex_reached0| |].
    - unfold f1. rewrite lookup_insert_ne; [done|]. intros E. apply (f_equal length) in E. revert E. vm_compute. done.
    - intros p E. unfold f1. rewrite lookup_insert_ne; [done|]. intros <-. done. }
  assert (bool_decide (abs ex_cwd forged = forged) = true) as Habs by (vm_compute; reflexivity). apply bool_decide_eq_true in Habs.
  assert (file_at f1 (abs ex_cwd forged) = Some (bs "abc")) as Hf by (rewrite Habs; unfold file_at, f1; rewrite lookup_insert; done).
  assert (allowed ex_cwd ex_dir ex_dl ∅ f1 (CShare forged)) as Hal. { intros l Hl. rewrite Hf in Hl. injection Hl as <-. vm_compute. done. }
  destruct (reached_call _ _ _ _ _ _ _ H1 Hal) as (c' & f' & A' & ans & _ & Hs & Hre). destruct Hs as [_ Hs]. rewrite Hf in Hs. rewrite lookup_empty in Hs.
  destruct Hs as [-> _]. rewrite Habs in Hre. rewrite insert_empty in Hre.
  assert (bool_decide (hnew = sha1 (bs "abc")) = false) as Hne by (vm_compute; reflexivity). apply bool_decide_eq_false in Hne.
  revert Hre Hne. generalize (sha1 (bs "abc")). intros h0 Hre Hne.
  eexists _, (new_server 61696 c'), f', h0, _. split; [apply sr_start, Hre|]. split; [apply lookup_singleton_ne, not_eq_sym, Hne|].
  split; [apply lookup_singleton|]. split.
  { intros h a Ha. apply lookup_singleton_Some in Ha as [_ <-]. vm_compute. done. }
  split; [cbn [full_entry a_path]; unfold forged; rewrite app_nil_r; done|]. split; [apply NoDup_singleton|].
  clear. intros k. rewrite elem_of_list_singleton. split; [intros ->; rewrite lookup_singleton; done|].
  intros Hk. destruct (decide (k = h0)) as [|N]; [done|]. rewrite lookup_singleton_ne in Hk by done. done.
Qed.
Lemma ex0_old : file_at ex_f0 (abs (bs "/dl") (bs "old")) = Some (bs "0123456789").
Proof. vm_compute. reflexivity. Qed.
Lemma ex0_no_old : file_at ex_f0 (abs ex_cwd (bs "old")) = None.
Proof. vm_compute. reflexivity. Qed.
(** the daemon runs in the root directory; the user in /dl shares the file old *)
Lemma C78_refuted_lemma : exists cwd dir dl A s f e wd p l,
  srv_reached cwd dir dl A s f /\ ce_cwd e = cwd /\ file_at f (abs wd p) = Some l /\ small l /\ l <> [] /\ A !! sha1 l = None
  /\ session true e s f [str "share"; p] = (f, Some s, [], Failed).
Proof.
  exists ex_cwd, ex_dir, ex_dl, ∅, (new_server 61696 ex_c0), ex_f0, (ex_cenv None), (bs "/dl"), (bs "old"), (bs "0123456789").
  assert (srv_reached ex_cwd ex_dir ex_dl ∅ (new_server 61696 ex_c0) ex_f0) as H by apply sr_start, ex_reached0.
  split; [done|]. split; [done|]. split; [apply ex0_old|]. split; [vm_compute; done|]. split; [done|]. split; [apply lookup_empty|].
  eapply C68_share_fails_lemma; [exact H|done|]. left. apply ex0_no_old.
Qed.
(** ... and in /dl, where there is no file a, shares the daemon's /a *)
Lemma C78_other_lemma : exists cwd dir dl A s f e wd p,
  srv_reached cwd dir dl A s f /\ ce_cwd e = cwd /\ f !! abs wd p = None
  /\ exists s' f' t, session true e s f [str "share"; p] = (f', Some s', [], Shown t).
Proof.
  exists ex_cwd, ex_dir, ex_dl, ∅, (new_server 61696 ex_c0), ex_f0, (ex_cenv None), (bs "/dl"), (bs "a").
  assert (srv_reached ex_cwd ex_dir ex_dl ∅ (new_server 61696 ex_c0) ex_f0) as H by apply sr_start, ex_reached0.
  split; [done|]. split; [done|]. split; [vm_compute; reflexivity|].
  destruct (C68_share_lemma _ _ _ _ _ _ (ex_cenv None) (bs "a") (bs "abc") H eq_refl ex_file_a ltac:(vm_compute; done) (lookup_empty _)) as (s' & f' & _ & _ & E).
  rewrite decide_False in E by done. eexists s', f', _. exact E.
Qed.

(** *** C67: numbers *)
Lemma value_fold l : forall v, Z.of_N (foldl (fun acc b => acc * 10 + (bN b - 48))%N v l)
  = foldl (fun v b => v * 10 + (Z.of_N (bN b) - 48))%Z (Z.of_N v) l \/ Exists (fun b => (bN b < 48)%N) l.
Proof.
  induction l as [|b l IH]; intros v; [by left|]. destruct (N.lt_ge_cases (bN b) 48) as [H|H]; [right; by constructor|].
  cbn [foldl]. destruct (IH (v * 10 + (bN b - 48))%N) as [E|E]; [left|right; by apply Exists_cons_tl].
  rewrite E. f_equal. lia.
Qed.
Lemma nat_decimal n : exists ds, print_nat n = ds /\ ds <> [] /\ Forall (fun b => (48 <= bN b <= 57)%N) ds /\ (head ds = Some x30 -> ds = str "0")
    /\ Z.of_N n = foldl (fun v b => v * 10 + (Z.of_N (bN b) - 48))%Z 0%Z ds.
Proof.
  exists (print_nat n). split; [done|]. split; [apply print_nat_ne|].
  assert (Forall (fun b => (48 <= bN b <= 57)%N) (print_nat n)) as Hd.
  { eapply Forall_impl; [apply print_nat_digits|]. intros b Hb. unfold is_digit, in_range in Hb. lia. }
  split; [done|]. split.
  - unfold print_nat. pose proof (size_bound n) as Hb.
    destruct (dec_n_head _ n Hb) as [[_ E]|(_ & b & l & E & H & Hz)]; [lia|rewrite E; done|]. rewrite E. cbn [head]. intros [= ->]. done.
  - rewrite <- (print_nat_value n) at 1. unfold digits_value. destruct (value_fold (print_nat n) 0) as [E|E]; [exact E|].
    exfalso. apply Exists_exists in E as (b & Hin & Hb). rewrite Forall_forall in Hd. specialize (Hd b Hin). lia.
Qed.
Lemma C67_numbers_lemma z : decimal (dec z) z.
Proof.
  unfold decimal, dec, print_int. destruct (Z.ltb_spec z 0) as [Hz|Hz].
  - destruct (nat_decimal (Z.to_N (- z))) as (ds & -> & H1 & H2 & H3 & H4). exists ds. split; [done|]. split; [done|]. split; [done|]. split; [done|]. lia.
  - destruct (nat_decimal (Z.to_N z)) as (ds & -> & H1 & H2 & H3 & H4). exists ds. split; [done|]. split; [done|]. split; [done|]. split; [done|]. lia.
Qed.
