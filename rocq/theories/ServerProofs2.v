(** Proofs about message handling, part 2: replies. *)
From Verif Require Export ServerProofs.
From Coq Require Import ZifyBool ZifyNat ZifyN.
Ltac Zify.zify_post_hook ::= Z.div_mod_to_equations.

(** ** Using the catalogue *)
Lemma contains_known cwd dir dl A c f h a : reached cwd dir dl A c f -> A !! h = Some a ->
  exists c' x, run f (contains c h) = (f, Done (c', Ok x)) /\ shows x h a /\ brel (x_bits x) (a_held a, a_count a)
    /\ reached cwd dir dl A c' f.
Proof.
  intros H Ha. pose proof (reached_synced _ _ _ _ _ _ H) as (Hc & Hs & Hd & Hdl).
  destruct (get_record_ok c f A h a Hs Ha) as (r & b & Hrun & Hp & Hrel & Hb & Hs' & _).
  assert (run f (contains c h) = (f, Done (set_index c (<[h := r]> (c_index c)), Ok (export_of r (mkProg b (prog_path (c_dir c) h)))))) as Hr.
  { unfold contains. rewrite run_bind, Hrun. done. }
  eexists _, _. split; [exact Hr|]. pose proof (shows_export _ _ _ _ _ _ Hrel Hb) as Hsh. split; [exact Hsh|]. split.
  - destruct b; exact Hb.
  - eapply (re_call _ _ _ _ _ _ (CContains h)); [done|done| |].
    + cbn [crun]. rewrite Hr. cbn [finish fst snd ans_of]. reflexivity.
    + cbn [aspec]. rewrite Ha. split; [apply same_user_refl|]. split; [done|]. eexists. split; [done|]. exact Hsh.
Qed.
Lemma contains_unknown cwd dir dl A c f h : reached cwd dir dl A c f -> A !! h = None ->
  run f (contains c h) = (f, Done (c, Err "file not found")).
Proof.
  intros H Ha. pose proof (reached_synced _ _ _ _ _ _ H) as (Hc & Hs & Hd & Hdl).
  unfold contains. rewrite run_bind, (get_record_none c f A h Hs Ha). done.
Qed.
Lemma list_known cwd dir dl A c f order : reached cwd dir dl A c f -> NoDup order -> (forall h, h ∈ order <-> A !! h <> None) ->
  exists c' xs, run f (list_files c order) = (f, Done (c', Ok xs))
    /\ Forall2 (fun x h => exists a, A !! h = Some a /\ shows x h a /\ brel (x_bits x) (a_held a, a_count a)) xs order
    /\ reached cwd dir dl A c' f.
Proof.
  intros H Hnd Hin. pose proof (reached_synced _ _ _ _ _ _ H) as (Hc & Hs & Hd & Hdl).
  assert (exists c' l, run f (list_loop c order []) = (f, Done (c', Ok ([] ++ l)))
    /\ Forall2 (fun x h => exists a, A !! h = Some a /\ shows x h a /\ brel (x_bits x) (a_held a, a_count a)) l order) as Hex.
  { assert (forall h, h ∈ order -> A !! h <> None) as Hin' by (intros h Hh; apply Hin; done).
    clear Hin Hnd H Hd Hdl. generalize (@nil export). revert c Hs.
    induction order as [|h order IH]; intros c Hs acc; cbn [list_loop].
    - exists c, []. rewrite app_nil_r. split; [done|constructor].
    - destruct (A !! h) as [a|] eqn:Ha; [|exfalso; apply (Hin' h); [set_solver|done]].
      destruct (get_record_ok c f A h a Hs Ha) as (r & b & Hrun & Hp & Hrel & Hb & Hs' & Hm & Hfile).
      unfold get_record in Hrun. destruct (c_index c !! h) as [r0|] eqn:Er; [|cbn in Hrun; simplify_eq].
      rewrite run_bind, Hrun. cbn [on_ok fst snd].
      destruct (IH ltac:(set_solver) _ Hs' (acc ++ [export_of r (mkProg b (prog_path (c_dir c) h))])) as (c' & l & H1 & H2).
      exists c'. eexists. rewrite H1, <- app_assoc. cbn [app]. split; [done|].
      constructor; [|done]. exists a. split; [done|]. split; [apply (shows_export _ _ _ _ _ _ Hrel Hb)|]. destruct b; exact Hb. }
  destruct Hex as (c' & l & Hr & HF). exists c', l. split; [exact Hr|]. split; [done|].
  eapply (re_call _ _ _ _ _ _ (CList order)); [done|split; done| |].
  - cbn [crun]. unfold list_files. rewrite Hr. cbn [finish fst snd ans_of app]. reflexivity.
  - cbn [aspec]. split; [apply same_user_refl|]. split; [done|]. eexists. split; [done|].
    eapply Forall2_impl; [exact HF|]. intros x h (a & H1 & H2 & _). eauto.
Qed.

(** ** Discovery *)
Lemma brel_mem b X n x : brel b (X, n) -> bits b x = true <-> x ∈ X.
Proof. intros (_ & _ & H). rewrite H. done. Qed.
Lemma flatten_nil_iff qs : flatten qs = [] <-> qs = [].
Proof. destruct qs as [|[s e] qs]; [done|]. split; done. Qed.
Lemma flatten_length ps : length (flatten ps) = 2 * length ps.
Proof. induction ps as [|p ps IH]; [done|]. unfold flatten in *. cbn [flat_map]. rewrite app_length, IH. cbn. lia. Qed.
Lemma flatten_typed qs : Forall u16 (flatten qs) -> Forall (fun q => q.1 < 65536 /\ q.2 < 65536)%N qs.
Proof.
  induction qs as [|[s e] qs IH]; intros H; [constructor|]. unfold flatten in *. cbn [flat_map app fst snd] in H.
  inversion H as [|? ? H1 H2]; subst. inversion H2; subst. constructor; [done|auto].
Qed.
Lemma is_blank_iff h : hash_wf h -> is_blank h = bool_decide (h = blank).
Proof.
  intros Hw. apply eq_true_iff_eq. rewrite bool_decide_eq_true. apply C15_lemma. done.
Qed.

Lemma flat16_mod ps : (forall s e, (s, e) ∈ ps -> (0 <= s)%Z /\ (s <= e)%Z) ->
  flat16 ps = flatten (map (fun p => (p.1 mod 65536, p.2 mod 65536)%N) (map toN2 ps)).
Proof.
  unfold flat16, flatten. induction ps as [|[s e] ps IH]; intros Hin; [done|]. cbn [flat_map map toN2 fst snd app].
  destruct (Hin s e) as [H1 H2]; [apply elem_of_list_here|]. unfold u16_of_int at 1 2.
  rewrite !Z2N.inj_mod by lia. f_equal. f_equal. apply IH. intros; apply Hin; by apply elem_of_list_further.
Qed.
Lemma branges_mod b : binv b -> exists ps, branges b = Ok (flatten (map (fun p => (p.1 mod 65536, p.2 mod 65536)%N) ps))
  /\ separated 0 ps /\ forall x, covered ps x <-> bits b x = true.
Proof.
  intros [Hw Hs Hl Hb]. unfold branges. rewrite filled_ranges_runs by lia.
  replace (bsize b - 0 + 1)%Z with (bsize b + 1)%Z by lia.
  destruct (runs_spec (zbits b) 0 (bsize b + 1)) as [Hsep Hc]; [lia|].
  exists (map toN2 (runs (zbits b) 0 (bsize b + 1))). split_and!.
  - f_equal. apply flat16_mod. intros s e Hin. exact (sepZ_bounds _ _ Hsep _ _ Hin).
  - apply (sepZ_separated _ 0); [lia|done].
  - intros x. rewrite (covZ_covered _ 0) by (done || lia). rewrite Hc. unfold zbits. rewrite N2Z.id.
    split; [tauto|]. intros Hx. split; [|done]. apply Hb in Hx. lia.
Qed.
Lemma reported_truthful A h qs cs :
  (forall a, A !! h = Some a -> forall x, x ∈ a_held a -> (x < 65536)%N) -> reported A h qs cs -> truthful A h qs cs.
Proof.
  intros Hm. unfold reported, truthful. destruct (A !! h) as [a|]; [|done].
  repeat case_decide; try done. intros (ps & -> & H1 & H2). exists ps. split; [|done].
  assert (forall p, p ∈ ps -> (p.1 < 65536 /\ p.2 < 65536)%N) as Hb.
  { intros [s e] Hin. assert ((s <= e)%N) as Hse.
    { clear -H1 Hin. assert (forall lo, separated lo ps -> (s <= e)%N) as Hg; [|by eapply Hg].
      clear H1. induction ps as [|[s' e'] ps IH]; [by apply elem_of_nil in Hin|]. intros lo (_ & Hx & Hy).
      apply elem_of_cons in Hin as [[= -> ->]|Hin]; [done|]. by eapply IH. }
    split; apply (Hm a); try done; apply H2; exists s, e; (split; [done|cbn; lia]). }
  clear -Hb. unfold flatten. induction ps as [|p ps IH]; [done|]. cbn [map flat_map fst snd].
  destruct (Hb p) as [E1 E2]; [apply elem_of_list_here|]. rewrite !N.mod_small by done.
  f_equal. apply IH. intros; apply Hb; by apply elem_of_list_further.
Qed.
Definition reply_to (e : env) (ra : udp_addr) (s : server) (cs : list N) (reqid : N) (a : list byte) : dgram :=
  mkDgram (slice_bytes (ua_ip ra)) (sv_port s) (serialize (DiscResp a (u16_of_int (sv_port s)) reqid cs)).
Lemma respond_discover_run cwd dir dl A s f e ra reqid h cs addrs ip :
  reached cwd dir dl A (sv_cat s) f -> en_ifs e = Some addrs -> Forall if_wf addrs -> own_address addrs ip ->
  hash_wf h -> Forall u16 cs ->
  if decide (h <> blank /\ A !! h <> None /\ Nat.odd (length cs) = true) then
    exists w, run f (respond_discover e s reqid h cs ra) = (f, Died w)
  else
    exists s' out, run f (respond_discover e s reqid h cs ra) = (f, Done (send e s' (reply_to e ra s out reqid ip)))
      /\ reached cwd dir dl A (sv_cat s') f
      /\ sv_port s' = sv_port s /\ sv_reqid s' = sv_reqid s /\ sv_uploads s' = sv_uploads s
      /\ forall qs, cs = flatten qs -> reported A h qs out.
Proof.
  intros H He Hw Ho Hh Hcs. destruct (own_first addrs ip Hw Ho) as (r & Hr & Hb & H4 & H5).
  unfold respond_discover. rewrite He. cbn [local_ip]. rewrite Hr, index_four by done. rewrite Hb.
  rewrite is_blank_iff by done. case_bool_decide as Hbl.
  - rewrite decide_False by tauto. exists s, []. split; [done|]. split; [done|]. split; [done|]. split; [done|]. split; [done|].
    intros qs _. unfold reported. destruct (A !! h); [|done]. rewrite decide_True by done. done.
  - destruct (A !! h) as [a|] eqn:Ha.
    + destruct (contains_known _ _ _ _ _ _ _ _ H Ha) as (c' & x & Hrun & Hsh & Hbr & Hre).
      rewrite run_bind, Hrun.
      destruct (decide (0 < length cs)) as [Hl|Hl].
      * destruct (C06_odd_lemma (x_bits x) cs Hcs) as [Hodd Herr].
        destruct (boverlap (x_bits x) cs) as [out|w|w] eqn:Eo; cbn [on_ret].
        -- rewrite decide_False.
           2:{ intros (_ & _ & Hx). apply Hodd in Hx as [w Hx]. done. }
           exists (set_cat s c'), out. split; [done|]. split; [done|]. split; [done|]. split; [done|]. split; [done|].
           intros qs ->. unfold reported. rewrite Ha, decide_False by done.
           rewrite decide_False by (intros ->; cbn in Hl; lia).
           destruct (boverlap_spec (x_bits x) qs (flatten_typed _ Hcs)) as (pss & E2 & HF). rewrite Eo in E2. simplify_eq.
           exists pss. split; [done|]. eapply Forall2_impl; [exact HF|]. intros q ps (G1 & G2). split; [done|].
           intros y. rewrite G2. rewrite (brel_mem _ _ _ _ Hbr). done.
        -- exfalso. apply Herr. by eexists.
        -- rewrite decide_True; [by eexists|]. split; [done|]. split; [done|]. apply Hodd. by eexists.
      * destruct cs; [|cbn in Hl; lia]. rewrite decide_False by (intros (_ & _ & Hx); done).
        assert (exists out, branges (x_bits x) = Ok out /\ exists ps, out = flatten (map (fun p => (p.1 mod 65536, p.2 mod 65536)%N) ps)
          /\ separated 0 ps /\ forall y, covered ps y <-> y ∈ a_held a) as (out & Eo & Hout).
        { destruct Hbr as (Hi & Hn & Hb'). cbn [fst snd] in *.
          destruct (branges_mod (x_bits x) Hi) as (ps & G1 & G2 & G3). eexists. split; [exact G1|].
          exists ps. split; [done|]. split; [done|]. intros y. rewrite G3, Hb'. done. }
        rewrite Eo. cbn [on_ret]. exists (set_cat s c'), out. split; [done|]. split; [done|]. split; [done|]. split; [done|]. split; [done|].
        intros qs Hqs. assert (qs = []) as -> by (apply flatten_nil_iff; done). unfold reported. rewrite Ha, decide_False by done.
        rewrite decide_True by done. exact Hout.
    + rewrite decide_False by naive_solver. rewrite run_bind, (contains_unknown _ _ _ _ _ _ _ H Ha).
      exists (set_cat s (sv_cat s)), []. split; [done|]. split; [done|]. split; [done|]. split; [done|]. split; [done|].
      intros qs _. unfold reported. rewrite Ha. done.
Qed.

(** *** C57 *)
Lemma parse_typed buffer m : parse buffer = Ok m -> msg_typed m /\ within_limits m.
Proof.
  destruct buffer as [|ty rest]; [done|]. intros H. apply C21_typed_lemma in H. tauto.
Qed.
Lemma C57_reported_lemma cwd dir dl A s f e ra buffer reqid h qs addrs ip :
  reached cwd dir dl A (sv_cat s) f -> en_ifs e = Some addrs -> Forall if_wf addrs -> own_address addrs ip ->
  en_wok e = true -> parse buffer = Ok (DiscReq reqid h (flatten qs)) ->
  exists s' cs, run f (handle_message e s buffer ra) =
      (f, Done (s', [mkDgram (slice_bytes (ua_ip ra)) (sv_port s)
                      (serialize (DiscResp ip (u16_of_int (sv_port s)) reqid cs))], HRet (Ok tt)))
    /\ reported A h qs cs
    /\ reached cwd dir dl A (sv_cat s') f /\ sv_uploads s' = sv_uploads s.
Proof.
  intros H He Hw Ho Hwok Hp. destruct (parse_typed _ _ Hp) as [(_ & Hh & Hcs) _].
  pose proof (respond_discover_run cwd dir dl A s f e ra reqid h (flatten qs) addrs ip H He Hw Ho Hh Hcs) as Hr.
  rewrite decide_False in Hr.
  2:{ intros (_ & _ & Hx). rewrite flatten_length in Hx. rewrite Nat.odd_mul in Hx. done. }
  destruct Hr as (s' & cs & Hr & H1 & H2 & H3 & H4 & H5). unfold handle_message. rewrite Hp, Hr. unfold send. rewrite Hwok.
  exists s', cs. split; [done|]. split; [apply H5; done|]. done.
Qed.
Lemma held_below cwd dir dl A c f h a x : reached cwd dir dl A c f -> A !! h = Some a -> x ∈ a_held a ->
  (Z.of_N x < a_count a)%Z.
Proof.
  intros H Ha Hx. destruct (contains_known _ _ _ _ _ _ _ _ H Ha) as (_ & y & _ & _ & (Hi & Hn & Hb) & _).
  cbn [fst snd] in *. rewrite <- Hn. apply (binv_bits _ Hi). by apply Hb.
Qed.
Lemma C57_lemma cwd dir dl A s f e ra buffer reqid h qs addrs ip :
  reached cwd dir dl A (sv_cat s) f -> en_ifs e = Some addrs -> Forall if_wf addrs -> own_address addrs ip ->
  en_wok e = true -> parse buffer = Ok (DiscReq reqid h (flatten qs)) ->
  (forall a, A !! h = Some a -> (a_count a <= 65536)%Z) ->
  exists s' cs, run f (handle_message e s buffer ra) =
      (f, Done (s', [mkDgram (slice_bytes (ua_ip ra)) (sv_port s)
                      (serialize (DiscResp ip (u16_of_int (sv_port s)) reqid cs))], HRet (Ok tt)))
    /\ truthful A h qs cs
    /\ reached cwd dir dl A (sv_cat s') f /\ sv_uploads s' = sv_uploads s.
Proof.
  intros H He Hw Ho Hwok Hp Hmax.
  destruct (C57_reported_lemma cwd dir dl A s f e ra buffer reqid h qs addrs ip H He Hw Ho Hwok Hp) as (s' & cs & H1 & H2 & H3).
  exists s', cs. split; [done|]. split; [|done]. eapply reported_truthful; [|exact H2].
  intros a Ha x Hx. pose proof (held_below _ _ _ _ _ _ _ _ _ H Ha Hx). specialize (Hmax a Ha). lia.
Qed.
Lemma C57_odd_lemma cwd dir dl A s f e ra buffer reqid h cs addrs ip :
  reached cwd dir dl A (sv_cat s) f -> en_ifs e = Some addrs -> Forall if_wf addrs -> own_address addrs ip ->
  parse buffer = Ok (DiscReq reqid h cs) -> h <> blank -> A !! h <> None -> Nat.odd (length cs) = true ->
  exists w, run f (handle_message e s buffer ra) = (f, Died w).
Proof.
  intros H He Hw Ho Hp Hb Ha Hodd. destruct (parse_typed _ _ Hp) as [(_ & Hh & Hcs) _].
  pose proof (respond_discover_run cwd dir dl A s f e ra reqid h cs addrs ip H He Hw Ho Hh Hcs) as Hr.
  rewrite decide_True in Hr by done. unfold handle_message. rewrite Hp. done.
Qed.

(** ** Listings *)
Lemma base_name_split p : clean_abs p -> exists d, p = d ++ slash :: base_name p.
Proof.
  intros (cs & Hcs & ->). destruct (decide (cs = [])) as [->|Hn].
  - exists []. reflexivity.
  - destruct (exists_last Hn) as (l & c & ->). apply Forall_app in Hcs as [Hl Hc]. inversion Hc; subst.
    rewrite base_name_render by done.
    destruct l as [|c0 l]; [exists []; done|]. exists (slash :: join_slash (c0 :: l)).
    change (render ((c0 :: l) ++ [c])) with (slash :: join_slash ((c0 :: l) ++ [c])).
    rewrite join_slash_snoc. done.
Qed.
Lemma list_entry_describes x h a : shows x h a -> brel (x_bits x) (a_held a, a_count a) -> hash_wf h -> clean_abs (a_path a) ->
  (0 <= a_size a < 9223372036854775808)%Z -> (0 <= a_chunk a < 4294967296)%Z ->
  describes (list_entry x) h a /\ entry_typed (list_entry x).
Proof.
  intros (H1 & H2 & H3 & H4 & H5 & _) (Hi & Hn & Hb) Hh Hp Hs Hc. cbn [fst snd] in *. unfold describes, list_entry, entry_typed.
  cbn [e_size e_count e_chunk e_down e_hash e_name]. rewrite H1, H2, H3, H4, H5.
  assert (from_slice zero_hash (hash_slice h) = h) as Hfs by (unfold from_slice, hash_slice; apply gocopy_full; unfold hash_wf in Hh; rewrite Hh; done).
  rewrite Hfs. rewrite (bcount_set _ (a_held a) Hi Hb).
  split.
  - split_and!; try done.
    + rewrite u64_of_int_nonneg by lia. lia.
    + unfold u32_of_int. rewrite Z2N.id; [done|apply Z.mod_pos_bound; lia].
    + unfold u32_of_int. rewrite Z.mod_small by lia. lia.
    + unfold u32_of_int. rewrite Z2N.id; [done|apply Z.mod_pos_bound; lia].
    + apply base_name_no_slash.
    + apply base_name_split. done.
  - unfold u64, u32, u32_of_int. rewrite u64_of_int_nonneg by lia. split_and!; [lia|..|done].
    all: match goal with |- (Z.to_N (?a mod ?b) < _)%N => pose proof (Z.mod_pos_bound a b ltac:(lia)); lia end.
Qed.
Lemma entry_facts cwd dir dl A c f h a : reached cwd dir dl A c f -> A !! h = Some a ->
  hash_wf h /\ clean_abs (a_path a) /\ (0 <= a_size a < 9223372036854775808)%Z /\ (0 < a_chunk a < 4294967296)%Z.
Proof.
  intros H Ha. pose proof (reached_synced _ _ _ _ _ _ H) as (_ & Hs & _). pose proof (sy_ent _ _ _ Hs h) as He.
  rewrite Ha in He. destruct (c_index c !! h); [|done]. destruct He as (G1 & G2 & G3 & G4 & G5 & G6 & G7 & G8 & _). done.
Qed.
Lemma respond_list_run cwd dir dl A s f e ra reqid h :
  reached cwd dir dl A (sv_cat s) f -> hash_wf h -> NoDup (en_order e) -> (forall k, k ∈ en_order e <-> A !! k <> None) ->
  if decide (h <> blank /\ A !! h = None) then
    exists w, run f (respond_list e s reqid h ra) = (f, Died w)
  else
    exists s' es, run f (respond_list e s reqid h ra) =
        (f, Done (send e s' (mkDgram (slice_bytes (ua_ip ra)) (ua_port ra) (serialize (ListResp reqid es)))))
      /\ reached cwd dir dl A (sv_cat s') f
      /\ sv_port s' = sv_port s /\ sv_reqid s' = sv_reqid s /\ sv_uploads s' = sv_uploads s
      /\ Forall entry_typed es
      /\ Forall2 (fun en k => exists a, A !! k = Some a /\ describes en k a) es (if decide (h = blank) then en_order e else [h]).
Proof.
  intros H Hh Hnd Hin. unfold respond_list. rewrite is_blank_iff by done. case_bool_decide as Hb.
  - rewrite decide_False by naive_solver. rewrite decide_True by done.
    destruct (list_known _ _ _ _ _ _ _ H Hnd Hin) as (c' & xs & Hr & HF & Hre).
    rewrite run_bind, Hr. exists (set_cat s c'), (map list_entry xs). split; [done|]. split; [done|]. split; [done|]. split; [done|]. split; [done|].
    clear Hr Hin Hnd. induction HF as [|x k xs order (a & Ha & Hsh & Hbr) _ IH]; [split; constructor|].
    destruct (entry_facts _ _ _ _ _ _ _ _ H Ha) as (F1 & F2 & F3 & F4). destruct IH as [IH1 IH2].
    destruct (list_entry_describes x k a Hsh Hbr F1 F2 F3 ltac:(lia)) as [D1 D2]. cbn [map]. split; constructor; eauto.
  - rewrite (decide_False (P := h = blank)) by done. destruct (A !! h) as [a|] eqn:Ha.
    + rewrite decide_False by naive_solver.
      destruct (contains_known _ _ _ _ _ _ _ _ H Ha) as (c' & x & Hrun & Hsh & Hbr & Hre). rewrite run_bind, Hrun.
      exists (set_cat s c'), [list_entry x]. split; [done|]. split; [done|]. split; [done|]. split; [done|]. split; [done|].
      destruct (entry_facts _ _ _ _ _ _ _ _ H Ha) as (F1 & F2 & F3 & F4).
      destruct (list_entry_describes x h a Hsh Hbr F1 F2 F3 ltac:(lia)) as [D1 D2]. split; repeat constructor; eauto; apply D2.
    + rewrite decide_True by done. rewrite run_bind, (contains_unknown _ _ _ _ _ _ _ H Ha). by eexists.
Qed.
(** *** C59 *)
Lemma C59_lemma cwd dir dl A s f e ra buffer reqid h :
  reached cwd dir dl A (sv_cat s) f -> NoDup (en_order e) -> (forall k, k ∈ en_order e <-> A !! k <> None) ->
  en_wok e = true -> parse buffer = Ok (ListReq reqid h) -> h = blank \/ A !! h <> None ->
  exists s' es, run f (handle_message e s buffer ra) =
      (f, Done (s', [mkDgram (slice_bytes (ua_ip ra)) (ua_port ra) (serialize (ListResp reqid es))], HRet (Ok tt)))
    /\ Forall2 (fun en k => exists a, A !! k = Some a /\ describes en k a) es (if decide (h = blank) then en_order e else [h])
    /\ reached cwd dir dl A (sv_cat s') f /\ sv_uploads s' = sv_uploads s.
Proof.
  intros H Hnd Hin Hwok Hp Hor. destruct (parse_typed _ _ Hp) as [(_ & Hh) _].
  pose proof (respond_list_run cwd dir dl A s f e ra reqid h H Hh Hnd Hin) as Hr. rewrite decide_False in Hr by naive_solver.
  destruct Hr as (s' & es & Hr & H1 & H2 & H3 & H4 & _ & H5). unfold handle_message. rewrite Hp, Hr. unfold send. rewrite Hwok.
  exists s', es. done.
Qed.
Lemma C59_refuted_lemma cwd dir dl A s f e ra buffer reqid h :
  reached cwd dir dl A (sv_cat s) f -> parse buffer = Ok (ListReq reqid h) -> h <> blank -> A !! h = None ->
  exists w, run f (handle_message e s buffer ra) = (f, Died w).
Proof.
  intros H Hp Hb Ha. destruct (parse_typed _ _ Hp) as [(_ & Hh) _].
  unfold handle_message. rewrite Hp. unfold respond_list. rewrite is_blank_iff, bool_decide_false by done.
  rewrite run_bind, (contains_unknown _ _ _ _ _ _ _ H Ha). by eexists.
Qed.
