(** Proofs about what the command line prints. *)
From Verif Require Export CliProofs.
From Verif Require Import ServerProofs7 DownloadProofs4 HashProofs CleanProofs ServerProofs2 MessagesProofs.
From Coq Require Import ZifyBool ZifyNat ZifyN.
Ltac Zify.zify_post_hook ::= Z.div_mod_to_equations.

(** ** Counts in reachable catalogues *)
Definition sane (a : aentry) : Prop :=
  (forall x, x ∈ a_held a -> (x < 2199023255552)%N) /\ (ceil_div (a_size a) (a_chunk a) <= a_count a)%Z.
Lemma ceil_4m n : (0 <= n < 9223372036854775808)%Z -> (ceil_div n 4194304 <= 2199023255552)%Z.
Proof. intros H. unfold ceil_div. apply Z.lt_succ_r. apply Z.div_lt_upper_bound; lia. Qed.
Lemma reached_sane cwd dir dl A c f : reached cwd dir dl A c f -> forall h a, A !! h = Some a -> sane a.
Proof.
  induction 1 as [|A c f q A' c' f' ans H IH Hal Hr Hs|A c f f' H IH Hd Hp]; intros h a Ha; [rewrite lookup_empty in Ha; done| |eauto].
  assert (forall h0 a0, sane a0 -> A' = <[h0 := a0]> A -> sane a) as Hins.
  { intros h0 a0 H0 ->. apply lookup_insert_Some in Ha as [[-> ->]|[_ Ha]]; eauto. }
  destruct q as [p|size count chunk h0 name|h0|h0 i data|order|h0|h0|fuel h0 i|h0|pid now]; cbn [aspec] in Hs.
  - destruct Hs as [_ Hs]. cbn [allowed] in Hal. destruct (file_at f (abs cwd p)) as [l|]; [|destruct Hs as [-> _]; eauto].
    destruct (A !! sha1 l); [destruct Hs as [-> _]; eauto|]. destruct Hs as [Hs _]. eapply Hins; [|exact Hs].
    specialize (Hal l eq_refl). unfold small in Hal. split; [|cbn; lia]. intros x Hx. cbn in Hx. apply elem_of_all_below in Hx.
    pose proof (ceil_4m (Z.of_nat (length l)) ltac:(lia)). lia.
  - destruct Hs as [_ Hs]. destruct (A !! h0); [destruct Hs as [-> _]; eauto|]. destruct Hs as [Hs _]. eapply Hins; [|exact Hs].
    split; [cbn; set_solver|cbn; lia].
  - destruct Hs as (_ & -> & _). apply lookup_delete_Some in Ha as [_ Ha]. eauto.
  - destruct (A !! h0) as [a0|] eqn:E0; [|done]. destruct Hs as [(_ & _ & Hs & _)|(_ & _ & -> & _)]; [|eauto].
    eapply Hins; [|exact Hs]. destruct (IH _ _ E0) as [H1 H2]. destruct Hal as [Hi _]. split.
    + intros x Hx. cbn in Hx. apply elem_of_union in Hx as [Hx|Hx]; [apply elem_of_singleton in Hx; lia|auto].
    + cbn [hold a_size a_chunk a_count]. lia.
  - destruct Hs as (_ & -> & _). eauto.
  - destruct Hs as (_ & -> & _). eauto.
  - destruct Hs as (_ & -> & _). eauto.
  - destruct Hs as (_ & -> & _). eauto.
  - destruct Hs as (_ & -> & _). eauto.
  - destruct Hs as (_ & -> & _). eauto.
Qed.
Lemma size_all_below n : (0 <= n)%Z -> size (all_below n) = Z.to_nat n.
Proof.
  intros Hn. unfold all_below. rewrite size_list_to_set.
  - rewrite map_length, seqZ_length. done.
  - change (map Z.to_N (seqZ 0 n)) with (Z.to_N <$> seqZ 0 n). apply NoDup_fmap_2_strong; [|apply NoDup_seqZ].
    intros x y Hx Hy. apply elem_of_seqZ in Hx, Hy. lia.
Qed.
Lemma size_below n (X : gset N) : (0 <= n)%Z -> X ⊆ all_below n -> (Z.of_nat (size X) <= n)%Z.
Proof. intros Hn H. apply subseteq_size in H. rewrite size_all_below in H by done. lia. Qed.
Lemma count_facts cwd dir dl A c f h a : reached cwd dir dl A c f -> A !! h = Some a ->
  a_held a ⊆ all_below (a_count a) /\ (0 <= a_count a < 9223372036854775808)%Z /\ (0 <= held a <= a_count a)%Z /\ (held a <= 2199023255552)%Z
  /\ (a_count a = 0%Z -> a_size a = 0%Z).
Proof.
  intros H Ha. destruct (reached_sane _ _ _ _ _ _ H h a Ha) as [S1 S2].
  pose proof (entry_facts _ _ _ _ _ _ _ _ H Ha) as (_ & _ & Hsz & Hck).
  pose proof (reached_synced _ _ _ _ _ _ H) as (_ & Hs & _). pose proof (sy_ent _ _ _ Hs h) as He.
  rewrite Ha in He. destruct (c_index c !! h); [|done]. destruct He as (_ & _ & _ & _ & _ & _ & _ & _ & b & Hb & _).
  destruct Hb as (Hi & Hn & HX). cbn [fst snd] in *. pose proof Hi as [Hw Hs0 Hl Hbb].
  assert (a_held a ⊆ all_below (a_count a)) as Hsub.
  { intros x Hx. apply elem_of_all_below. rewrite <- Hn. apply Hbb, HX, Hx. }
  split; [done|]. split; [lia|]. pose proof (subseteq_size _ _ Hsub) as Hle. rewrite size_all_below in Hle by lia.
  assert (a_held a ⊆ all_below 2199023255552) as Hsub2.
  { intros x Hx. apply elem_of_all_below. specialize (S1 x Hx). lia. }
  apply size_below in Hsub2; [|lia]. unfold held. split; [lia|]. split; [lia|].
  intros H0. rewrite H0 in S2. unfold ceil_div in S2.
  destruct (Z_le_gt_dec 1 (a_size a)) as [G|]; [|lia].
  assert (1 <= (a_size a + a_chunk a - 1) / a_chunk a)%Z; [|lia]. apply Z.div_le_lower_bound; lia.
Qed.
Lemma percent_facts d n : (0 <= d <= n)%Z -> (0 < n)%Z ->
  (0 <= percent d n <= 100)%Z /\ (percent d n = 100%Z <-> d = n) /\ (percent d n * n <= 100 * d < (percent d n + 1) * n)%Z.
Proof.
  intros Hd Hn. unfold percent. pose proof (Z.div_mod (100 * d) n ltac:(lia)) as E. pose proof (Z.mod_pos_bound (100 * d) n Hn) as B.
  set (q := (100 * d / n)%Z) in *. nia.
Qed.
Lemma held_all cwd dir dl A c f h a : reached cwd dir dl A c f -> A !! h = Some a ->
  held a = a_count a <-> all_below (a_count a) ⊆ a_held a.
Proof.
  intros H Ha. destruct (count_facts _ _ _ _ _ _ _ _ H Ha) as (Hsub & Hc & Hh & _). unfold held in *. split.
  - intros E. intros x Hx. destruct (decide (x ∈ a_held a)) as [|Hn]; [done|]. exfalso.
    assert (a_held a ⊂ all_below (a_count a)) as Hs by set_solver. apply subset_size in Hs. rewrite size_all_below in Hs by lia. lia.
  - intros Hs. apply subseteq_size in Hs. rewrite size_all_below in Hs by lia. lia.
Qed.

(** ** Texts *)
Lemma integrity_ok p sz h n ch d : (0 <= d < 4398046511104)%Z -> (0 < n < 9223372036854775808)%Z ->
  integrity (mkLItem p sz h n ch d) = Ok (percent d n).
Proof.
  intros Hd Hn. unfold integrity, go_quot. cbn [li_done li_count]. rewrite decide_False by lia. rewrite (wrap64_small (d * 100)) by lia.
  rewrite Z.quot_div_nonneg by lia. assert (0 <= d * 100 / n <= d * 100)%Z as Hb.
  { split; [apply Z.div_pos; lia|]. apply Z.div_le_upper_bound; [lia|]. nia. }
  rewrite wrap64_small by lia. cbn [rbind]. rewrite decide_False by lia. rewrite (wrap64_small (_ * 100)) by lia.
  rewrite Z.quot_div_nonneg by lia. rewrite Z.div_mul by lia. rewrite wrap64_small by lia. unfold percent. rewrite (Z.mul_comm 100). done.
Qed.
Lemma item_text_ok p sz h n ch d : (0 <= d < 4398046511104)%Z -> (0 < n < 9223372036854775808)%Z ->
  item_text (mkLItem p sz h n ch d) = Ok (file_text p sz h n d ch).
Proof.
  intros Hd Hn. unfold item_text. rewrite integrity_ok by done. cbn [rbind li_path li_size li_hash li_count li_done li_chunk].
  unfold file_text, line, dec. rewrite name_of_base. rewrite <- !app_assoc. reflexivity.
Qed.
Lemma item_text_zero p sz h ch d : is_panic (item_text (mkLItem p sz h 0 ch d)).
Proof. unfold item_text, integrity, go_quot. cbn [li_count]. rewrite decide_True by done. eexists. reflexivity. Qed.
Lemma texts_ok {X} (g : X -> res text) (k : X -> text) l : Forall (fun x => g x = Ok (k x)) l -> texts g l = Ok (concat (map k l)).
Proof. induction 1 as [|x l Hx Hl IH]; [done|]. cbn [texts map concat]. rewrite Hx, IH. done. Qed.
Lemma texts_panic {X} (g : X -> res text) l : Forall (fun x => is_panic (g x) \/ exists t, g x = Ok t) l -> Exists (fun x => is_panic (g x)) l -> is_panic (texts g l).
Proof.
  induction 1 as [|x l Hx Hl IH]; intros He; [inversion He|]. cbn [texts]. destruct Hx as [Hx|[t Ht]].
  - destruct Hx as [w ->]. eexists. reflexivity.
  - rewrite Ht. cbn [rbind]. inversion He as [? ? Hp|? ? Hp]; subst; [destruct Hp; congruence|]. destruct (IH Hp) as [w ->]. eexists. reflexivity.
Qed.

(** ** list *)
Lemma item_of_shows cwd dir dl A c f x h a : reached cwd dir dl A c f -> A !! h = Some a -> shows x h a -> brel (x_bits x) (a_held a, a_count a) ->
  item_of_export x = mkLItem (a_path a) (a_size a) h (a_count a) (a_chunk a) (held a).
Proof.
  intros H Ha (H1 & H2 & H3 & H4 & H5 & _) (Hi & Hn & HX). unfold item_of_export, held. cbn [fst snd] in *.
  rewrite (bcount_set _ _ Hi HX), H1, H2, H3, H4, H5. done.
Qed.
Lemma list_request : client_parse [str "list"] = PSend (RqList [] (replicate 20 xff)).
Proof. reflexivity. Qed.
Lemma session_cases argv q e s f : client_parse argv = PSend q ->
  session true e s f argv = match run f (serve e s q) with
            | (f', Done (s', ds, Ok r)) =>
                (f', Some s', ds, match response_text r with Ok t => Shown t | _ => Crashed end)
            | (f', Done (s', ds, _)) => (f', Some s', ds, Failed)
            | (f', Died _) => (f', None, [], Failed)
            | (f', Hangs) => (f', Some s, [], Waits)
            end.
Proof. intros H. unfold session. destruct argv as [|a l]; [done|]. rewrite H. done. Qed.
Lemma C68_list_lemma cwd dir dl A s f e :
  srv_reached cwd dir dl A s f -> NoDup (ce_order e) -> (forall h, h ∈ ce_order e <-> A !! h <> None) ->
  exists s', srv_reached cwd dir dl A s' f /\
    (((forall h a, A !! h = Some a -> a_count a <> 0%Z)
       /\ session true e s f [str "list"] = (f, Some s', [], Shown (listing A (ce_order e))))
     \/ ((exists h a, A !! h = Some a /\ a_size a = 0%Z /\ a_count a = 0%Z)
       /\ session true e s f [str "list"] = (f, Some s', [], Crashed))).
Proof.
  intros Hsr Hnd Hin. pose proof (proj1 (srv_inv _ _ _ _ _ _ Hsr)) as Hre.
  destruct (list_known _ _ _ _ _ _ _ Hre Hnd Hin) as (c' & xs & Hrun & Hxs & Hre').
  exists (set_cat s c'). split.
  { destruct (reached_call _ _ _ _ _ _ (CList (ce_order e)) Hre (conj Hnd Hin)) as (c2 & f2 & A2 & ans & Hc & Hsp & _).
    pose proof Hc as Hc'. cbn [crun] in Hc'. rewrite Hrun in Hc'. cbn in Hc'. injection Hc' as <- <- _.
    destruct (Hsp) as (_ & -> & _). apply (sr_call cwd dir dl A s f (CList (ce_order e)) A c' f ans); [done|exact (conj Hnd Hin)|done|done]. }
  rewrite (session_cases _ _ _ _ _ list_request). cbn [serve gob_bytes]. rewrite run_bind, Hrun. cbn [on_call run response_text].
  assert (exists as_, map item_of_export xs = map (fun ha => mkLItem (a_path ha.2) (a_size ha.2) ha.1 (a_count ha.2) (a_chunk ha.2) (held ha.2)) as_
     /\ ce_order e = map fst as_ /\ Forall (fun ha => A !! ha.1 = Some ha.2) as_) as (as_ & E1 & E2 & E3).
  { clear Hnd Hin Hrun Hre'. induction Hxs as [|x h xs hs (a & Ha & Hsh & Hbr) _ (as_ & E1 & E2 & E3)]; [exists []; done|].
    exists ((h, a) :: as_). cbn [map fst snd]. rewrite (item_of_shows _ _ _ _ _ _ _ _ _ Hre Ha Hsh Hbr), E1, E2. split; [done|]. split; [done|].
    constructor; done. }
  rewrite E1. destruct (decide (Exists (fun ha => a_count ha.2 = 0%Z) as_)) as [He|He].
  - right. split.
    + apply Exists_exists in He as ([h a] & Hm & Ha). rewrite Forall_forall in E3. specialize (E3 _ Hm). cbn [fst snd] in *.
      exists h, a. split; [done|]. split; [|done]. eapply (count_facts _ _ _ _ _ _ _ _ Hre E3). done.
    + assert (is_panic (texts item_text (map (fun ha => mkLItem (a_path ha.2) (a_size ha.2) ha.1 (a_count ha.2) (a_chunk ha.2) (held ha.2)) as_))) as Hp.
      { apply texts_panic.
        - apply Forall_map, (Forall_impl _ _ _ E3). intros [h a] Ha. cbn in Ha |- *.
          destruct (count_facts _ _ _ _ _ _ _ _ Hre Ha) as (_ & Hc & Hh & Hh2 & _).
          destruct (decide (a_count a = 0%Z)) as [->|]; [left; apply item_text_zero|right; rewrite item_text_ok by lia; eauto].
        - apply Exists_exists in He as ([h a] & Hm & Ha). apply Exists_exists. eexists. split; [apply elem_of_list_fmap_1; exact Hm|].
          cbn [fst snd] in *. rewrite Ha. apply item_text_zero. }
      destruct Hp as [w ->]. reflexivity.
  - left. apply not_Exists_Forall in He; [|intros x; apply _]. split.
    + intros h a Ha. assert (h ∈ ce_order e) as Hh by (apply Hin; congruence). rewrite E2 in Hh.
      apply elem_of_list_fmap in Hh as ([h' a'] & -> & Hm). rewrite Forall_forall in E3, He. pose proof (E3 _ Hm) as Ha'. cbn [fst snd] in *.
      specialize (He _ Hm). cbn in He. congruence.
    + rewrite (texts_ok _ (fun li => file_text (li_path li) (li_size li) (li_hash li) (li_count li) (li_done li) (li_chunk li))).
      * unfold listing. rewrite E2, !map_map. do 3 f_equal. apply map_ext_Forall. apply (Forall_impl _ _ _ E3). intros [h a] Ha.
        cbn [fst snd li_path li_size li_hash li_count li_done li_chunk] in *. rewrite Ha. done.
      * apply Forall_map, Forall_forall. intros [h a] Hm. rewrite Forall_forall in E3, He. specialize (E3 _ Hm). specialize (He _ Hm). cbn [fst snd] in *.
        cbn [li_path li_size li_hash li_count li_done li_chunk]. destruct (count_facts _ _ _ _ _ _ _ _ Hre E3) as (_ & Hc & Hh & Hh2 & _).
        change (a_count a <> 0%Z) in He. apply item_text_ok; lia.
Qed.

(** ** share *)
Lemma share_prog cwd c f p f' c' r pr : run f (share_file cwd c p) = (f', Done (c', Ok (r, pr))) -> r_prog r = Some pr.
Proof.
  unfold share_file. rewrite run_bind. destruct (run f (generate_record cwd p)) as [f1 [[r0|w|w]|w|]]; cbn [on_ok run]; try done.
  rewrite run_bind. destruct (run f1 (add_record c r0)) as [f2 [[c1 [[]|w|w]]|w|]]; cbn [on_ok run]; try done.
  destruct (let! pr := new_progress r0 (c_dir c1) in let! b := bfill (p_bits pr) in Ok (mkProg b (p_file pr))) as [pr1|w|w]; cbn [run]; try done.
  rewrite run_bind. destruct (run f2 (save_prog pr1)) as [f3 [[[]|w|w]|w|]]; cbn [on_ok run]; try done.
  intros [= _ _ <- <-]. done.
Qed.
Lemma share_request p : client_parse [str "share"; p] = PSend (RqShare p).
Proof. reflexivity. Qed.
Lemma C68_share_lemma cwd dir dl A s f e p l :
  srv_reached cwd dir dl A s f -> ce_cwd e = cwd -> file_at f (abs cwd p) = Some l -> small l -> A !! sha1 l = None ->
  exists s' f', srv_reached cwd dir dl (<[sha1 l := full_entry (abs cwd p) (Z.of_nat (length l)) 4194304]> A) s' f' /\ same_user dir f f' /\
    session true e s f [str "share"; p] = (f', Some s', [],
      if decide (l = []) then Crashed else Shown (entry_text (sha1 l) (full_entry (abs cwd p) (Z.of_nat (length l)) 4194304))).
Proof.
  intros Hsr Hcw Hf Hsm Hn. pose proof (proj1 (srv_inv _ _ _ _ _ _ Hsr)) as Hre.
  pose proof (reached_synced _ _ _ _ _ _ Hre) as (Hc & Hs & Hd & _).
  destruct (share_ok _ _ _ _ _ _ Hc Hs Hf Hsm Hn) as (r & pr & f' & Hrun & Hsy & Hu).
  set (a := full_entry (abs cwd p) (Z.of_nat (length l)) 4194304) in *.
  set (c' := set_index (sv_cat s) (<[sha1 l:=r]> (c_index (sv_cat s)))) in *.
  assert (allowed cwd dir dl A f (CShare p)) as Hal. { intros l' Hl'. congruence. }
  destruct (reached_call _ _ _ _ _ _ (CShare p) Hre Hal) as (c2 & f2 & A2 & ans & Hcr & Hsp & Hre2).
  pose proof Hcr as Hcr'. cbn [crun] in Hcr'. rewrite Hrun in Hcr'. cbn in Hcr'. injection Hcr' as <- <- <-.
  pose proof Hsp as [_ Hsp']. rewrite Hf, Hn in Hsp'. fold a in Hsp'. destruct Hsp' as [-> _].
  exists (set_cat s c'), f'. split; [apply (sr_call cwd dir dl A s f (CShare p) (<[sha1 l := a]> A) c' f' AOk); done|].
  rewrite Hd in Hu. split; [done|].
  rewrite (session_cases _ _ _ _ _ (share_request p)). cbn [serve]. rewrite Hcw, run_bind, Hrun. cbn [on_call run fst snd response_text].
  pose proof (share_prog _ _ _ _ _ _ _ _ Hrun) as Hpr.
  pose proof (sy_ent _ _ _ Hsy (sha1 l)) as He. unfold c' in He. cbn [set_index c_index] in He. rewrite !lookup_insert in He.
  destruct He as (E1 & E2 & E3 & E4 & E5 & E6 & E7 & E8 & b & Hb & _ & [E9|E9]); [congruence|]. rewrite Hpr in E9. injection E9 as ->.
  cbn [p_bits]. destruct Hb as (Hi & Hnn & HX). cbn [fst snd] in *. unfold bsize_of. rewrite Hnn, (bcount_set _ _ Hi HX), E1, E3, E5, E7.
  destruct (decide (l = [])) as [->|Hl].
  - assert (a_count a = 0%Z) as -> by reflexivity. destruct (item_text_zero (a_path a) (a_size a) (sha1 []) (a_chunk a) (Z.of_nat (size (a_held a)))) as [w ->]. done.
  - destruct (count_facts _ _ _ _ _ _ (sha1 l) a Hre2) as (_ & Gc & Gh & Gh2 & Gz); [apply lookup_insert|].
    unfold held in *. rewrite item_text_ok; [done|lia|]. split; [|lia]. assert (a_count a <> 0%Z); [|lia].
    intros G. apply Gz in G. unfold a, full_entry in G. cbn [a_size] in G. apply Hl, nil_length_inv. clear -G. lia.
Qed.
Lemma C68_share_fails_lemma cwd dir dl A s f e p :
  srv_reached cwd dir dl A s f -> ce_cwd e = cwd ->
  (file_at f (abs cwd p) = None \/ exists l, file_at f (abs cwd p) = Some l /\ A !! sha1 l <> None) ->
  session true e s f [str "share"; p] = (f, Some s, [], Failed).
Proof.
  intros Hsr Hcw Hf. pose proof (proj1 (srv_inv _ _ _ _ _ _ Hsr)) as Hre.
  pose proof (reached_synced _ _ _ _ _ _ Hre) as (Hc & Hs & Hd & _).
  rewrite (session_cases _ _ _ _ _ (share_request p)). cbn [serve]. rewrite Hcw, run_bind.
  assert (set_cat s (sv_cat s) = s) as Hss by (destruct s; done).
  destruct Hf as [Hf|(l & Hf & Hl)].
  - destruct (share_err _ _ _ _ _ Hs Hf) as [w ->]. cbn. rewrite Hss. done.
  - rewrite (share_dup _ _ _ _ _ _ Hs Hf Hl). cbn. rewrite Hss. done.
Qed.

(** ** list with an address *)
Lemma address_length a ip : address a ip -> length ip = 16.
Proof. intros H. apply address_parse in H. eapply parse_ip_length. done. Qed.
Lemma list_args_parse a ip h argv : address a ip -> list_args a h argv -> client_parse argv = PSend (RqList ip h).
Proof.
  intros Ha [[-> ->]|(x & -> & Hx)]; apply address_parse in Ha; cbn [client_parse];
    do 2 rewrite decide_False by done; rewrite decide_True by done; cbn zeta; rewrite Ha; [done|].
  unfold arg_hash. rewrite (proj2 (hash_arg (hash_blank zero_hash) x h eq_refl) Hx). done.
Qed.
Lemma to4_mapped q : length q = 4 -> to4 (exact_slice (mapped q)) = Some (mkSlice q 4).
Proof.
  intros Hq. unfold to4, exact_slice. cbn [slen arr]. unfold mapped. rewrite app_length, replicate_length, app_length, Hq. cbn [length Nat.add].
  rewrite decide_False by done. rewrite decide_True; [done|]. split; [done|]. done.
Qed.
Lemma to4_other ip : length ip = 16 -> (forall q, length q = 4 -> ip <> mapped q) -> to4 (exact_slice ip) = None.
Proof.
  intros Hl Hn. unfold to4, exact_slice. cbn [slen arr]. rewrite Hl. rewrite decide_False by done. rewrite decide_False; [done|].
  intros [_ E]. apply (Hn (drop 12 ip)); [rewrite drop_length; lia|]. rewrite <- (take_drop 12 ip) at 1. rewrite E. unfold mapped. rewrite <- app_assoc. done.
Qed.
Lemma remote_run e s f q h : length q = 4 -> (0 <= sv_reqid s < 65536)%Z ->
  run f (serve e s (RqList (mapped q) h)) =
  match listing_received (ce_listing e) with
  | Ok l => (f, Done ((generate_request_id s).2, [question s q h], Ok (RsList (map item_of_entry l))))
  | Err w => (f, Done ((generate_request_id s).2, [question s q h], Err w))
  | Panic w => (f, Died w)
  end.
Proof.
  intros Hq Hr. cbn [serve]. assert (gob_bytes (mapped q) = Some (exact_slice (mapped q))) as -> by done.
  rewrite (to4_mapped q Hq). destruct q as [|a [|b [|c [|d [|]]]]]; try done.
  change (sl_index (mkSlice [a; b; c; d] 4) 0) with (Ok a). change (sl_index (mkSlice [a; b; c; d] 4) 1) with (Ok b).
  change (sl_index (mkSlice [a; b; c; d] 4) 2) with (Ok c). change (sl_index (mkSlice [a; b; c; d] 4) 3) with (Ok d).
  cbn [rbind]. destruct (generate_request_id s) as [reqid s'] eqn:E. unfold generate_request_id in E. injection E as <- <-.
  assert (mkDgram [a; b; c; d] (Z.of_N (u16_of_int (sv_port s))) (serialize (ListReq (u16_of_int (sv_reqid s)) h)) = question s [a; b; c; d] h) as ->.
  { unfold question, u16_of_int. rewrite (Z.mod_small (sv_reqid s)) by lia. f_equal. lia. }
  cbn [snd]. destruct (listing_received (ce_listing e)); done.
Qed.
Lemma remote_dies e s f ip h : length ip = 16 -> (forall q, length q = 4 -> ip <> mapped q) -> exists w, run f (serve e s (RqList ip h)) = (f, Died w).
Proof.
  intros Hl Hn. cbn [serve]. assert (gob_bytes ip = Some (exact_slice ip)) as -> by (destruct ip; done).
  rewrite (to4_other ip Hl Hn). eexists. done.
Qed.
Lemma is_mapped_dec ip : length ip = 16 -> (exists q, length q = 4 /\ ip = mapped q) \/ (forall q, length q = 4 -> ip <> mapped q).
Proof.
  intros Hl. destruct (decide (take 12 ip = replicate 10 x00 ++ [xff; xff])) as [E|E].
  - left. exists (drop 12 ip). split; [rewrite drop_length; lia|]. rewrite <- (take_drop 12 ip) at 1. rewrite E. unfold mapped. rewrite <- app_assoc. done.
  - right. intros q _ ->. done.
Qed.
Lemma C69_lemma cwd dir dl A s f e a ip h argv :
  srv_reached cwd dir dl A s f -> address a ip -> list_args a h argv ->
  ((forall q, length q = 4 -> ip <> mapped q) -> session true e s f argv = (f, None, [], Failed))
  /\ (forall q, length q = 4 -> ip = mapped q ->
      (is_panic (listing_received (ce_listing e)) -> session true e s f argv = (f, None, [], Failed))
      /\ (~ is_panic (listing_received (ce_listing e)) ->
            exists s' end_, session true e s f argv = (f, Some s', [question s q h], end_) /\ srv_reached cwd dir dl A s' f)).
Proof.
  intros Hsr Ha Hargs. pose proof (address_length _ _ Ha) as Hl. rewrite (session_cases _ _ _ _ _ (list_args_parse _ _ _ _ Ha Hargs)).
  split.
  - intros Hn. destruct (remote_dies e s f ip h Hl Hn) as [w ->]. done.
  - intros q Hq ->. destruct (srv_inv _ _ _ _ _ _ Hsr) as (_ & Hr & _). rewrite (remote_run e s f q h Hq Hr). split.
    + intros [w ->]. done.
    + intros Hp. exists (generate_request_id s).2. destruct (listing_received (ce_listing e)) as [l|w|w]; [| |destruct Hp; eexists; done];
        eexists; (split; [reflexivity|]); apply sr_request; done.
Qed.
Lemma C69_iff_lemma cwd dir dl A s f e a ip h argv :
  srv_reached cwd dir dl A s f -> address a ip -> list_args a h argv ->
  (session true e s f argv).1.1.2 = None <-> (forall q, length q = 4 -> ip <> mapped q) \/ is_panic (listing_received (ce_listing e)).
Proof.
  intros Hsr Ha Hargs. destruct (C69_lemma _ _ _ _ _ _ e _ _ _ _ Hsr Ha Hargs) as [H1 H2].
  destruct (is_mapped_dec ip (address_length _ _ Ha)) as [(q & Hq & Eq)|Hn].
  - destruct (H2 q Hq Eq) as [H3 H4]. split.
    + intros E. right. destruct (listing_received (ce_listing e)) as [l|w|w] eqn:El.
      * destruct H4 as (s' & en & Hs & _); [intros [? ?]; done|]. rewrite Hs in E. done.
      * destruct H4 as (s' & en & Hs & _); [intros [? ?]; done|]. rewrite Hs in E. done.
      * eexists. done.
    + intros [G|G]; [destruct (G q Hq Eq)|]. rewrite (H3 G). done.
  - rewrite (H1 Hn). split; [auto|done].
Qed.
Lemma received_typed d es : listing_received d = Ok es -> Forall entry_typed es.
Proof.
  unfold listing_received. destruct d as [d|]; [|done]. destruct (parse (udp_buffer 1024 d)) as [m|w|w] eqn:E; cbn [rbind]; try done.
  destruct m; try done. intros [= <-]. apply parse_typed in E as [[_ H] _]. done.
Qed.
Lemma remote_item en : entry_typed en -> (e_count en <> 0)%N -> (e_size en < 9223372036854775808)%N ->
  item_text (item_of_entry en) = Ok (remote_text en).
Proof.
  intros (H1 & H2 & H3 & H4 & H5) Hc Hs. unfold item_of_entry, remote_text. unfold u32 in *.
  rewrite int_of_u64_small by done. apply item_text_ok; lia.
Qed.
Lemma C82_lemma cwd dir dl A s f e a q h argv es :
  srv_reached cwd dir dl A s f -> length q = 4 -> address a (mapped q) -> list_args a h argv -> listing_received (ce_listing e) = Ok es ->
  exists s', srv_reached cwd dir dl A s' f /\
  (Forall (fun en => e_count en <> 0 /\ e_size en < 9223372036854775808)%N es ->
   session true e s f argv = (f, Some s', [question s q h], Shown (concat (map remote_text es))))
  /\ (Exists (fun en => e_count en = 0)%N es -> session true e s f argv = (f, Some s', [question s q h], Crashed)).
Proof.
  intros Hsr Hq Ha Hargs He. exists (generate_request_id s).2. split; [apply sr_request; done|]. destruct (srv_inv _ _ _ _ _ _ Hsr) as (_ & Hr & _).
  pose proof (received_typed _ _ He) as Hty.
  rewrite (session_cases _ _ _ _ _ (list_args_parse _ _ _ _ Ha Hargs)), (remote_run e s f q h Hq Hr), He. cbn [response_text]. split.
  - intros Hf. rewrite (texts_ok _ (fun li => file_text (li_path li) (li_size li) (li_hash li) (li_count li) (li_done li) (li_chunk li))).
    + rewrite map_map. do 3 f_equal. apply map_ext_Forall. apply (Forall_impl _ _ _ Hf). intros en [_ Hs]. unfold remote_text, item_of_entry.
      cbn [li_path li_size li_hash li_count li_done li_chunk]. rewrite int_of_u64_small by done. done.
    + apply Forall_map, Forall_forall. intros en Hm. rewrite Forall_forall in Hf, Hty. destruct (Hf _ Hm) as [G1 G2]. specialize (Hty _ Hm).
      rewrite remote_item by done. unfold remote_text, item_of_entry. cbn [li_path li_size li_hash li_count li_done li_chunk].
      rewrite int_of_u64_small by done. done.
  - intros Hex. assert (is_panic (texts item_text (map item_of_entry es))) as [w ->]; [|done]. apply texts_panic.
    + apply Forall_map, (Forall_impl _ _ _ Hty). intros en (T1 & T2 & T3 & T4 & T5). unfold item_of_entry, u32 in *.
      destruct (decide (e_count en = 0)%N) as [->|]; [left; apply item_text_zero|right; rewrite item_text_ok by lia; eauto].
    + apply Exists_exists in Hex as (en & Hm & E). apply Exists_exists. eexists. split; [apply elem_of_list_fmap_1; exact Hm|].
      unfold item_of_entry. rewrite E. apply item_text_zero.
Qed.
