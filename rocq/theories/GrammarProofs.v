(** The scanner accepts exactly the strings and numbers of the grammar. *)
From Verif Require Export GrammarSpec JsonProofs2.
From Coq Require Import ZifyBool ZifyNat ZifyN.
Ltac Zify.zify_post_hook ::= Z.div_mod_to_equations.

(** ** Strings *)
Lemma hex_value_spec c n : from_hex_char c = Some n <-> hex_value c n.
Proof.
  unfold from_hex_char, hex_value. cbn zeta. split.
  - destruct ((48 <=? bN c) && (bN c <=? 57))%N eqn:E1; [intros [= <-]; lia|].
    destruct ((97 <=? bN c) && (bN c <=? 102))%N eqn:E2; [intros [= <-]; lia|].
    destruct ((65 <=? bN c) && (bN c <=? 70))%N eqn:E3; [intros [= <-]; lia|done].
  - intros H. destruct ((48 <=? bN c) && (bN c <=? 57))%N eqn:E1; [f_equal; lia|].
    destruct ((97 <=? bN c) && (bN c <=? 102))%N eqn:E2; [f_equal; lia|].
    destruct ((65 <=? bN c) && (bN c <=? 70))%N eqn:E3; [f_equal; lia|lia].
Qed.
Lemma hex4_spec a b c d u : hex4 a b c d = Some u <->
  exists x y z w, hex_value a x /\ hex_value b y /\ hex_value c z /\ hex_value d w /\ u = (x * 4096 + y * 256 + z * 16 + w)%N.
Proof.
  unfold hex4. split.
  - destruct (from_hex_char a) as [x|] eqn:Ea; [|done]. destruct (from_hex_char b) as [y|] eqn:Eb; [|done].
    destruct (from_hex_char c) as [z|] eqn:Ec; [|done]. destruct (from_hex_char d) as [w|] eqn:Ed; [|done].
    intros [= <-]. apply hex_value_spec in Ea, Eb, Ec, Ed. exists x, y, z, w. split_and!; try done. lia.
  - intros (x & y & z & w & Ha & Hb & Hc & Hd & ->). apply hex_value_spec in Ha, Hb, Hc, Hd. rewrite Ha, Hb, Hc, Hd. f_equal. lia.
Qed.
Lemma getu4_spec s u : getu4 s = Some u <-> exists e t, s = e ++ t /\ u_escape u e.
Proof.
  split.
  - destruct s as [|p [|q [|a [|b [|c [|d t]]]]]]; try done. unfold getu4. case_bool_decide as H; [|done]. destruct H as [-> ->].
    intros Hx. apply hex4_spec in Hx as (x & y & z & w & H). exists [x5c; x75; a; b; c; d], t. split; [done|].
    exists a, b, c, d, x, y, z, w. naive_solver.
  - intros (e & t & -> & a & b & c & d & x & y & z & w & -> & H). cbn [app getu4]. rewrite bool_decide_true by done.
    apply hex4_spec. exists x, y, z, w. naive_solver.
Qed.
Lemma u_escape_len u e : u_escape u e -> length e = 6.
Proof. intros (a & b & c & d & x & y & z & w & -> & _). done. Qed.
Lemma u_escape_fun u1 u2 e1 e2 t1 t2 : u_escape u1 e1 -> u_escape u2 e2 -> e1 ++ t1 = e2 ++ t2 -> u1 = u2 /\ e1 = e2 /\ t1 = t2.
Proof.
  intros H1 H2 E. pose proof (u_escape_len _ _ H1) as L1. pose proof (u_escape_len _ _ H2) as L2.
  apply app_inj_1 in E as [E ->]; [|lia]. subst. split; [|done].
  assert (getu4 e2 = Some u1) as G1 by (apply getu4_spec; exists e2, []; rewrite app_nil_r; done).
  assert (getu4 e2 = Some u2) as G2 by (apply getu4_spec; exists e2, []; rewrite app_nil_r; done). congruence.
Qed.

Lemma lex_run_app st a b : lex_run st (a ++ b) = match lex_run st a with Some st' => lex_run st' b | None => None end.
Proof.
  revert st; induction a as [|x a IH]; intros st; [done|]. cbn [app lex_run]. destruct st as [| |k].
  - case_bool_decide; [done|]. case_bool_decide; [apply IH|]. destruct (in_range 0 31 x); [done|apply IH].
  - case_bool_decide; [apply IH|]. case_bool_decide; [apply IH|done].
  - destruct (from_hex_char x); [apply IH|done].
Qed.
Lemma lex_string_inv st s raw r : lex_string st s = Some (raw, r) -> s = raw ++ quote_b :: r /\ lex_run st raw = Some LNormal.
Proof.
  revert st raw; induction s as [|b s IH]; intros st raw; cbn [lex_string]; [done|]. destruct st as [| |k].
  - case_bool_decide as H1; [intros [= <- <-]; subst; done|]. case_bool_decide as H2.
    + destruct (lex_string LEsc s) as [[raw' r']|] eqn:E; [|done]. intros [= <- ->]. apply IH in E as [-> E].
      split; [done|]. cbn [lex_run]. rewrite bool_decide_false, bool_decide_true by done. done.
    + destruct (in_range 0 31 b) eqn:Er; [done|]. destruct (lex_string LNormal s) as [[raw' r']|] eqn:E; [|done]. intros [= <- ->]. apply IH in E as [-> E].
      split; [done|]. cbn [lex_run]. rewrite !bool_decide_false, Er by done. done.
  - case_bool_decide as H1.
    + destruct (lex_string LNormal s) as [[raw' r']|] eqn:E; [|done]. intros [= <- ->]. apply IH in E as [-> E].
      split; [done|]. cbn [lex_run]. rewrite bool_decide_true by done. done.
    + case_bool_decide as H2; [|done]. destruct (lex_string (LHex 3) s) as [[raw' r']|] eqn:E; [|done]. intros [= <- ->]. apply IH in E as [-> E].
      split; [done|]. cbn [lex_run]. rewrite bool_decide_false, bool_decide_true by done. done.
  - destruct (from_hex_char b) as [x|] eqn:Ex; [|done].
    destruct (lex_string (match k with O => LNormal | S k' => LHex k' end) s) as [[raw' r']|] eqn:E; [|done]. intros [= <- ->]. apply IH in E as [-> E].
    split; [done|]. cbn [lex_run]. rewrite Ex. done.
Qed.
Lemma lex_run_string raw r : lex_run LNormal raw = Some LNormal -> lex_string LNormal (raw ++ quote_b :: r) = Some (raw, r).
Proof. intros H. rewrite (lex_run_lex _ _ _ _ H). cbn [lex_string]. rewrite bool_decide_true by done. cbn. rewrite app_nil_r. done. Qed.

(** one step of unquoting *)
Lemma unquote_broken b s : b <> bslash -> rune_len (b :: s) = 0 -> unquote (b :: s) = fffd ++ unquote s.
Proof. intros Hb Hr. rewrite unquote_unfold. cbn [unquote_n]. rewrite bool_decide_false by done. rewrite Hr. f_equal. apply unquote_n_more; cbn [length]; lia. Qed.
Lemma unquote_escape_u u e s : u_escape u e -> unquote (e ++ s) =
  if ((55296 <=? u) && (u <? 57344))%N then
    match getu4 s with
    | Some r2 => if ((u <? 56320) && (56320 <=? r2) && (r2 <? 57344))%N
                 then encode_rune ((u - 55296) * 1024 + (r2 - 56320) + 65536) ++ unquote (drop 6 s)
                 else fffd ++ unquote s
    | None => fffd ++ unquote s
    end
  else encode_rune u ++ unquote s.
Proof.
  intros H. assert (getu4 (e ++ s) = Some u) as Hg by (apply getu4_spec; eauto).
  destruct H as (a & b & c & d & x & y & z & w & -> & _). rewrite unquote_unfold. cbn [app] in *. rewrite unquote_n_u, Hg.
  change (drop 4 (a :: b :: c :: d :: s)) with (drop 0 s). change (drop 10 (a :: b :: c :: d :: s)) with (drop 6 s). rewrite drop_0.
  set (n := length (bslash :: x75 :: a :: b :: c :: d :: s)). assert (length s <= n) as Hn by (subst n; cbn [length]; lia). clearbody n. clear Hg.
  assert (forall t, length t <= n -> unquote_n n t = unquote t) as Hu by (intros t Ht; unfold unquote; apply unquote_n_more; lia).
  rewrite (Hu s) by done. rewrite (Hu (drop 6 s)) by (rewrite drop_length; lia). reflexivity.
Qed.

Lemma scalar_not_encoded b t : rune_len (b :: t) = 0 <-> forall r u, scalar r -> b :: t <> encode_rune r ++ u.
Proof.
  split.
  - intros H r u Hr E. rewrite E, rune_len_encode in H by done. unfold encode_rune in H. repeat case_match; done.
  - intros H. destruct (decide (rune_len (b :: t) = 0)) as [|Hn]; [done|]. destruct (rune_len_decode _ Hn) as (r & Hr & E).
    exfalso. apply (H r (drop (rune_len (b :: t)) (b :: t)) Hr). rewrite <- E, take_drop. done.
Qed.
Lemma encode_rune_ne r : encode_rune r <> [].
Proof. unfold encode_rune. repeat case_match; done. Qed.
(** the scanner goes through a rune that may stand in a string *)
Lemma lex_rune r : scalar r -> lex_run LNormal (encode_rune r) = Some LNormal <-> ((32 <= r)%N /\ r <> 34%N /\ r <> 92%N).
Proof.
  intros Hs. destruct (N.ltb_spec r 128) as [Hr|Hr].
  - assert (encode_rune r = [Nb r]) as -> by (unfold encode_rune; destruct (N.ltb_spec r 128); [done|lia]).
    cbn [lex_run]. assert (bN (Nb r) = r) as Hb by (apply bN_Nb_small; lia). case_bool_decide as H1.
    { split; [done|]. intros (_ & H & _). rewrite H1 in Hb. vm_compute in Hb. congruence. }
    case_bool_decide as H2.
    { split; [done|]. intros (_ & _ & H). rewrite H2 in Hb. vm_compute in Hb. congruence. }
    destruct (in_range 0 31 (Nb r)) eqn:E.
    + apply in_range_spec in E. split; [done|lia].
    + split; [|done]. intros _. split; [|split; [intros ->; done|intros ->; done]].
      destruct (N.leb_spec 32 r); [done|]. exfalso. assert (in_range 0 31 (Nb r) = true) by (apply in_range_spec; lia). congruence.
  - rewrite lex_run_high; [split; [lia|done]|]. apply rune_multi_high.
    + unfold encode_rune. destruct (N.ltb_spec r 128); [lia|]. repeat case_match; cbn; lia.
    + pose proof (rune_len_encode r [] Hs) as H. rewrite app_nil_r in H. done.
Qed.
Lemma short_spec c : c ∈ [x62; x66; x6e; x72; x74; bslash; x2f; quote_b] ->
  c <> x75 /\ (c, if bool_decide (c = x62) then x08 else
                   if bool_decide (c = x66) then x0c else
                   if bool_decide (c = x6e) then x0a else
                   if bool_decide (c = x72) then x0d else
                   if bool_decide (c = x74) then x09 else c) ∈ short_escapes.
Proof.
  intros H. repeat (apply elem_of_cons in H as [->|H]; [split; [done|]; apply (bool_decide_unpack _); reflexivity|]). inversion H.
Qed.
Lemma short_spec' c x : (c, x) ∈ short_escapes -> c ∈ [x62; x66; x6e; x72; x74; bslash; x2f; quote_b] /\ c <> x75
  /\ x = if bool_decide (c = x62) then x08 else
                   if bool_decide (c = x66) then x0c else
                   if bool_decide (c = x6e) then x0a else
                   if bool_decide (c = x72) then x0d else
                   if bool_decide (c = x74) then x09 else c.
Proof.
  unfold short_escapes. intros H. repeat (apply elem_of_cons in H as [[= -> ->]|H]; [split; [apply (bool_decide_unpack _); reflexivity|split; [done|reflexivity]]|]). inversion H.
Qed.
Lemma lex_run_u u e : u_escape u e -> lex_run LNormal e = Some LNormal.
Proof.
  intros (a & b & c & d & x & y & z & w & -> & Ha & Hb & Hc & Hd & _). apply hex_value_spec in Ha, Hb, Hc, Hd.
  cbn [lex_run]. rewrite bool_decide_false, bool_decide_true by done. rewrite bool_decide_false by (apply (bool_decide_unpack _); reflexivity).
  rewrite bool_decide_true by done. rewrite Ha, Hb, Hc, Hd. done.
Qed.

Lemma chars_sound t : lex_run LNormal t = Some LNormal -> chars t (unquote t).
Proof.
  remember (length t) as n eqn:En. revert t En. induction (lt_wf n) as [n _ IH]. intros t -> H.
  destruct t as [|b t]; [apply ch_end|]. cbn [lex_run] in H. case_bool_decide as H1; [done|]. case_bool_decide as H2.
  - subst b. destruct t as [|c t]; [done|]. cbn [lex_run] in H. case_bool_decide as H3.
    + destruct (short_spec c H3) as [Hc Hin]. rewrite unquote_short by done. eapply ch_short; [exact Hin|].
      eapply IH; [|reflexivity|exact H]. cbn [length]. lia.
    + case_bool_decide as H4; [|done]. subst c. destruct t as [|a [|b [|c [|d t]]]]; cbn [lex_run] in H;
        repeat match type of H with context [from_hex_char ?x] => let Q := fresh "Q" in destruct (from_hex_char x) eqn:Q; [apply hex_value_spec in Q|done] end;
        try done.
      set (e := [bslash; x75; a; b; c; d]).
      assert (exists u, u_escape u e) as (u & Hu) by (eexists; eexists a, b, c, d, _, _, _, _; split; [reflexivity|]; split_and!; done).
      change (bslash :: x75 :: a :: b :: c :: d :: t) with (e ++ t). rewrite (unquote_escape_u u e t Hu).
      assert (chars t (unquote t)) as Ht by (eapply IH; [|reflexivity|exact H]; cbn [length]; lia).
      destruct ((55296 <=? u) && (u <? 57344))%N eqn:Es; [|apply ch_unicode; [done|unfold high; lia|unfold low; lia|done]].
      assert (high u \/ low u) as Hsur by (unfold high, low; lia).
      destruct (getu4 t) as [r2|] eqn:Eg.
      * apply getu4_spec in Eg as (e2 & t2 & -> & Hu2). destruct ((u <? 56320) && (56320 <=? r2) && (r2 <? 57344))%N eqn:Ep.
        -- rewrite drop_app_alt by (rewrite (u_escape_len _ _ Hu2); done).
           replace ((u - 55296) * 1024 + (r2 - 56320) + 65536)%N with (65536 + (u - 55296) * 1024 + (r2 - 56320))%N by lia.
           eapply ch_pair; [exact Hu|unfold high; lia|exact Hu2|unfold low; lia|].
           eapply IH; [|reflexivity|]; [cbn [length]; rewrite app_length; lia|].
           rewrite lex_run_app, (lex_run_u _ _ Hu2) in H. exact H.
        -- rewrite <- encode_fffd. eapply ch_alone; [exact Hu|exact Hsur| |exact Ht]. intros Hh e3 u3 t3 Hu3 Hl E.
           destruct (u_escape_fun _ _ _ _ _ _ Hu2 Hu3 E) as [-> _]. unfold high, low in *. lia.
      * rewrite <- encode_fffd. eapply ch_alone; [exact Hu|exact Hsur| |exact Ht]. intros Hh e3 u3 t3 Hu3 Hl ->.
        assert (getu4 (e3 ++ t3) = Some u3) as G by (apply getu4_spec; eauto). congruence.
  - destruct (in_range 0 31 b) eqn:Er; [done|]. destruct (decide (rune_len (b :: t) = 0)) as [Hz|Hz].
    + rewrite unquote_broken by done. rewrite <- encode_fffd. apply ch_broken; [apply scalar_not_encoded; done|].
      eapply IH; [|reflexivity|exact H]. cbn [length]. lia.
    + destruct (rune_len_decode _ Hz) as (r & Hr & E). pose proof (take_drop (rune_len (b :: t)) (b :: t)) as Etd. rewrite E in Etd.
      set (t' := drop (rune_len (b :: t)) (b :: t)) in *.
      assert (lex_run LNormal (b :: t) = Some LNormal) as Hl by (cbn [lex_run]; rewrite !bool_decide_false, Er by done; exact H).
      rewrite <- Etd, lex_run_app in Hl.
      assert (lex_run LNormal (encode_rune r) = Some LNormal) as Hlr.
      { destruct (N.ltb_spec r 128) as [Hs|Hs].
        - assert (encode_rune r = [Nb r]) as Eer by (unfold encode_rune; destruct (N.ltb_spec r 128); [done|lia]).
          rewrite Eer in *. cbn [app] in Etd. injection Etd as Eb _. cbn [lex_run]. rewrite Eb, !bool_decide_false, Er by done. done.
        - apply lex_rune; [done|]. lia. }
      rewrite Hlr in Hl. assert (chars t' (unquote t')) as Ht.
      { eapply IH; [|reflexivity|exact Hl]. rewrite <- Etd, app_length. pose proof (encode_rune_ne r). destruct (encode_rune r); [done|]. cbn [length]. lia. }
      apply lex_rune in Hlr as (R1 & R2 & R3); [|done]. rewrite <- Etd.
      assert (unquote (encode_rune r ++ t') = encode_rune r ++ unquote t') as ->.
      { apply unquote_rune; [apply encode_rune_ne|pose proof (rune_len_encode r [] Hr) as G; rewrite app_nil_r in G; done|].
        pose proof (encode_rune_ne r). destruct (encode_rune r) as [|c l]; [done|]. cbn [app] in Etd. injection Etd as -> _. done. }
      apply ch_rune; done.
Qed.
Lemma chars_complete t v : chars t v -> lex_run LNormal t = Some LNormal /\ unquote t = v.
Proof.
  induction 1 as [|r t v Hr H1 H2 H3 _ [IH1 IH2]|b t v Hb _ [IH1 IH2]|c x t v Hin _ [IH1 IH2]|e u t v Hu Hh Hl _ [IH1 IH2]|e1 u1 e2 u2 t v Hu1 Hh Hu2 Hl _ [IH1 IH2]|e u t v Hu Hs Hn _ [IH1 IH2]].
  - done.
  - split; [rewrite lex_run_app, (proj2 (lex_rune r Hr)) by done; done|]. rewrite <- IH2. apply unquote_rune; [apply encode_rune_ne|pose proof (rune_len_encode r [] Hr) as G; rewrite app_nil_r in G; done|].
    intros E. assert (exists l, encode_rune r = bslash :: l) as [l El] by (pose proof (encode_rune_ne r); destruct (encode_rune r); [done|]; cbn [hd] in E; subst; eauto).
    pose proof (proj2 (lex_rune r Hr) (conj H1 (conj H2 H3))) as G. destruct (N.ltb_spec r 128) as [Hs|Hs].
    + assert (encode_rune r = [Nb r]) as Eer by (unfold encode_rune; destruct (N.ltb_spec r 128); [done|lia]).
      rewrite Eer in G, El. injection El as El _. rewrite El in G. vm_compute in G. done.
    + assert (Forall (fun b => (128 <= bN b)%N) (encode_rune r)) as HF.
      { apply rune_multi_high.
        - unfold encode_rune. destruct (N.ltb_spec r 128); [lia|]. repeat case_match; cbn; lia.
        - pose proof (rune_len_encode r [] Hr) as H. rewrite app_nil_r in H. done. }
      rewrite El in HF. apply Forall_cons in HF as [HF _]. vm_compute in HF. done.
  - assert (rune_len (b :: t) = 0) as Hz by (apply scalar_not_encoded; done).
    assert (128 <= bN b)%N as Hbig.
    { destruct (N.ltb_spec (bN b) 128) as [Hs|]; [|done]. exfalso. apply (Hb (bN b) t); [unfold scalar; lia|]. unfold encode_rune.
      destruct (N.ltb_spec (bN b) 128); [|lia]. rewrite Nb_bN. done. }
    split.
    + change (b :: t) with ([b] ++ t). rewrite lex_run_app, lex_run_high; [done|]. apply Forall_cons. done.
    + rewrite unquote_broken; [rewrite IH2, encode_fffd; done| |done]. intros ->. vm_compute in Hbig. done.
  - apply short_spec' in Hin as (Hc & Hcu & ->). split; [|rewrite unquote_short by done; rewrite IH2; done].
    cbn [lex_run]. rewrite bool_decide_false, bool_decide_true by done. rewrite bool_decide_true by done. done.
  - split; [rewrite lex_run_app, (lex_run_u _ _ Hu); done|]. rewrite (unquote_escape_u _ _ _ Hu), IH2.
    unfold high, low in *. destruct (_ && _)%N eqn:E; [lia|done].
  - split; [rewrite lex_run_app, (lex_run_u _ _ Hu1), lex_run_app, (lex_run_u _ _ Hu2); done|].
    rewrite (unquote_escape_u _ _ _ Hu1). unfold high, low in *. destruct ((55296 <=? u1) && (u1 <? 57344))%N eqn:E; [|lia].
    assert (getu4 (e2 ++ t) = Some u2) as -> by (apply getu4_spec; eauto).
    destruct ((u1 <? 56320) && _ && _)%N eqn:E2; [|lia]. rewrite drop_app_alt by (rewrite (u_escape_len _ _ Hu2); done). rewrite IH2. f_equal. f_equal. lia.
  - split; [rewrite lex_run_app, (lex_run_u _ _ Hu); done|]. rewrite (unquote_escape_u _ _ _ Hu), IH2, encode_fffd.
    destruct ((55296 <=? u) && (u <? 57344))%N eqn:E; [|unfold high, low in *; lia].
    destruct (getu4 t) as [r2|] eqn:Eg; [|done]. destruct (_ && _ && _)%N eqn:E2; [|done]. exfalso.
    apply getu4_spec in Eg as (e2 & t2 & -> & Hu2). eapply Hn; [unfold high; lia|exact Hu2|unfold low; lia|done].
Qed.
Lemma lex_string_sound s raw r : lex_string LNormal s = Some (raw, r) -> s = raw ++ quote_b :: r /\ chars raw (unquote raw).
Proof. intros H. apply lex_string_inv in H as [-> H]. split; [done|]. apply chars_sound. done. Qed.
Lemma lex_string_complete t v r : chars t v -> lex_string LNormal (t ++ quote_b :: r) = Some (t, r) /\ unquote t = v.
Proof. intros H. apply chars_complete in H as [H1 H2]. split; [apply lex_run_string; done|done]. Qed.

(** ** Numbers *)
Lemma is_digit_spec b : is_digit b = true <-> (48 <= bN b <= 57)%N.
Proof. apply in_range_spec. Qed.
Lemma digits_spec d : digits d <-> Forall (fun b => is_digit b = true) d.
Proof. unfold digits. split; intros H; (eapply Forall_impl; [exact H|]); intros b; apply is_digit_spec. Qed.
Lemma span_digits_sound s d r : span_digits s = (d, r) -> s = d ++ r /\ digits d.
Proof.
  revert d r; induction s as [|b s IH]; intros d r; cbn [span_digits]; [intros [= <- <-]; split; [done|apply Forall_nil; done]|].
  destruct (is_digit b) eqn:Eb; [|intros [= <- <-]; split; [done|apply Forall_nil; done]].
  destruct (span_digits s) as [d' r'] eqn:E. intros [= <- <-]. destruct (IH _ _ eq_refl) as [-> Hd].
  split; [done|]. apply Forall_cons. split; [apply is_digit_spec; done|done].
Qed.
Lemma lex_frac_sound s d r : lex_frac s = Some (d, r) -> s = d ++ r /\ (d = [] \/ exists d', d = x2e :: d' /\ digits d' /\ d' <> []).
Proof.
  destruct s as [|b s]; [intros [= <- <-]; auto|]. destruct (decide (b = x2e)) as [->|Hb].
  - unfold lex_frac. destruct (span_digits s) as [[|d0 d'] r'] eqn:E; [done|]. intros [= <- <-].
    apply span_digits_sound in E as [-> Hd]. split; [done|]. right. exists (d0 :: d'). done.
  - assert (lex_frac (b :: s) = Some ([], b :: s)) as -> by (unfold lex_frac; destruct b; done). intros [= <- <-]. auto.
Qed.
Lemma exp_tail_sound s d r : exp_tail s = Some (d, r) -> exists sg d', s = d ++ r /\ d = sg ++ d' /\ (sg = [] \/ sg = [x2b] \/ sg = [x2d]) /\ digits d' /\ d' <> [].
Proof.
  destruct s as [|b s]; [done|]. rewrite exp_tail_unfold. case_bool_decide as Hb.
  - destruct (span_digits s) as [[|d0 d'] r'] eqn:E; [done|]. intros [= <- <-].
    apply span_digits_sound in E as [-> Hd]. exists [b], (d0 :: d'). split; [done|]. split; [done|]. split; [destruct Hb as [-> | ->]; auto|done].
  - destruct (span_digits (b :: s)) as [[|d0 d'] r'] eqn:E; [done|]. intros [= <- <-].
    apply span_digits_sound in E as [-> Hd]. exists [], (d0 :: d'). auto.
Qed.
Lemma lex_exp_sound s d r : lex_exp s = Some (d, r) -> s = d ++ r /\ (d = [] \/ exists e es d', d = e :: es ++ d' /\ (e = x65 \/ e = x45) /\ (es = [] \/ es = [x2b] \/ es = [x2d]) /\ digits d' /\ d' <> []).
Proof.
  destruct s as [|b s]; [intros [= <- <-]; auto|]. rewrite lex_exp_unfold. case_bool_decide as Hb; [|intros [= <- <-]; auto].
  destruct (exp_tail s) as [[d' r']|] eqn:E; [|done]. intros [= <- <-]. apply exp_tail_sound in E as (sg & d2 & -> & -> & H).
  split; [done|]. right. exists b, sg, d2. done.
Qed.
Lemma lex_unsigned_sound s d r : lex_unsigned s = Some (d, r) -> s = d ++ r /\ number d /\ number (x2d :: d).
Proof.
  destruct s as [|b s]; [done|]. unfold lex_unsigned. cbn zeta.
  set (ipt := if bool_decide (b = x30) then _ else _). destruct ipt as [[ip s2]|] eqn:Ei; [|done].
  assert (b :: s = ip ++ s2 /\ (ip = [x30] \/ exists b d, ip = b :: d /\ (49 <= bN b <= 57)%N /\ digits d)) as [-> Hip].
  { subst ipt. case_bool_decide as H0; [injection Ei as <- <-; subst; auto|]. destruct (is_digit b) eqn:Ed; [|done].
    cbn [span_digits] in Ei. rewrite Ed in Ei. destruct (span_digits s) as [d' r'] eqn:E. injection Ei as <- <-.
    apply span_digits_sound in E as [-> Hd]. split; [done|]. right. exists b, d'. split; [done|]. split; [|done].
    apply is_digit_spec in Ed. destruct (decide (bN b = 48%N)) as [E0|]; [|lia]. destruct H0. rewrite <- (Nb_bN b), E0. done. }
  destruct (lex_frac s2) as [[fp s3]|] eqn:E1; [|done]. destruct (lex_exp s3) as [[ep s4]|] eqn:E2; [|done]. intros [= <- <-].
  apply lex_frac_sound in E1 as [-> Hf]. apply lex_exp_sound in E2 as [-> He]. split; [rewrite <- !app_assoc; done|].
  split; [exists [], ip, fp, ep|exists [x2d], ip, fp, ep]; auto 10.
Qed.
Lemma lex_number_sound s d r : lex_number s = Some (d, r) -> s = d ++ r /\ number d.
Proof.
  destruct s as [|b s]; [done|]. rewrite lex_number_unfold. case_bool_decide as Hb.
  - destruct (lex_unsigned s) as [[d' r']|] eqn:E; [|done]. intros [= <- <-]. apply lex_unsigned_sound in E as (-> & _ & H). subst. done.
  - intros H. apply lex_unsigned_sound in H as (-> & H & _). done.
Qed.
Definition no_digit (s : list byte) : Prop := match s with b :: _ => is_digit b = false | [] => True end.
Lemma span_digits_complete d r : digits d -> no_digit r -> span_digits (d ++ r) = (d, r).
Proof. intros Hd Hr. apply span_digits_app; [apply digits_spec; done|destruct r; done]. Qed.
Lemma num_end_no_digit r : num_end r -> no_digit r.
Proof. destruct r; [done|]. intros [H _]. done. Qed.
Lemma lex_exp_complete ep r : (ep = [] \/ exists e es d, ep = e :: es ++ d /\ (e = x65 \/ e = x45) /\ (es = [] \/ es = [x2b] \/ es = [x2d]) /\ digits d /\ d <> []) ->
  num_end r -> lex_exp (ep ++ r) = Some (ep, r).
Proof.
  intros [-> |(e & es & d & -> & He & Hs & Hd & Hne)] Hr; [apply lex_exp_end; done|]. cbn [app]. rewrite lex_exp_unfold, bool_decide_true by done.
  rewrite <- app_assoc. assert (exp_tail (es ++ d ++ r) = Some (es ++ d, r)) as ->; [|done].
  pose proof (span_digits_complete d r Hd (num_end_no_digit r Hr)) as Hsp. destruct d as [|d0 d]; [done|].
  destruct Hs as [-> |[-> | ->]].
  - cbn [app] in *. rewrite exp_tail_unfold, bool_decide_false, Hsp; [done|]. apply Forall_cons in Hd as [Hd _].
    intros [-> | ->]; vm_compute in Hd; naive_solver.
  - cbn [app] in *. rewrite exp_tail_unfold, bool_decide_true, Hsp by auto. done.
  - cbn [app] in *. rewrite exp_tail_unfold, bool_decide_true, Hsp by auto. done.
Qed.
Lemma exp_no_digit ep r : (ep = [] \/ exists e es d, ep = e :: es ++ d /\ (e = x65 \/ e = x45) /\ (es = [] \/ es = [x2b] \/ es = [x2d]) /\ digits d /\ d <> []) ->
  num_end r -> no_digit (ep ++ r) /\ (forall s, ep ++ r <> x2e :: s).
Proof.
  intros [-> |(e & es & d & -> & He & _)] Hr; [split; [apply num_end_no_digit; done|]|].
  - intros s E. cbn [app] in E. subst r. destruct Hr as (_ & H & _). done.
  - destruct He as [-> | ->]; split; done.
Qed.
Lemma lex_number_complete lit r : number lit -> num_end r -> lex_number (lit ++ r) = Some (lit, r).
Proof.
  intros (sg & ip & fp & ep & -> & Hsg & Hip & Hfp & Hep) Hr. pose proof (lex_exp_complete ep r Hep Hr) as Ee.
  destruct (exp_no_digit ep r Hep Hr) as [Hnd Hndot].
  assert (lex_frac (fp ++ ep ++ r) = Some (fp, ep ++ r) /\ no_digit (fp ++ ep ++ r)) as [Ef Hnf].
  { destruct Hfp as [-> |(d & -> & Hd & Hne)].
    - cbn [app]. split; [|done]. destruct (ep ++ r) as [|b s]; [done|]. unfold lex_frac.
      destruct (decide (b = x2e)) as [->|Hb]; [destruct (Hndot s); done|]. destruct b; done.
    - split; [|done]. cbn [app]. unfold lex_frac. rewrite (span_digits_complete d (ep ++ r) Hd Hnd). destruct d; done. }
  assert (lex_unsigned (ip ++ fp ++ ep ++ r) = Some (ip ++ fp ++ ep, r) /\ exists b l, ip = b :: l /\ b <> x2d) as (Eu & b & l & Eip & Hb).
  { destruct Hip as [-> |(b & d & -> & Hb & Hd)].
    - split; [|eauto]. cbn [app]. unfold lex_unsigned. cbn zeta. rewrite bool_decide_true by done. rewrite Ef, Ee. done.
    - split.
      + assert (digits (b :: d)) as Hbd by (apply Forall_cons; split; [lia|done]). pose proof (span_digits_complete (b :: d) (fp ++ ep ++ r) Hbd Hnf) as Es.
        cbn [app] in *. unfold lex_unsigned. cbn zeta. rewrite bool_decide_false by (intros ->; vm_compute in Hb; naive_solver).
        rewrite (proj2 (is_digit_spec b)) by lia. rewrite Es, Ef, Ee. done.
      + exists b, d. split; [done|]. intros ->. vm_compute in Hb. naive_solver. }
  rewrite <- !app_assoc. destruct Hsg as [-> | ->].
  - cbn [app]. rewrite Eip in *. cbn [app] in *. rewrite lex_number_unfold, bool_decide_false by done. exact Eu.
  - cbn [app]. rewrite lex_number_unfold, bool_decide_true by done. rewrite Eu. done.
Qed.
Lemma decimal_value d : digits_value d = decimal d.
Proof.
  unfold digits_value. enough (forall a, foldl (fun acc b => acc * 10 + (bN b - 48))%N a d = a * 10 ^ N.of_nat (length d) + decimal d)%N as H by (rewrite H; lia).
  induction d as [|b d IH]; intros a; [cbn; lia|]. cbn [foldl decimal length]. rewrite IH, Nat2N.inj_succ, N.pow_succ_r'. lia.
Qed.
Lemma parse_int_spec lit z : parse_int lit = Some z <-> whole lit z.
Proof.
  assert (forall (neg : bool) d, (if forallb is_digit d && negb (bool_decide (d = [])) then
    let v := if neg then (- Z.of_N (digits_value d))%Z else Z.of_N (digits_value d) in
    if ((-9223372036854775808 <=? v) && (v <? 9223372036854775808))%Z then Some v else None
    else None) = Some z <-> ((- 2 ^ 63 <= z < 2 ^ 63)%Z /\ d <> [] /\ digits d /\ z = if neg then (- Z.of_N (decimal d))%Z else Z.of_N (decimal d))) as H.
  { intros neg d. change (2 ^ 63)%Z with 9223372036854775808%Z. rewrite decimal_value. split.
    - destruct (forallb is_digit d) eqn:E; [|done]. case_bool_decide as Hd; [done|]. cbn [andb negb]. cbn zeta.
      destruct (_ && _)%Z eqn:Er; [|done]. intros [= <-]. split; [destruct neg; lia|]. split; [done|]. split; [|done].
      apply digits_spec. apply Forall_forall. intros b Hb. rewrite forallb_forall in E. apply E, elem_of_list_In. done.
    - intros (Hr & Hd & Hdig & ->). assert (forallb is_digit d = true) as -> by (apply forallb_Forall_digit, digits_spec; done).
      rewrite bool_decide_false by done. cbn [andb negb]. cbn zeta. destruct (_ && _)%Z eqn:Er; [done|]. destruct neg; lia. }
  unfold parse_int. destruct lit as [|b lit].
  { rewrite (H false []). split; [naive_solver|]. intros (_ & d & Hd & _ & [[<- _]|[E _]]); done. }
  destruct (decide (b = x2d)) as [->|Hb].
  - rewrite (H true lit). unfold whole. split.
    + intros (H1 & H2 & H3 & H4). split; [done|]. exists lit. auto.
    + intros (H1 & d & H2 & H3 & [[<- _]|[[= <-] H4]]); [|auto]. apply Forall_cons in H3 as [H3 _]. vm_compute in H3. naive_solver.
  - assert ((match b :: lit with x2d :: r => (true, r) | _ => (false, b :: lit) end) = (false, b :: lit)) as -> by (destruct b; done).
    rewrite (H false (b :: lit)). unfold whole. split.
    + intros (H1 & H2 & H3 & H4). split; [done|]. exists (b :: lit). auto.
    + intros (H1 & d & H2 & H3 & [[<- H4]|[[= -> _] _]]); [auto|done].
Qed.
