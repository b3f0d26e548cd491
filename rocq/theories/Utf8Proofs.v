(** The decoder recognises exactly the encodings of scalar values. *)
From Verif Require Export Utf8.
From Coq Require Import ZifyBool ZifyNat ZifyN.
Ltac Zify.zify_post_hook ::= Z.div_mod_to_equations.

Lemma in_range_spec lo hi b : in_range lo hi b = true <-> (lo <= bN b <= hi)%N.
Proof. unfold in_range. rewrite andb_true_iff, !N.leb_le. done. Qed.
Lemma in_range_Nb lo hi n : (n < 256)%N -> in_range lo hi (Nb n) = ((lo <=? n) && (n <=? hi))%N.
Proof. intros H. unfold in_range. rewrite bN_Nb, N.mod_small by done. done. Qed.
Lemma bN_Nb_small n : (n < 256)%N -> bN (Nb n) = n.
Proof. intros H. rewrite bN_Nb, N.mod_small by done. done. Qed.

Lemma rune_len_le s : rune_len s <= length s.
Proof.
  unfold rune_len. destruct s as [|b0 s1]; [cbn; lia|].
  destruct (in_range 0 127 b0); [cbn [length]; lia|].
  destruct (in_range 194 223 b0); [destruct s1; [cbn; lia|]; case_match; cbn [length]; lia|].
  destruct (in_range 224 239 b0); [destruct s1 as [|? [|? ?]]; try (cbn; lia); case_match; cbn [length]; lia|].
  destruct (in_range 240 244 b0); [destruct s1 as [|? [|? [|? ?]]]; try (cbn; lia); case_match; cbn [length]; lia|].
  lia.
Qed.
(** only the bytes of the rune matter *)
Lemma rune_len_app s t : rune_len s <> 0 -> rune_len (s ++ t) = rune_len s.
Proof.
  unfold rune_len. destruct s as [|b0 s1]; [done|]. cbn [app].
  destruct (in_range 0 127 b0); [done|].
  destruct (in_range 194 223 b0); [destruct s1; done|].
  destruct (in_range 224 239 b0); [destruct s1 as [|? [|? ?]]; done|].
  destruct (in_range 240 244 b0); [destruct s1 as [|? [|? [|? ?]]]; done|]. done.
Qed.
Lemma rune_len_take s : rune_len s <> 0 -> rune_len (take (rune_len s) s) = rune_len s.
Proof.
  unfold rune_len. destruct s as [|b0 s1]; [done|].
  destruct (in_range 0 127 b0) eqn:E0; [cbn [take]; rewrite E0; done|].
  destruct (in_range 194 223 b0) eqn:E1.
  { destruct s1 as [|b1 s2]; [done|]. destruct (in_range 128 191 b1) eqn:E2; [|done].
    intros _. cbn [take]. rewrite E0, E1, E2. done. }
  destruct (in_range 224 239 b0) eqn:E2.
  { destruct s1 as [|b1 [|b2 s2]]; try done. case_match eqn:E3; [|done].
    intros _. cbn [take]. rewrite E0, E1, E2, E3. done. }
  destruct (in_range 240 244 b0) eqn:E3; [|done].
  destruct s1 as [|b1 [|b2 [|b3 s2]]]; try done. case_match eqn:E4; [|done].
  intros _. cbn [take]. rewrite E0, E1, E2, E3, E4. done.
Qed.

Ltac rdec := repeat (rewrite ?in_range_Nb, ?bN_Nb_small by lia).
Lemma rune_len_encode r t : scalar r -> rune_len (encode_rune r ++ t) = length (encode_rune r).
Proof.
  unfold scalar, encode_rune. intros H.
  destruct (N.ltb_spec r 128); [cbn [app rune_len length]; rdec; case_match; lia|].
  destruct (N.ltb_spec r 2048).
  { cbn [app rune_len length]. rdec.
    replace ((0 <=? 192 + r / 64) && (192 + r / 64 <=? 127))%N with false by lia.
    replace ((194 <=? 192 + r / 64) && (192 + r / 64 <=? 223))%N with true by lia.
    replace ((128 <=? 128 + r mod 64) && (128 + r mod 64 <=? 191))%N with true by lia. done. }
  destruct (N.ltb_spec r 65536).
  { cbn [app rune_len length]. rdec.
    replace ((0 <=? 224 + r / 4096) && (224 + r / 4096 <=? 127))%N with false by lia.
    replace ((194 <=? 224 + r / 4096) && (224 + r / 4096 <=? 223))%N with false by lia.
    replace ((224 <=? 224 + r / 4096) && (224 + r / 4096 <=? 239))%N with true by lia.
    replace ((128 <=? 128 + r mod 64) && (128 + r mod 64 <=? 191))%N with true by lia.
    rewrite andb_true_r.
    destruct (N.eqb_spec (224 + r / 4096) 224), (N.eqb_spec (224 + r / 4096) 237); case_match eqn:E; try done; lia. }
  cbn [app rune_len length]. rdec.
  replace ((0 <=? 240 + r / 262144) && (240 + r / 262144 <=? 127))%N with false by lia.
  replace ((194 <=? 240 + r / 262144) && (240 + r / 262144 <=? 223))%N with false by lia.
  replace ((224 <=? 240 + r / 262144) && (240 + r / 262144 <=? 239))%N with false by lia.
  replace ((240 <=? 240 + r / 262144) && (240 + r / 262144 <=? 244))%N with true by lia.
  replace ((128 <=? 128 + r mod 64) && (128 + r mod 64 <=? 191))%N with true by lia.
  replace ((128 <=? 128 + r / 64 mod 64) && (128 + r / 64 mod 64 <=? 191))%N with true by lia.
  rewrite !andb_true_r.
  destruct (N.eqb_spec (240 + r / 262144) 240), (N.eqb_spec (240 + r / 262144) 244); case_match eqn:E; try done; lia.
Qed.

Lemma Nb_eq b n : n = bN b -> b = Nb n.
Proof. intros ->. rewrite Nb_bN. done. Qed.
Lemma rune_len_decode s : rune_len s <> 0 ->
  exists r, scalar r /\ take (rune_len s) s = encode_rune r.
Proof.
  unfold rune_len. destruct s as [|b0 s1]; [done|].
  destruct (in_range 0 127 b0) eqn:E0.
  { intros _. apply in_range_spec in E0. exists (bN b0). split; [unfold scalar; lia|].
    unfold encode_rune. destruct (N.ltb_spec (bN b0) 128); [|lia]. cbn. rewrite Nb_bN, take_0. done. }
  destruct (in_range 194 223 b0) eqn:E1.
  { destruct s1 as [|b1 s2]; [done|]. destruct (in_range 128 191 b1) eqn:E2; [|done].
    intros _. apply in_range_spec in E1. apply in_range_spec in E2.
    exists ((bN b0 - 192) * 64 + (bN b1 - 128))%N. split; [unfold scalar; lia|].
    unfold encode_rune. set (r := ((bN b0 - 192) * 64 + (bN b1 - 128))%N).
    destruct (N.ltb_spec r 128); [lia|]. destruct (N.ltb_spec r 2048); [|lia].
    cbn [take]. rewrite take_0. f_equal; [apply Nb_eq; lia|]. f_equal. apply Nb_eq. lia. }
  destruct (in_range 224 239 b0) eqn:E2.
  { destruct s1 as [|b1 [|b2 s2]]; try done. cbn zeta. case_match eqn:E3; [|done].
    intros _. apply in_range_spec in E2. apply andb_true_iff in E3 as [E3 E4].
    apply in_range_spec in E3. apply in_range_spec in E4.
    exists ((bN b0 - 224) * 4096 + (bN b1 - 128) * 64 + (bN b2 - 128))%N.
    assert (128 <= bN b1 <= 191)%N as Hb1
      by (destruct (bN b0 =? 224)%N, (bN b0 =? 237)%N; lia).
    set (r := ((bN b0 - 224) * 4096 + (bN b1 - 128) * 64 + (bN b2 - 128))%N).
    assert (2048 <= r)%N by (destruct (N.eqb_spec (bN b0) 224); lia).
    assert (scalar r) as Hr.
    { unfold scalar. destruct (N.eqb_spec (bN b0) 237); [left; lia|].
      destruct (N.ltb_spec (bN b0) 237); [left|right]; lia. }
    split; [done|]. unfold encode_rune.
    destruct (N.ltb_spec r 128); [lia|]. destruct (N.ltb_spec r 2048); [lia|].
    destruct (N.ltb_spec r 65536); [|lia].
    cbn [take]. rewrite take_0. f_equal; [apply Nb_eq; lia|]. f_equal; [apply Nb_eq; lia|].
    f_equal. apply Nb_eq. lia. }
  destruct (in_range 240 244 b0) eqn:E3; [|done].
  destruct s1 as [|b1 [|b2 [|b3 s2]]]; try done. cbn zeta. case_match eqn:E4; [|done].
  intros _. apply in_range_spec in E3. apply andb_true_iff in E4 as [E4 E6]. apply andb_true_iff in E4 as [E4 E5].
  apply in_range_spec in E4. apply in_range_spec in E5. apply in_range_spec in E6.
  assert (128 <= bN b1 <= 191)%N as Hb1
    by (destruct (bN b0 =? 240)%N, (bN b0 =? 244)%N; lia).
  set (r := ((bN b0 - 240) * 262144 + (bN b1 - 128) * 4096 + (bN b2 - 128) * 64 + (bN b3 - 128))%N).
  assert (65536 <= r)%N by (destruct (N.eqb_spec (bN b0) 240); lia).
  assert (r < 1114112)%N by (destruct (N.eqb_spec (bN b0) 244); lia).
  exists r. split; [unfold scalar; lia|]. unfold encode_rune.
  destruct (N.ltb_spec r 128); [lia|]. destruct (N.ltb_spec r 2048); [lia|].
  destruct (N.ltb_spec r 65536); [lia|].
  cbn [take]. rewrite take_0. f_equal; [apply Nb_eq; lia|]. f_equal; [apply Nb_eq; lia|].
  f_equal; [apply Nb_eq; lia|]. f_equal. apply Nb_eq. lia.
Qed.

(** a token is a non-empty valid rune or one invalid byte *)
Definition tok_wf (t : bool * list byte) : Prop :=
  if t.1 then t.2 <> [] /\ rune_len t.2 = length t.2 else exists b, t.2 = [b] /\ rune_len [b] = 0.

Lemma tokens_n_concat n s : length s <= n -> concat (map snd (tokens_n n s)) = s.
Proof.
  revert s; induction n as [|n IH]; intros s H; [destruct s; [done|cbn in H; lia]|].
  cbn [tokens_n]. destruct s as [|b s']; [done|]. cbn [length] in H.
  destruct (rune_len (b :: s')) as [|k] eqn:E.
  - cbn [map concat snd app]. rewrite IH by lia. done.
  - cbn [map concat snd]. rewrite IH; [apply take_drop|]. rewrite drop_length. cbn [length]. lia.
Qed.
Lemma tokens_concat s : concat (map snd (tokens s)) = s.
Proof. apply tokens_n_concat. lia. Qed.
Lemma tokens_n_valid n rs : Forall scalar rs -> length (concat (map encode_rune rs)) <= n ->
  tokens_n n (concat (map encode_rune rs)) = map (fun r => (true, encode_rune r)) rs.
Proof.
  revert n; induction rs as [|r rs IH]; intros n H Hn; [destruct n; done|].
  inversion H as [|? ? Hr Hrs]; subst. cbn [map concat] in *.
  assert (length (encode_rune r) <> 0) as He.
  { unfold encode_rune. repeat case_match; done. }
  rewrite app_length in Hn. destruct n as [|n]; [lia|]. cbn [tokens_n].
  pose proof (rune_len_encode r (concat (map encode_rune rs)) Hr) as Hl.
  destruct (encode_rune r ++ concat (map encode_rune rs)) as [|b s'] eqn:E.
  { apply app_eq_nil in E as [E _]. rewrite E in He. done. }
  rewrite Hl. destruct (length (encode_rune r)) as [|k] eqn:Ek; [done|].
  rewrite <- E, <- Ek, take_app, drop_app. f_equal. apply IH; [done|]. lia.
Qed.
Lemma sanitize_valid s : valid_utf8 s -> sanitize s = s.
Proof.
  intros (rs & Hrs & ->). unfold sanitize, tokens. rewrite tokens_n_valid by (done || lia).
  rewrite map_map. cbn [fst snd]. done.
Qed.
Lemma encode_fffd : encode_rune 65533 = fffd.
Proof. reflexivity. Qed.
Lemma scalar_fffd : scalar 65533.
Proof. unfold scalar. lia. Qed.
Lemma tokens_n_runes n s : length s <= n ->
  exists rs, Forall scalar rs /\
    concat (map (fun t : bool * list byte => if t.1 then t.2 else fffd) (tokens_n n s)) = concat (map encode_rune rs).
Proof.
  revert s; induction n as [|n IH]; intros s H; [exists []; done|].
  cbn [tokens_n]. destruct s as [|b s']; [exists []; done|]. cbn [length] in H.
  destruct (rune_len (b :: s')) as [|k] eqn:E.
  - destruct (IH s') as (rs & H1 & H2); [lia|]. exists (65533%N :: rs).
    split; [constructor; [apply scalar_fffd|done]|]. cbn [map concat fst snd]. rewrite encode_fffd, H2. done.
  - destruct (IH (drop (S k) (b :: s'))) as (rs & H1 & H2); [rewrite drop_length; cbn [length]; lia|].
    destruct (rune_len_decode (b :: s')) as (r & Hr & Hd); [rewrite E; done|]. rewrite E in Hd.
    exists (r :: rs). split; [constructor; done|]. cbn [map concat fst snd]. rewrite Hd, H2. done.
Qed.
(** the result of sanitizing is always valid UTF-8, and nothing else is unchanged *)
Lemma sanitize_is_valid s : valid_utf8 (sanitize s).
Proof. destruct (tokens_n_runes (length s) s) as (rs & H1 & H2); [lia|]. exists rs. split; [done|exact H2]. Qed.
Lemma sanitize_id_iff s : sanitize s = s <-> valid_utf8 s.
Proof. split; [intros H; rewrite <- H; apply sanitize_is_valid|apply sanitize_valid]. Qed.
Lemma sanitize_idem s : sanitize (sanitize s) = sanitize s.
Proof. apply sanitize_valid, sanitize_is_valid. Qed.

Lemma valid_utf8_app a b : valid_utf8 a -> valid_utf8 b -> valid_utf8 (a ++ b).
Proof.
  intros (ra & Ha & ->) (rb & Hb & ->). exists (ra ++ rb). split; [apply Forall_app; done|].
  rewrite map_app, concat_app. done.
Qed.
Lemma valid_utf8_ascii s : Forall (fun b => (bN b < 128)%N) s -> valid_utf8 s.
Proof.
  intros H. exists (map bN s). split.
  - apply Forall_map. eapply Forall_impl; [exact H|]. intros b Hb. unfold scalar. cbn in *. lia.
  - induction s as [|b s IH]; [done|]. inversion H; subst. cbn [map concat]. rewrite <- IH by done.
    unfold encode_rune. destruct (N.ltb_spec (bN b) 128); [|lia]. rewrite Nb_bN. done.
Qed.
