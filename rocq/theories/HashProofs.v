From Verif Require Export Hash Sha1.
From Coq Require Import ZifyBool ZifyNat ZifyN.
Ltac Zify.zify_post_hook ::= Z.div_mod_to_equations.

(** Specification vocabulary: hexadecimal digit characters and ASCII lower case. *)
Definition is_hex (c : byte) : Prop :=
  (48 <= bN c <= 57 \/ 97 <= bN c <= 102 \/ 65 <= bN c <= 70)%N.
Definition lower (c : byte) : byte := if ((65 <=? bN c) && (bN c <=? 90))%N then Nb (bN c + 32) else c.

Lemma hex_encode_length l : length (hex_encode l) = 2 * length l.
Proof. induction l as [|b l IH]; [done|]. cbn [hex_encode length]. rewrite IH. lia. Qed.

Lemma from_hex_digit n : (n < 16)%N -> from_hex_char (hex_digit n) = Some n.
Proof.
  intros Hn. unfold from_hex_char, hex_digit. rewrite bN_Nb.
  destruct (N.ltb_spec n 10).
  - rewrite N.mod_small by lia.
    destruct (N.leb_spec 48 (48 + n)); [|lia]. destruct (N.leb_spec (48 + n) 57); [|lia]. cbn [andb]. f_equal. lia.
  - rewrite N.mod_small by lia.
    destruct (N.leb_spec (87 + n) 57); [lia|]. rewrite andb_false_r.
    destruct (N.leb_spec 97 (87 + n)); [|lia]. destruct (N.leb_spec (87 + n) 102); [|lia]. cbn [andb]. f_equal. lia.
Qed.
Lemma nibbles a b : (a < 16)%N -> (b < 16)%N -> N.lor (N.shiftl a 4) b = (a * 16 + b)%N.
Proof.
  intros Ha Hb. rewrite N.shiftl_mul_pow2. change (2^4)%N with 16%N.
  assert (N.land (a * 16) b = 0)%N as Hd.
  { apply N.bits_inj_0. intros k. rewrite N.land_spec.
    change 16%N with (2^4)%N. destruct (decide (k < 4)%N).
    - rewrite N.mul_pow2_bits_low by done. done.
    - destruct (decide (b = 0)%N) as [->|]; [rewrite N.bits_0; apply andb_false_r|].
      rewrite (N.bits_above_log2 b); [apply andb_false_r|].
      assert (N.log2 b < 4)%N; [|lia]. apply N.log2_lt_pow2; [lia|]. exact Hb. }
  rewrite <- N.lxor_lor by done. rewrite <- N.add_nocarry_lxor by done. done.
Qed.
Lemma hex_decode_encode l : hex_decode (hex_encode l) = Ok l.
Proof.
  induction l as [|b l IH]; [done|]. cbn [hex_encode hex_decode]. pose proof (bN_lt b) as Hb.
  rewrite !from_hex_digit by lia. rewrite IH. cbn [rbind]. rewrite nibbles by lia.
  rewrite <- (Nb_bN b) at 3. do 2 f_equal. f_equal. lia.
Qed.

Lemma from_hex_char_lt c n : from_hex_char c = Some n -> (n < 16)%N.
Proof.
  unfold from_hex_char. repeat (match goal with |- context [if ?x then _ else _] => destruct x eqn:? end);
    intros [= <-]; lia.
Qed.
Lemma from_hex_char_some c : is_hex c <-> exists n, from_hex_char c = Some n.
Proof.
  unfold is_hex, from_hex_char. split.
  - intros H. destruct ((48 <=? bN c) && (bN c <=? 57))%N eqn:?; [eauto|].
    destruct ((97 <=? bN c) && (bN c <=? 102))%N eqn:?; [eauto|].
    destruct ((65 <=? bN c) && (bN c <=? 70))%N eqn:?; [eauto|]. lia.
  - intros [n Hn]. destruct ((48 <=? bN c) && (bN c <=? 57))%N eqn:?; [lia|].
    destruct ((97 <=? bN c) && (bN c <=? 102))%N eqn:?; [lia|].
    destruct ((65 <=? bN c) && (bN c <=? 70))%N eqn:?; [lia|]. done.
Qed.
Lemma hex_digit_of_char c n : from_hex_char c = Some n -> hex_digit n = lower c.
Proof.
  unfold from_hex_char, hex_digit, lower.
  pose proof (bN_lt c) as Hc.
  destruct ((48 <=? bN c) && (bN c <=? 57))%N eqn:E1.
  - intros [= <-]. destruct ((65 <=? bN c) && (bN c <=? 90))%N eqn:E; [lia|].
    destruct (N.ltb_spec (bN c - 48) 10); [|lia].
    replace (48 + (bN c - 48))%N with (bN c) by lia. apply Nb_bN.
  - destruct ((97 <=? bN c) && (bN c <=? 102))%N eqn:E2.
    + intros [= <-]. destruct ((65 <=? bN c) && (bN c <=? 90))%N eqn:E; [lia|].
      destruct (N.ltb_spec (bN c - 97 + 10) 10); [lia|].
      replace (87 + (bN c - 97 + 10))%N with (bN c) by lia. apply Nb_bN.
    + destruct ((65 <=? bN c) && (bN c <=? 70))%N eqn:E3; [|done].
      intros [= <-]. destruct ((65 <=? bN c) && (bN c <=? 90))%N eqn:E; [|lia].
      destruct (N.ltb_spec (bN c - 65 + 10) 10); [lia|].
      f_equal. lia.
Qed.

Lemma hex_decode_ok s bs : hex_decode s = Ok bs <-> Forall is_hex s /\ map lower s = hex_encode bs.
Proof.
  revert s. induction bs as [|b bs IH]; intros s.
  - split.
    + destruct s as [|p [|q s]]; cbn [hex_decode]; [done|done|].
      destruct (from_hex_char p), (from_hex_char q); try done. destruct (hex_decode s); done.
    + intros [_ H]. destruct s; done.
  - split.
    + destruct s as [|p [|q s]]; cbn [hex_decode]; [done|done|].
      destruct (from_hex_char p) as [a|] eqn:Ea; [|done]. destruct (from_hex_char q) as [c|] eqn:Ec; [|done].
      destruct (hex_decode s) as [r| |] eqn:Er; cbn [rbind]; [|done|done]. intros [= <- ->].
      apply IH in Er as [HF HE]. split.
      * constructor; [apply from_hex_char_some; eauto|]. constructor; [apply from_hex_char_some; eauto|done].
      * cbn [map hex_encode]. pose proof (from_hex_char_lt _ _ Ea). pose proof (from_hex_char_lt _ _ Ec).
        rewrite nibbles, bN_Nb by done.
        rewrite N.mod_small by lia. rewrite HE, <- (hex_digit_of_char p a), <- (hex_digit_of_char q c) by done.
        f_equal; [f_equal; lia|]. f_equal. f_equal. lia.
    + intros [HF HE]. destruct s as [|p [|q s]]; [done|done|]. cbn [map hex_encode] in HE.
      injection HE as Hp Hq Hs. inversion HF as [|? ? Hhp HF']; subst. inversion HF' as [|? ? Hhq HF'']; subst.
      apply from_hex_char_some in Hhp as [a Ha]. apply from_hex_char_some in Hhq as [c Hc].
      cbn [hex_decode]. rewrite Ha, Hc.
      assert (hex_decode s = Ok bs) as -> by (apply IH; done). cbn [rbind]. do 2 f_equal.
      pose proof (from_hex_char_lt _ _ Ha). pose proof (from_hex_char_lt _ _ Hc).
      rewrite <- (hex_digit_of_char p a) in Hp by done. rewrite <- (hex_digit_of_char q c) in Hq by done.
      pose proof (bN_lt b) as Hb.
      apply (f_equal from_hex_char) in Hp, Hq. rewrite !from_hex_digit in Hp, Hq by lia.
      injection Hp as ->. injection Hq as ->. rewrite nibbles by lia. rewrite <- (Nb_bN b) at 3. f_equal. lia.
Qed.
Lemma hex_decode_not_panic s : ~ is_panic (hex_decode s).
Proof.
  remember (length s) as n eqn:Hn. revert s Hn. induction n as [n IH] using lt_wf_ind. intros s Hn [p Hp].
  destruct s as [|a [|c s]]; cbn [hex_decode] in Hp; [done|done|].
  destruct (from_hex_char a), (from_hex_char c); try done.
  destruct (hex_decode s) as [r|e|q] eqn:E; cbn [rbind] in Hp; try done.
  eapply (IH (length s)); [|done|]; [cbn in Hn; lia|]. exists q. done.
Qed.
Lemma hex_decode_total s : Forall is_hex s -> Nat.even (length s) = true -> exists bs, hex_decode s = Ok bs /\ length s = 2 * length bs.
Proof.
  remember (length s) as n eqn:Hn. revert s Hn. induction n as [n IH] using lt_wf_ind. intros s Hn HF He.
  destruct s as [|p [|q s]]; [exists []; split; [done|cbn in *; lia]|cbn in Hn; subst; done|].
  inversion HF as [|? ? Hp HF']; subst. inversion HF' as [|? ? Hq HF'']; subst.
  apply from_hex_char_some in Hp as [a Ha]. apply from_hex_char_some in Hq as [c Hc].
  destruct (IH (length s) ltac:(cbn [length]; lia) s eq_refl HF'' He) as (bs & E & Hl).
  cbn [hex_decode]. rewrite Ha, Hc, E. cbn [rbind]. eexists. split; [done|]. cbn [length]. lia.
Qed.

Lemma gocopy20 (h bs : hash) : length h = 20 -> length bs = 20 -> gocopy h bs = bs.
Proof. intros. apply gocopy_full. congruence. Qed.

(** C14 *)
Lemma C14_roundtrip_lemma h0 h : hash_wf h0 -> hash_wf h -> from_string_safe h0 (hash_string h) = (h, None).
Proof.
  intros H0 H. unfold from_string_safe, hash_string. rewrite hex_decode_encode.
  unfold hash_wf in *. rewrite H. cbn [Nat.eqb]. rewrite gocopy20 by done. done.
Qed.
Lemma C14_accepts_lemma h0 s : hash_wf h0 ->
  (length s = 40 /\ Forall is_hex s ->
     exists h, from_string_safe h0 s = (h, None) /\ hash_wf h /\ hash_string h = map lower s) /\
  (~ (length s = 40 /\ Forall is_hex s) -> exists e, from_string_safe h0 s = (h0, Some e)).
Proof.
  intros H0. split.
  - intros [Hl HF]. destruct (hex_decode_total s HF) as (bs & E & Hb); [rewrite Hl; done|].
    exists bs. unfold from_string_safe. rewrite E. assert (length bs = 20) as H20 by lia. rewrite H20. cbn [Nat.eqb].
    rewrite gocopy20 by done. split_and!; [done|done|]. apply hex_decode_ok in E as [_ E]. done.
  - intros Hn. unfold from_string_safe. destruct (hex_decode s) as [bs|e|e] eqn:E.
    + destruct (Nat.eqb_spec (length bs) 20) as [H20|]; [|eauto].
      exfalso. apply Hn. apply hex_decode_ok in E as [HF HE]. split; [|done].
      apply (f_equal length) in HE. rewrite map_length, hex_encode_length in HE. lia.
    + eauto.
    + eauto.
Qed.
Lemma C14_string_inj_lemma a b : hash_string a = hash_string b -> a = b.
Proof.
  unfold hash_string. intros H. assert (@Ok (list byte) a = Ok b) as H'; [|congruence].
  rewrite <- !hex_decode_encode, H. done.
Qed.
Lemma C14_string_shape_lemma h : hash_wf h -> length (hash_string h) = 40 /\ Forall is_hex (hash_string h) /\
  map lower (hash_string h) = hash_string h.
Proof.
  unfold hash_wf, hash_string. intros H. split; [rewrite hex_encode_length; lia|].
  apply hex_decode_ok, hex_decode_encode.
Qed.
Lemma C14_from_string_lemma h0 s : hash_wf h0 ->
  (is_panic (from_string h0 s) <-> ~ (Nat.even (length s) = true /\ Forall is_hex s)) /\
  (forall h, hash_wf h -> from_string h0 (hash_string h) = Ok h).
Proof.
  intros H0. split.
  - unfold from_string. split.
    + intros [p Hp] [He HF]. destruct (hex_decode_total s HF He) as (bs & E & _). rewrite E in Hp. done.
    + intros Hn. destruct (hex_decode s) as [bs|e|e] eqn:E; [|by eexists|by eexists].
      exfalso. apply Hn. apply hex_decode_ok in E as [HF HE]. split; [|done].
      apply (f_equal length) in HE. rewrite map_length, hex_encode_length in HE. rewrite HE.
      rewrite Nat.even_mul. done.
  - intros h Hh. unfold from_string, hash_string. rewrite hex_decode_encode. rewrite gocopy20; done.
Qed.

(** C15 *)
Lemma unbe_max l : Forall (fun b => b = xff) l <-> unbe l = (256 ^ N.of_nat (length l) - 1)%N.
Proof.
  induction l as [|b l IH] using rev_ind; [split; [done|constructor]|].
  rewrite Forall_app, Forall_singleton, IH, unbe_app, app_length. cbn [length].
  rewrite Nat2N.inj_add, N.pow_add_r. change (256 ^ N.of_nat 1)%N with 256%N.
  pose proof (unbe_lt l). pose proof (bN_lt b). split.
  - intros [-> ->]. change (bN xff) with 255%N.
    assert (0 < 256 ^ N.of_nat (length l))%N by (apply N.neq_0_lt_0, N.pow_nonzero; lia). lia.
  - intros E. assert (bN b = 255)%N as Hb by lia. split; [lia|]. apply bN_inj. done.
Qed.
Lemma C15_lemma h : hash_wf h -> (is_blank h = true <-> h = replicate 20 xff).
Proof.
  intros Hl. unfold hash_wf in Hl. unfold is_blank.
  assert (take 8 h ++ take 8 (drop 8 h) ++ take 4 (drop 16 h) = h) as Hh.
  { replace (take 4 (drop 16 h)) with (drop 8 (drop 8 h)).
    - rewrite take_drop, take_drop. done.
    - rewrite drop_drop. symmetry. apply take_ge. rewrite drop_length. lia. }
  assert (length (take 8 h) = 8) as L1 by (rewrite take_length; lia).
  assert (length (take 8 (drop 8 h)) = 8) as L2 by (rewrite take_length, drop_length; lia).
  assert (length (take 4 (drop 16 h)) = 4) as L3 by (rewrite take_length, drop_length; lia).
  pose proof (unbe_max (take 8 h)) as M1. rewrite L1 in M1. change (256 ^ N.of_nat 8 - 1)%N with 18446744073709551615%N in M1.
  pose proof (unbe_max (take 8 (drop 8 h))) as M2. rewrite L2 in M2. change (256 ^ N.of_nat 8 - 1)%N with 18446744073709551615%N in M2.
  pose proof (unbe_max (take 4 (drop 16 h))) as M3. rewrite L3 in M3. change (256 ^ N.of_nat 4 - 1)%N with 4294967295%N in M3.
  rewrite !andb_true_iff, !N.eqb_eq. split.
  - intros ((H1 & H2) & H3). rewrite H1 in H2. symmetry in H2.
    apply M1 in H1. apply M2 in H2. apply M3 in H3.
    symmetry. apply replicate_as_elem_of. split; [done|]. intros x Hx. rewrite <- Hh in Hx.
    rewrite !elem_of_app in Hx. rewrite Forall_forall in H1, H2, H3. naive_solver.
  - intros ->. vm_compute. done.
Qed.
Lemma C15_blank_lemma h : hash_wf h -> hash_blank h = replicate 20 xff /\ is_blank (hash_blank h) = true.
Proof.
  intros Hl. assert (hash_blank h = replicate 20 xff) as H.
  { unfold hash_blank, hash_wf in *. rewrite <- Hl. clear Hl. induction h as [|b h IH]; [done|]. cbn. f_equal. done. }
  split; [done|]. rewrite H. vm_compute. done.
Qed.

(** C16 *)
Lemma C16_lemma h s : hash_wf h ->
  (length s = 20 -> from_slice_safe h s = (s, None) /\ from_slice h s = s) /\
  (length s <> 20 -> exists e, from_slice_safe h s = (h, Some e)) /\
  hash_slice h = h /\ hash_slice_copy h = h /\
  (forall i, from_slice h s !! i = if decide (i < 20) then (if decide (i < length s) then s !! i else h !! i) else None).
Proof.
  intros Hh. unfold hash_wf in Hh. unfold from_slice_safe, from_slice. split_and!.
  - intros Hs. rewrite Hs. cbn [Nat.eqb]. rewrite gocopy20 by done. done.
  - intros Hs. destruct (Nat.eqb_spec (length s) 20); [done|]. eauto.
  - done.
  - unfold hash_slice_copy. apply gocopy20; done.
  - intros i. rewrite gocopy_lookup, Hh. done.
Qed.
