(** The parser: fuel, stability under appending, round trip. *)
From Verif Require Export JsonProofs.
From Coq Require Import ZifyBool ZifyNat ZifyN.
Ltac Zify.zify_post_hook ::= Z.div_mod_to_equations.

(** ** Lengths *)
Lemma skip_ws_len s : length (skip_ws s) <= length s.
Proof. induction s as [|b s IH]; [done|]. cbn [skip_ws]. destruct (is_ws b); cbn [length]; lia. Qed.
Lemma expect_len c s r : expect c s = Some r -> length r < length s.
Proof.
  unfold expect. pose proof (skip_ws_len s). destruct (skip_ws s) as [|b r']; [done|].
  case_bool_decide; [|done]. intros [= ->]. cbn [length] in *. lia.
Qed.
Lemma lex_string_len st s raw r : lex_string st s = Some (raw, r) -> length r < length s.
Proof.
  revert st raw; induction s as [|b s IH]; intros st raw; [done|]. cbn [lex_string length].
  assert (forall st', raw_cons b (lex_string st' s) = Some (raw, r) -> length r < S (length s)) as Hc.
  { intros st' H. destruct (lex_string st' s) as [[raw' r']|] eqn:E; [|done]. cbn in H. injection H as <- <-.
    apply IH in E. lia. }
  destruct st.
  - case_bool_decide; [intros [= <- <-]; lia|]. case_bool_decide; [apply Hc|]. case_match; [done|apply Hc].
  - case_bool_decide; [apply Hc|]. case_bool_decide; [apply Hc|done].
  - case_match; [apply Hc|done].
Qed.
Lemma span_digits_len s d r : span_digits s = (d, r) -> length r + length d = length s.
Proof.
  revert d r; induction s as [|b s IH]; intros d r; cbn [span_digits]; [intros [= <- <-]; done|].
  destruct (is_digit b); [|intros [= <- <-]; cbn; lia].
  destruct (span_digits s) as [d' r'] eqn:E. intros [= <- <-]. cbn [length]. specialize (IH d' r' eq_refl). lia.
Qed.
Lemma lex_frac_len s d r : lex_frac s = Some (d, r) -> length r <= length s.
Proof.
  destruct s as [|b s]; [intros [= <- <-]; done|]. destruct (decide (b = x2e)) as [->|Hb].
  - unfold lex_frac. destruct (span_digits s) as [[|d0 d'] r'] eqn:E; [done|]. intros [= <- <-].
    apply span_digits_len in E. cbn [length] in *. lia.
  - assert (lex_frac (b :: s) = Some ([], b :: s)) as -> by (unfold lex_frac; destruct b; done). intros [= <- <-]. done.
Qed.
Definition exp_tail (s : list byte) : option (list byte * list byte) :=
  let '(sg, r1) := match s with
                   | (x2b | x2d) as c :: r1 => ([c], r1)
                   | _ => ([], s)
                   end in
  match span_digits r1 with
  | ([], _) => None
  | (d, r') => Some (sg ++ d, r')
  end.
Lemma lex_exp_unfold b s : lex_exp (b :: s) =
  if bool_decide (b = x65 \/ b = x45) then
    match exp_tail s with Some (d, r) => Some (b :: d, r) | None => None end
  else Some ([], b :: s).
Proof.
  destruct (decide (b = x65)) as [->|H1].
  { rewrite bool_decide_true by auto. unfold lex_exp, exp_tail.
    destruct (match s with | (x2b | x2d) as c :: r1 => ([c], r1) | _ => ([], s) end) as [sg r1].
    destruct (span_digits r1) as [[|d0 d] r']; done. }
  destruct (decide (b = x45)) as [->|H2].
  { rewrite bool_decide_true by auto. unfold lex_exp, exp_tail.
    destruct (match s with | (x2b | x2d) as c :: r1 => ([c], r1) | _ => ([], s) end) as [sg r1].
    destruct (span_digits r1) as [[|d0 d] r']; done. }
  rewrite bool_decide_false by tauto. unfold lex_exp. destruct b; done.
Qed.
Lemma exp_tail_unfold b s : exp_tail (b :: s) =
  if bool_decide (b = x2b \/ b = x2d) then
    match span_digits s with ([], _) => None | (d, r) => Some (b :: d, r) end
  else match span_digits (b :: s) with ([], _) => None | (d, r) => Some (d, r) end.
Proof.
  destruct (decide (b = x2b)) as [->|H1].
  { rewrite bool_decide_true by auto. unfold exp_tail. destruct (span_digits s) as [[|d0 d] r']; done. }
  destruct (decide (b = x2d)) as [->|H2].
  { rewrite bool_decide_true by auto. unfold exp_tail. destruct (span_digits s) as [[|d0 d] r']; done. }
  rewrite bool_decide_false by tauto. unfold exp_tail.
  assert ((match b :: s with | (x2b | x2d) as c :: r1 => ([c], r1) | _ => ([], b :: s) end) = ([], b :: s)) as ->
    by (destruct b; done).
  cbn [app]. destruct (span_digits (b :: s)) as [[|d0 d] r']; done.
Qed.
Lemma exp_tail_len s d r : exp_tail s = Some (d, r) -> length r <= length s.
Proof.
  destruct s as [|b s]; [done|]. rewrite exp_tail_unfold. case_bool_decide.
  - destruct (span_digits s) as [[|d0 d'] r'] eqn:E; [done|]. intros [= <- <-].
    apply span_digits_len in E. cbn [length] in *. lia.
  - destruct (span_digits (b :: s)) as [[|d0 d'] r'] eqn:E; [done|]. intros [= <- <-].
    apply span_digits_len in E. cbn [length] in *. lia.
Qed.
Lemma lex_exp_len s d r : lex_exp s = Some (d, r) -> length r <= length s.
Proof.
  destruct s as [|b s]; [intros [= <- <-]; done|]. rewrite lex_exp_unfold. case_bool_decide; [|intros [= <- <-]; done].
  destruct (exp_tail s) as [[d' r']|] eqn:E; [|done]. intros [= <- <-]. apply exp_tail_len in E. cbn [length]. lia.
Qed.
Definition lex_unsigned (s1 : list byte) : option (list byte * list byte) :=
  match s1 with
  | [] => None
  | b :: r =>
      let int_part := if bool_decide (b = x30) then Some ([x30], r)
                      else if is_digit b then Some (span_digits s1) else None in
      match int_part with
      | None => None
      | Some (ip, s2) =>
          match lex_frac s2 with
          | None => None
          | Some (fp, s3) =>
              match lex_exp s3 with
              | None => None
              | Some (ep, s4) => Some (ip ++ fp ++ ep, s4)
              end
          end
      end
  end.
Lemma lex_number_unfold b s : lex_number (b :: s) =
  if bool_decide (b = x2d) then match lex_unsigned s with Some (d, r) => Some (x2d :: d, r) | None => None end
  else lex_unsigned (b :: s).
Proof.
  destruct (decide (b = x2d)) as [->|Hb].
  - rewrite bool_decide_true by done. unfold lex_number, lex_unsigned. destruct s as [|c s]; [done|].
    destruct (if bool_decide (c = x30) then _ else _) as [[ip s2]|]; [|done].
    destruct (lex_frac s2) as [[fp s3]|]; [|done]. destruct (lex_exp s3) as [[ep s4]|]; done.
  - rewrite bool_decide_false by done. unfold lex_number.
    assert ((match b :: s with | x2d :: r => ([x2d], r) | _ => ([], b :: s) end) = ([], b :: s)) as -> by (destruct b; done).
    reflexivity.
Qed.
Lemma lex_unsigned_len s d r : lex_unsigned s = Some (d, r) -> length r < length s.
Proof.
  unfold lex_unsigned. destruct s as [|b s]; [done|].
  assert (forall ip s2, length s2 <= length s ->
    (match lex_frac s2 with
          | None => None
          | Some (fp, s3) =>
              match lex_exp s3 with
              | None => None
              | Some (ep, s4) => Some (ip ++ fp ++ ep, s4)
              end
          end) = Some (d, r) -> length r < length (b :: s)) as Hk.
  { intros ip s2 H2 H. destruct (lex_frac s2) as [[fp s3]|] eqn:E1; [|done]. destruct (lex_exp s3) as [[ep s4]|] eqn:E2; [|done].
    injection H as <- <-. apply lex_frac_len in E1. apply lex_exp_len in E2. cbn [length]. lia. }
  case_bool_decide; [apply Hk; done|]. destruct (is_digit b) eqn:Ed; [|done].
  destruct (span_digits (b :: s)) as [ip s2] eqn:E. apply Hk.
  cbn [span_digits] in E. rewrite Ed in E. destruct (span_digits s) as [d' r'] eqn:E'. injection E as <- <-.
  apply span_digits_len in E'. lia.
Qed.
Lemma lex_number_len s d r : lex_number s = Some (d, r) -> length r < length s.
Proof.
  destruct s as [|b s]; [done|]. rewrite lex_number_unfold. case_bool_decide; [|apply lex_unsigned_len].
  destruct (lex_unsigned s) as [[d' r']|] eqn:E; [|done]. intros [= <- <-]. apply lex_unsigned_len in E. cbn [length]. lia.
Qed.
Lemma strip_len p s r : strip p s = Some r -> length r = length s - length p.
Proof. unfold strip. case_bool_decide; [|done]. intros [= <-]. apply drop_length. Qed.

(** what follows a value is shorter *)
Lemma parse_len n :
  (forall s v r, parse_value n s = Some (v, r) -> length r < length s) /\
  (forall s v r, parse_members n s = Some (v, r) -> length r < length s) /\
  (forall s v r, parse_elems n s = Some (v, r) -> length r < length s).
Proof.
  induction n as [|n (IHv & IHm & IHe)]; [split; [|split]; done|]. split; [|split].
  - intros s v r. cbn [parse_value]. pose proof (skip_ws_len s) as Hl. destruct (skip_ws s) as [|b s']; [done|].
    cbn [length] in Hl.
    case_bool_decide.
    { destruct (expect x7d s') eqn:E; [intros [= <- <-]; apply expect_len in E; lia|].
      destruct (parse_members n s') as [[ms r']|] eqn:E2; [|done]. intros [= <- <-]. apply IHm in E2. lia. }
    case_bool_decide.
    { destruct (expect x5d s') eqn:E; [intros [= <- <-]; apply expect_len in E; lia|].
      destruct (parse_elems n s') as [[ms r']|] eqn:E2; [|done]. intros [= <- <-]. apply IHe in E2. lia. }
    case_bool_decide.
    { destruct (lex_string LNormal s') as [[raw r']|] eqn:E; [|done]. intros [= <- <-]. apply lex_string_len in E. lia. }
    case_bool_decide.
    { destruct (strip _ _) eqn:E; [|done]. intros [= <- <-]. apply strip_len in E. cbn [length] in E. lia. }
    case_bool_decide.
    { destruct (strip _ _) eqn:E; [|done]. intros [= <- <-]. apply strip_len in E. cbn [length] in E. lia. }
    case_bool_decide.
    { destruct (strip _ _) eqn:E; [|done]. intros [= <- <-]. apply strip_len in E. cbn [length] in E. lia. }
    destruct (lex_number (b :: s')) as [[lit r']|] eqn:E; [|done]. intros [= <- <-]. apply lex_number_len in E. cbn [length] in E. lia.
  - intros s v r. cbn [parse_members]. pose proof (skip_ws_len s) as Hl. destruct (skip_ws s) as [|b s']; [done|].
    cbn [length] in Hl. case_bool_decide; [|done].
    destruct (lex_string LNormal s') as [[raw r1]|] eqn:E1; [|done]. apply lex_string_len in E1.
    destruct (expect x3a r1) as [r2|] eqn:E2; [|done]. apply expect_len in E2.
    destruct (parse_value n r2) as [[v' r3]|] eqn:E3; [|done]. apply IHv in E3.
    destruct (expect x2c r3) as [r4|] eqn:E4.
    + apply expect_len in E4. destruct (parse_members n r4) as [[ms r5]|] eqn:E5; [|done].
      intros [= <- <-]. apply IHm in E5. lia.
    + destruct (expect x7d r3) as [r4|] eqn:E5; [|done]. intros [= <- <-]. apply expect_len in E5. lia.
  - intros s v r. cbn [parse_elems].
    destruct (parse_value n s) as [[v' r3]|] eqn:E3; [|done]. apply IHv in E3.
    destruct (expect x2c r3) as [r4|] eqn:E4.
    + apply expect_len in E4. destruct (parse_elems n r4) as [[ms r5]|] eqn:E5; [|done].
      intros [= <- <-]. apply IHe in E5. lia.
    + destruct (expect x5d r3) as [r4|] eqn:E5; [|done]. intros [= <- <-]. apply expect_len in E5. lia.
Qed.

(** any fuel above twice the length of the text gives the same answer *)
Lemma parse_fuel n :
  (forall m s, 2 * length s < n -> 2 * length s < m -> parse_value n s = parse_value m s) /\
  (forall m s, 2 * length s < n -> 2 * length s < m -> parse_members n s = parse_members m s) /\
  (forall m s, 2 * length s + 1 < n -> 2 * length s + 1 < m -> parse_elems n s = parse_elems m s).
Proof.
  induction n as [|n (IHv & IHm & IHe)].
  { split; [|split]; intros m s H; lia. }
  split; [|split]; intros m s Hn Hm; (destruct m as [|m]; [lia|]).
  - cbn [parse_value].
    pose proof (skip_ws_len s) as Hl. destruct (skip_ws s) as [|b s']; [done|]. cbn [length] in Hl.
    case_bool_decide.
    { destruct (expect x7d s') eqn:E; [done|]. rewrite (IHm m) by lia. done. }
    case_bool_decide; [|done].
    destruct (expect x5d s') eqn:E; [done|]. rewrite (IHe m) by lia. done.
  - cbn [parse_members].
    pose proof (skip_ws_len s) as Hl. destruct (skip_ws s) as [|b s']; [done|]. cbn [length] in Hl.
    case_bool_decide; [|done].
    destruct (lex_string LNormal s') as [[raw r1]|] eqn:E1; [|done]. apply lex_string_len in E1.
    destruct (expect x3a r1) as [r2|] eqn:E2; [|done]. apply expect_len in E2.
    rewrite (IHv m r2) by lia.
    destruct (parse_value m r2) as [[v' r3]|] eqn:E3; [|done]. apply (proj1 (parse_len m)) in E3.
    destruct (expect x2c r3) as [r4|] eqn:E4; [|done].
    apply expect_len in E4. rewrite (IHm m r4) by lia. done.
  - cbn [parse_elems]. rewrite (IHv m s) by lia.
    destruct (parse_value m s) as [[v' r3]|] eqn:E3; [|done]. apply (proj1 (parse_len m)) in E3.
    destruct (expect x2c r3) as [r4|] eqn:E4; [|done].
    apply expect_len in E4. rewrite (IHe m r4) by lia. done.
Qed.

(** ** Appending text after a complete value does not change it *)
Lemma skip_ws_app p s b r : skip_ws p = b :: r -> skip_ws (p ++ s) = b :: r ++ s.
Proof.
  induction p as [|c p IH]; [done|]. cbn [skip_ws app]. destruct (is_ws c); [apply IH|]. intros [= -> ->]. done.
Qed.
Lemma expect_app c p s r : expect c p = Some r -> expect c (p ++ s) = Some (r ++ s).
Proof.
  unfold expect. destruct (skip_ws p) as [|b r'] eqn:E; [done|]. rewrite (skip_ws_app _ _ _ _ E).
  case_bool_decide; [|done]. intros [= ->]. done.
Qed.
Lemma expect_app_none c p s : expect c p = None -> skip_ws p <> [] -> expect c (p ++ s) = None.
Proof.
  unfold expect. destruct (skip_ws p) as [|b r'] eqn:E; [done|]. rewrite (skip_ws_app _ _ _ _ E).
  case_bool_decide; done.
Qed.
Lemma expect_some_ne c p r : expect c p = Some r -> skip_ws p <> [].
Proof. unfold expect. destruct (skip_ws p); done. Qed.
Lemma expect_some_ne' c p r : expect c p = Some r -> p <> [].
Proof. destruct p; done. Qed.
Lemma lex_string_app st p s raw r : lex_string st p = Some (raw, r) -> lex_string st (p ++ s) = Some (raw, r ++ s).
Proof.
  revert st raw; induction p as [|b p IH]; intros st raw; [done|]. cbn [lex_string app].
  assert (forall st', raw_cons b (lex_string st' p) = Some (raw, r) -> raw_cons b (lex_string st' (p ++ s)) = Some (raw, r ++ s)) as Hc.
  { intros st' H. destruct (lex_string st' p) as [[raw' r']|] eqn:E; [|done]. cbn in H. injection H as <- <-.
    rewrite (IH _ _ E). done. }
  destruct st.
  - case_bool_decide; [intros [= <- <-]; done|]. case_bool_decide; [apply Hc|]. case_match; [done|apply Hc].
  - case_bool_decide; [apply Hc|]. case_bool_decide; [apply Hc|done].
  - case_match; [apply Hc|done].
Qed.
Lemma strip_app p q s r : strip p q = Some r -> strip p (q ++ s) = Some (r ++ s).
Proof.
  unfold strip. case_bool_decide as E; [|done]. intros [= <-].
  assert (length p <= length q) by (rewrite <- E at 1; rewrite take_length; lia).
  rewrite take_app_le, drop_app_le by lia. rewrite bool_decide_true by done. done.
Qed.
Lemma span_digits_stable p s d r : span_digits p = (d, r) -> r <> [] -> span_digits (p ++ s) = (d, r ++ s).
Proof.
  revert d r; induction p as [|b p IH]; intros d r; cbn [span_digits app]; [intros [= <- <-]; done|].
  destruct (is_digit b); [|intros [= <- <-] _; done].
  destruct (span_digits p) as [d' r'] eqn:E. intros [= <- <-] Hr. rewrite (IH _ _ eq_refl Hr). done.
Qed.
Lemma lex_frac_stable p s d r : lex_frac p = Some (d, r) -> r <> [] -> lex_frac (p ++ s) = Some (d, r ++ s).
Proof.
  destruct p as [|b p]; [intros [= <- <-]; done|]. cbn [app]. destruct (decide (b = x2e)) as [->|Hb].
  - unfold lex_frac. destruct (span_digits p) as [[|d0 d'] r'] eqn:E; [done|]. intros [= <- <-] Hr.
    rewrite (span_digits_stable _ _ _ _ E Hr). done.
  - assert (forall t, lex_frac (b :: t) = Some ([], b :: t)) as Hz by (intros t; unfold lex_frac; destruct b; done).
    rewrite !Hz. intros [= <- <-]. done.
Qed.
Lemma exp_tail_stable p s d r : exp_tail p = Some (d, r) -> r <> [] -> exp_tail (p ++ s) = Some (d, r ++ s).
Proof.
  destruct p as [|b p]; [done|]. cbn [app]. rewrite !exp_tail_unfold. case_bool_decide.
  - destruct (span_digits p) as [[|d0 d'] r'] eqn:E; [done|]. intros [= <- <-] Hr.
    rewrite (span_digits_stable _ _ _ _ E Hr). done.
  - destruct (span_digits (b :: p)) as [[|d0 d'] r'] eqn:E; [done|]. intros [= <- <-] Hr.
    pose proof (span_digits_stable _ s _ _ E Hr) as E2. cbn [app] in E2. rewrite E2. done.
Qed.
Lemma lex_exp_stable p s d r : lex_exp p = Some (d, r) -> r <> [] -> lex_exp (p ++ s) = Some (d, r ++ s).
Proof.
  destruct p as [|b p]; [intros [= <- <-]; done|]. cbn [app]. rewrite !lex_exp_unfold.
  case_bool_decide; [|intros [= <- <-]; done].
  destruct (exp_tail p) as [[d' r']|] eqn:E; [|done]. intros [= <- <-] Hr. rewrite (exp_tail_stable _ _ _ _ E Hr). done.
Qed.
Lemma lex_exp_ne p d r : lex_exp p = Some (d, r) -> r <> [] -> p <> [].
Proof. destruct p; [intros [= <- <-]; done|done]. Qed.
Lemma lex_frac_ne p d r : lex_frac p = Some (d, r) -> r <> [] -> p <> [].
Proof. destruct p; [intros [= <- <-]; done|done]. Qed.
Lemma lex_unsigned_stable p s d r : lex_unsigned p = Some (d, r) -> r <> [] -> lex_unsigned (p ++ s) = Some (d, r ++ s).
Proof.
  unfold lex_unsigned. destruct p as [|b p]; [done|]. cbn [app].
  assert (forall ip s2,
    (match lex_frac s2 with
          | None => None
          | Some (fp, s3) =>
              match lex_exp s3 with
              | None => None
              | Some (ep, s4) => Some (ip ++ fp ++ ep, s4)
              end
          end) = Some (d, r) -> r <> [] -> s2 <> [] /\
    (match lex_frac (s2 ++ s) with
          | None => None
          | Some (fp, s3) =>
              match lex_exp s3 with
              | None => None
              | Some (ep, s4) => Some (ip ++ fp ++ ep, s4)
              end
          end) = Some (d, r ++ s)) as Hk.
  { intros ip s2 H Hr. destruct (lex_frac s2) as [[fp s3]|] eqn:E1; [|done]. destruct (lex_exp s3) as [[ep s4]|] eqn:E2; [|done].
    injection H as <- <-. pose proof (lex_exp_ne _ _ _ E2 Hr) as H3. split; [apply (lex_frac_ne _ _ _ E1 H3)|].
    rewrite (lex_frac_stable _ _ _ _ E1 H3), (lex_exp_stable _ _ _ _ E2 Hr). done. }
  case_bool_decide; [intros H1 H2; apply Hk; done|]. destruct (is_digit b) eqn:Ed; [|done].
  destruct (span_digits (b :: p)) as [ip s2] eqn:E. intros H1 H2.
  destruct (Hk _ _ H1 H2) as [H3 H4]. pose proof (span_digits_stable _ s _ _ E H3) as E2. cbn [app] in E2. rewrite E2. done.
Qed.
Lemma lex_number_stable p s d r : lex_number p = Some (d, r) -> r <> [] -> lex_number (p ++ s) = Some (d, r ++ s).
Proof.
  destruct p as [|b p]; [done|]. cbn [app]. rewrite !lex_number_unfold. case_bool_decide.
  - destruct (lex_unsigned p) as [[d' r']|] eqn:E; [|done]. intros [= <- <-] Hr.
    rewrite (lex_unsigned_stable _ _ _ _ E Hr). done.
  - intros E Hr. apply (lex_unsigned_stable (b :: p) s _ _ E Hr).
Qed.

Definition is_num (v : json) : bool := match v with JNum _ => true | _ => false end.
Lemma parse_members_ws n s x : parse_members n s = Some x -> skip_ws s <> [].
Proof. destruct n; [done|]. cbn [parse_members]. destruct (skip_ws s); done. Qed.
Lemma parse_value_ws n s x : parse_value n s = Some x -> skip_ws s <> [].
Proof. destruct n; [done|]. cbn [parse_value]. destruct (skip_ws s); done. Qed.
Lemma parse_elems_ws n s x : parse_elems n s = Some x -> skip_ws s <> [].
Proof.
  destruct n; [done|]. cbn [parse_elems]. destruct (parse_value n s) as [y|] eqn:E; [|done].
  intros _. apply (parse_value_ws _ _ _ E).
Qed.
Lemma parse_stable n t :
  (forall m s v r, n <= m -> parse_value n s = Some (v, r) -> r <> [] \/ is_num v = false ->
     parse_value m (s ++ t) = Some (v, r ++ t)) /\
  (forall m s v r, n <= m -> parse_members n s = Some (v, r) -> parse_members m (s ++ t) = Some (v, r ++ t)) /\
  (forall m s v r, n <= m -> parse_elems n s = Some (v, r) -> parse_elems m (s ++ t) = Some (v, r ++ t)).
Proof.
  induction n as [|n (IHv & IHm & IHe)]; [split; [|split]; done|]. split; [|split].
  - intros m s v r Hm. destruct m as [|m]; [lia|]. cbn [parse_value].
    destruct (skip_ws s) as [|b s'] eqn:Es; [done|]. rewrite (skip_ws_app _ _ _ _ Es).
    case_bool_decide.
    { destruct (expect x7d s') as [r0|] eqn:E.
      - rewrite (expect_app _ _ t _ E). intros [= <- <-] _. done.
      - destruct (parse_members n s') as [[ms r']|] eqn:E2; [|done]. intros [= <- <-] _.
        rewrite (expect_app_none _ _ t E (parse_members_ws _ _ _ E2)). rewrite (IHm m _ _ _ ltac:(lia) E2). done. }
    case_bool_decide.
    { destruct (expect x5d s') as [r0|] eqn:E.
      - rewrite (expect_app _ _ t _ E). intros [= <- <-] _. done.
      - destruct (parse_elems n s') as [[ms r']|] eqn:E2; [|done]. intros [= <- <-] _.
        rewrite (expect_app_none _ _ t E (parse_elems_ws _ _ _ E2)). rewrite (IHe m _ _ _ ltac:(lia) E2). done. }
    case_bool_decide.
    { destruct (lex_string LNormal s') as [[raw r']|] eqn:E; [|done]. intros [= <- <-] _.
      rewrite (lex_string_app _ _ t _ _ E). done. }
    rewrite app_comm_cons.
    case_bool_decide.
    { destruct (strip _ _) eqn:E; [|done]. intros [= <- <-] _. rewrite (strip_app _ _ t _ E). done. }
    case_bool_decide.
    { destruct (strip _ _) eqn:E; [|done]. intros [= <- <-] _. rewrite (strip_app _ _ t _ E). done. }
    case_bool_decide.
    { destruct (strip _ _) eqn:E; [|done]. intros [= <- <-] _. rewrite (strip_app _ _ t _ E). done. }
    destruct (lex_number (b :: s')) as [[lit r']|] eqn:E; [|done]. intros [= <- <-] [Hr|?]; [|done].
    rewrite (lex_number_stable _ t _ _ E Hr). done.
  - intros m s v r Hm. destruct m as [|m]; [lia|]. cbn [parse_members].
    destruct (skip_ws s) as [|b s'] eqn:Es; [done|]. rewrite (skip_ws_app _ _ _ _ Es).
    case_bool_decide; [|done].
    destruct (lex_string LNormal s') as [[raw r1]|] eqn:E1; [|done]. rewrite (lex_string_app _ _ t _ _ E1).
    destruct (expect x3a r1) as [r2|] eqn:E2; [|done]. rewrite (expect_app _ _ t _ E2).
    destruct (parse_value n r2) as [[v' r3]|] eqn:E3; [|done].
    destruct (expect x2c r3) as [r4|] eqn:E4.
    + rewrite (IHv m _ _ _ ltac:(lia) E3 ltac:(left; apply (expect_some_ne' _ _ _ E4))).
      rewrite (expect_app _ _ t _ E4). destruct (parse_members n r4) as [[ms r5]|] eqn:E5; [|done].
      intros [= <- <-]. rewrite (IHm m _ _ _ ltac:(lia) E5). done.
    + destruct (expect x7d r3) as [r4|] eqn:E5; [|done]. intros [= <- <-].
      rewrite (IHv m _ _ _ ltac:(lia) E3 ltac:(left; apply (expect_some_ne' _ _ _ E5))).
      rewrite (expect_app_none _ _ t E4 (expect_some_ne _ _ _ E5)). rewrite (expect_app _ _ t _ E5). done.
  - intros m s v r Hm. destruct m as [|m]; [lia|]. cbn [parse_elems].
    destruct (parse_value n s) as [[v' r3]|] eqn:E3; [|done].
    destruct (expect x2c r3) as [r4|] eqn:E4.
    + rewrite (IHv m _ _ _ ltac:(lia) E3 ltac:(left; apply (expect_some_ne' _ _ _ E4))).
      rewrite (expect_app _ _ t _ E4). destruct (parse_elems n r4) as [[ms r5]|] eqn:E5; [|done].
      intros [= <- <-]. rewrite (IHe m _ _ _ ltac:(lia) E5). done.
    + destruct (expect x5d r3) as [r4|] eqn:E5; [|done]. intros [= <- <-].
      rewrite (IHv m _ _ _ ltac:(lia) E3 ltac:(left; apply (expect_some_ne' _ _ _ E5))).
      rewrite (expect_app_none _ _ t E4 (expect_some_ne _ _ _ E5)). rewrite (expect_app _ _ t _ E5). done.
Qed.

(** ** A strict prefix of a document is not a document (unless it is a number) *)
Lemma skip_ws_nil_app a b : skip_ws (a ++ b) = [] -> skip_ws b = [].
Proof. induction a as [|c a IH]; [done|]. cbn [app skip_ws]. destruct (is_ws c); [apply IH|done]. Qed.
Lemma skip_ws_nil_all s : skip_ws s = [] -> Forall (fun b => is_ws b = true) s.
Proof. induction s as [|b s IH]; [constructor|]. cbn [skip_ws]. destruct (is_ws b) eqn:E; [|done]. intros H. constructor; auto. Qed.
Lemma parse_doc_prefix p s c v v' : parse_doc (p ++ s ++ [c]) = Some v -> is_num v = false -> is_ws c = false ->
  parse_doc p = Some v' -> False.
Proof.
  unfold parse_doc. intros H Hnum Hc Hp.
  destruct (parse_value (S (2 * length p)) p) as [[v2 r2]|] eqn:E2; [|done].
  case_bool_decide as Hr2; [|done]. injection Hp as ->.
  destruct (parse_value _ (p ++ s ++ [c])) as [[v1 r1]|] eqn:E1; [|done].
  case_bool_decide as Hr1; [|done]. injection H as ->.
  destruct (is_num v') eqn:Ev.
  - (* then the document starts like a number too *)
    assert (is_num v = true) as Hcontra; [|congruence].
    revert E1 E2. cbn [parse_value]. destruct (skip_ws p) as [|b s'] eqn:Es; [done|].
    rewrite (skip_ws_app _ (s ++ [c]) _ _ Es).
    repeat (case_bool_decide; [intros _ E2; repeat case_match; simplify_eq|]).
    intros E1 _. destruct (lex_number (b :: s' ++ s ++ [c])) as [[lit r']|]; [|done]. injection E1 as <- <-. done.
  - pose proof (proj1 (parse_stable (S (2 * length p)) (s ++ [c])) (S (2 * length (p ++ s ++ [c]))) p v' r2) as Hst.
    rewrite Hst in E1; [|rewrite !app_length; lia|exact E2|right; done]. injection E1 as <- <-.
    apply skip_ws_nil_app, skip_ws_nil_all in Hr1. apply Forall_app in Hr1 as [_ Hr1].
    inversion Hr1; subst. congruence.
Qed.

(** ** Round trip *)
Fixpoint print_elems (l : list json) : list byte :=
  match l with
  | [] => []
  | [v] => print_json v
  | v :: l' => print_json v ++ x2c :: print_elems l'
  end.
Fixpoint print_members (l : list (list byte * json)) : list byte :=
  match l with
  | [] => []
  | [(k, v)] => print_string k ++ x3a :: print_json v
  | (k, v) :: l' => print_string k ++ x3a :: print_json v ++ x2c :: print_members l'
  end.
Lemma print_arr vs : print_json (JArr vs) = x5b :: print_elems vs ++ [x5d].
Proof. reflexivity. Qed.
Lemma print_obj ms : print_json (JObj ms) = x7b :: print_members ms ++ [x7d].
Proof. reflexivity. Qed.

Lemma print_members_cons k v kv ms : print_members ((k, v) :: kv :: ms) = print_string k ++ x3a :: print_json v ++ x2c :: print_members (kv :: ms).
Proof. reflexivity. Qed.
Lemma print_elems_cons v v' vs : print_elems (v :: v' :: vs) = print_json v ++ x2c :: print_elems (v' :: vs).
Proof. reflexivity. Qed.
(** values the encoder produces: numbers are printed integers *)
Fixpoint json_ok (v : json) : Prop :=
  match v with
  | JNum lit => exists z, lit = print_int z
  | JArr vs => (fix go l := match l with [] => True | v :: l' => json_ok v /\ go l' end) vs
  | JObj ms => (fix go (l : list (list byte * json)) := match l with [] => True | (_, v) :: l' => json_ok v /\ go l' end) ms
  | _ => True
  end.
(** what comes back: strings sanitized *)
Fixpoint norm (v : json) : json :=
  match v with
  | JStr s => JStr (sanitize s)
  | JArr vs => JArr (map norm vs)
  | JObj ms => JObj (map (fun kv : list byte * json => (sanitize kv.1, norm kv.2)) ms)
  | _ => v
  end.
Lemma print_int_head z : exists b l, print_int z = b :: l /\ (is_digit b = true \/ b = x2d).
Proof.
  unfold print_int. destruct (z <? 0)%Z; [exists x2d; eauto|].
  destruct (print_nat_head (Z.to_N z)) as (b & l & E & H). eauto.
Qed.
Lemma digit_not_ws b : is_digit b = true \/ b = x2d -> is_ws b = false /\ b <> x7b /\ b <> x5b /\ b <> quote_b /\ b <> x74 /\ b <> x66 /\ b <> x6e.
Proof. intros [H| ->]; [|done]. repeat split; [|intros ->; done..]. destruct b; try done. Qed.
Lemma skip_ws_cons b s : is_ws b = false -> skip_ws (b :: s) = b :: s.
Proof. intros H. cbn [skip_ws]. rewrite H. done. Qed.
Lemma expect_cons c s : is_ws c = false -> expect c (c :: s) = Some s.
Proof. intros H. unfold expect. rewrite skip_ws_cons by done. rewrite bool_decide_true by done. done. Qed.
Lemma expect_cons_ne b c s : is_ws b = false -> b <> c -> expect c (b :: s) = None.
Proof. intros H Hn. unfold expect. rewrite skip_ws_cons by done. rewrite bool_decide_false by done. done. Qed.

Lemma print_json_first v : json_ok v -> exists b l, print_json v = b :: l /\ is_ws b = false /\ b <> x5d.
Proof.
  destruct v as [|[]|lit|s|vs|ms]; cbn [json_ok]; intros H; try (eexists; eexists; split; [reflexivity|split; done]).
  destruct H as [z ->]. destruct (print_int_head z) as (b & l & E & Hb). exists b, l. cbn [print_json].
  split; [done|]. destruct Hb as [Hb| ->]; [|done]. split; [destruct b; done|intros ->; done].
Qed.

Lemma parse_print n :
  (forall v rest, 2 * length (print_json v) < n -> json_ok v -> num_end rest ->
     parse_value n (print_json v ++ rest) = Some (norm v, rest)) /\
  (forall ms rest, ms <> [] -> 2 * length (print_members ms) < n -> json_ok (JObj ms) ->
     parse_members n (print_members ms ++ x7d :: rest) = Some (map (fun kv : list byte * json => (sanitize kv.1, norm kv.2)) ms, rest)) /\
  (forall vs rest, vs <> [] -> 2 * length (print_elems vs) + 1 < n -> json_ok (JArr vs) ->
     parse_elems n (print_elems vs ++ x5d :: rest) = Some (map norm vs, rest)).
Proof.
  induction n as [|n (IHv & IHm & IHe)]; [split; [|split]; intros; lia|]. split; [|split].
  - intros v rest Hn Hok Hrest. destruct v as [|[]|lit|s|vs|ms].
    + reflexivity.
    + reflexivity.
    + reflexivity.
    + destruct Hok as [z ->]. cbn [print_json norm].
      destruct (print_int_head z) as (b & l & E & Hb). pose proof (digit_not_ws b Hb) as (H1&H2&H3&H4&H5&H6&H7).
      pose proof (lex_number_int z rest Hrest) as HL. rewrite E in *. cbn [app] in *. cbn [parse_value].
      rewrite skip_ws_cons by done. rewrite !bool_decide_false by done. rewrite HL. done.
    + cbn [print_json norm]. unfold print_string. cbn [app parse_value]. rewrite skip_ws_cons by done.
      rewrite !bool_decide_false by done. rewrite bool_decide_true by done. rewrite <- app_assoc. cbn [app].
      rewrite lex_escape. rewrite unquote_escape. done.
    + rewrite print_arr in *. cbn [length] in Hn. rewrite app_length in Hn. cbn [length] in Hn.
      cbn [app parse_value]. rewrite skip_ws_cons by done. rewrite bool_decide_false by done. rewrite bool_decide_true by done.
      rewrite <- app_assoc. cbn [app norm]. destruct vs as [|v vs].
      { cbn [print_elems app map]. rewrite expect_cons by done. done. }
      assert (expect x5d (print_elems (v :: vs) ++ x5d :: rest) = None) as ->.
      { cbn in Hok. destruct Hok as [Hok _]. destruct (print_json_first v Hok) as (b & l & E & Hw & Hne).
        destruct vs as [|v' vs']; cbn [print_elems]; rewrite E; cbn [app]; apply expect_cons_ne; done. }
      rewrite IHe; [done|done|lia|done].
    + rewrite print_obj in *. cbn [length] in Hn. rewrite app_length in Hn. cbn [length] in Hn.
      cbn [app parse_value]. rewrite skip_ws_cons by done. rewrite bool_decide_true by done.
      rewrite <- app_assoc. cbn [app norm]. destruct ms as [|[k v] ms].
      { cbn [print_members app map]. rewrite expect_cons by done. done. }
      assert (expect x7d (print_members ((k, v) :: ms) ++ x7d :: rest) = None) as ->.
      { destruct ms as [|[k' v'] ms']; cbn [print_members]; unfold print_string; cbn [app]; apply expect_cons_ne; done. }
      rewrite IHm; [done|done|lia|done].
  - intros ms rest Hne Hn Hok. destruct ms as [|[k v] ms]; [done|]. cbn in Hok. destruct Hok as [Hv Hms].
    assert (print_members ((k, v) :: ms) ++ x7d :: rest =
      quote_b :: escape k ++ quote_b :: x3a :: print_json v ++
        (match ms with [] => x7d :: rest | _ => x2c :: print_members ms ++ x7d :: rest end)) as ->.
    { destruct ms as [|[k' v'] ms']; cbn [print_members]; unfold print_string; cbn [app];
        rewrite <- !app_assoc; cbn [app]; rewrite <- ?app_assoc; done. }
    assert (2 * length (print_json v) < n /\ (ms <> [] -> 2 * length (print_members ms) < n)) as [Hn1 Hn2].
    { destruct ms as [|kv' ms'].
      - cbn [print_members] in Hn; unfold print_string in Hn;
        rewrite !app_length in Hn; cbn [length] in Hn; rewrite ?app_length in Hn; cbn [length] in Hn. split; [lia|done].
      - rewrite print_members_cons in Hn. unfold print_string in Hn.
        rewrite !app_length in Hn; cbn [length] in Hn; rewrite !app_length in Hn; cbn [length] in Hn.
        split; [lia|]. intros _. lia. }
    cbn [parse_members]. rewrite skip_ws_cons by done. rewrite bool_decide_true by done.
    rewrite lex_escape. rewrite expect_cons by done. rewrite IHv; [|done|done|destruct ms; done].
    rewrite unquote_escape. destruct ms as [|kv' ms'].
    + rewrite expect_cons_ne by done. rewrite expect_cons by done. done.
    + rewrite expect_cons by done. rewrite IHm; [done|done|apply Hn2; done|done].
  - intros vs rest Hne Hn Hok. destruct vs as [|v vs]; [done|]. cbn in Hok. destruct Hok as [Hv Hvs].
    assert (print_elems (v :: vs) ++ x5d :: rest = print_json v ++
        (match vs with [] => x5d :: rest | _ => x2c :: print_elems vs ++ x5d :: rest end)) as ->.
    { destruct vs as [|v' vs']; cbn [print_elems]; rewrite <- ?app_assoc; done. }
    assert (2 * length (print_json v) < n /\ (vs <> [] -> 2 * length (print_elems vs) + 1 < n)) as [Hn1 Hn2].
    { destruct vs as [|v' vs'].
      - cbn [print_elems] in Hn. split; [lia|done].
      - rewrite print_elems_cons in Hn. rewrite !app_length in Hn; cbn [length] in Hn.
        split; [lia|]. intros _. lia. }
    cbn [parse_elems]. rewrite IHv; [|done|done|destruct vs; done].
    destruct vs as [|v' vs'].
    + rewrite expect_cons_ne by done. rewrite expect_cons by done. done.
    + rewrite expect_cons by done. rewrite IHe; [done|done|apply Hn2; done|done].
Qed.
Lemma parse_doc_print v : json_ok v -> parse_doc (print_json v) = Some (norm v).
Proof.
  intros H. unfold parse_doc.
  pose proof (proj1 (parse_print (S (2 * length (print_json v)))) v [] ltac:(lia) H I) as E.
  rewrite app_nil_r in E. rewrite E. cbn [skip_ws]. rewrite bool_decide_true by done. done.
Qed.
