(** The parser of the model accepts exactly the texts of GrammarSpec, and the decoder reads
    from them what that specification says. *)
From Verif Require Import GoBase Json JsonProofs JsonProofs2 JsonProofs3.
From Verif Require Export GrammarSpec GrammarProofs.

(** ** White space *)
Lemma is_ws_spec b : is_ws b = true <-> b = x20 \/ b = x09 \/ b = x0a \/ b = x0d.
Proof.
  unfold is_ws. rewrite bool_decide_eq_true, !elem_of_cons, elem_of_nil. tauto.
Qed.
Lemma is_ws_not b : is_ws b = false <-> ~ (b = x20 \/ b = x09 \/ b = x0a \/ b = x0d).
Proof. rewrite <- is_ws_spec. destruct (is_ws b); split; congruence. Qed.
Lemma skip_ws_sound s : exists w, s = w ++ skip_ws s /\ blanks w.
Proof.
  induction s as [|b s (w & E & Hw)]; [exists []; split; [done|apply Forall_nil; done]|]. cbn [skip_ws]. destruct (is_ws b) eqn:Eb.
  - exists (b :: w). split; [cbn [app]; rewrite <- E; done|]. apply Forall_cons. split; [apply is_ws_spec; done|done].
  - exists []. split; [done|apply Forall_nil; done].
Qed.
Lemma skip_ws_blanks w s : blanks w -> skip_ws (w ++ s) = skip_ws s.
Proof. induction 1 as [|b w Hb _ IH]; [done|]. cbn [app skip_ws]. rewrite (proj2 (is_ws_spec b) Hb). done. Qed.
Lemma expect_sound c s r : expect c s = Some r -> exists w, s = w ++ c :: r /\ blanks w.
Proof.
  unfold expect. destruct (skip_ws_sound s) as (w & E & Hw). destruct (skip_ws s) as [|b t]; [done|]. case_bool_decide as Hb; [|done].
  intros [= ->]. subst b. eauto.
Qed.
Lemma expect_blanks c w s : blanks w -> expect c (w ++ s) = expect c s.
Proof. intros H. unfold expect. rewrite skip_ws_blanks by done. done. Qed.
Lemma strip_sound p s r : strip p s = Some r -> s = p ++ r.
Proof. unfold strip. case_bool_decide as H; [|done]. intros [= <-]. rewrite <- (take_drop (length p) s) at 1. rewrite H. done. Qed.
Lemma strip_app_eq p r : strip p (p ++ r) = Some r.
Proof. unfold strip. rewrite take_app, drop_app, bool_decide_true by done. done. Qed.

(** ** Values *)
Lemma parse_sound n :
  (forall s v r, parse_value n s = Some (v, r) -> exists w p, s = w ++ p ++ r /\ blanks w /\ value v p)
  /\ (forall s ms r, parse_members n s = Some (ms, r) -> exists p, s = p ++ x7d :: r /\ members ms p)
  /\ (forall s vs r, parse_elems n s = Some (vs, r) -> exists p, s = p ++ x5d :: r /\ elems vs p).
Proof.
  induction n as [|n (IHv & IHm & IHe)]; [done|]. split; [|split].
  - intros s v r. cbn [parse_value]. destruct (skip_ws_sound s) as (w & E & Hw). destruct (skip_ws s) as [|b t]; [done|].
    intros H. enough (exists p, b :: t = p ++ r /\ value v p) as (p & Ep & Hp) by (exists w, p; rewrite E, Ep; done). clear E Hw s.
    case_bool_decide as H1; [subst b|]; [|case_bool_decide as H2; [subst b|]; [|case_bool_decide as H3; [subst b|]; [|case_bool_decide as H4; [subst b|]; [|case_bool_decide as H5; [subst b|]; [|case_bool_decide as H6; [subst b|]]]]]].
    + destruct (expect x7d t) as [r'|] eqn:E1.
      * injection H as <- <-. apply expect_sound in E1 as (w' & -> & Hw'). eexists; split; [|apply v_empty_object; exact Hw'].
        cbn [app]. rewrite <- app_assoc. done.
      * destruct (parse_members n t) as [[ms r']|] eqn:E2; [|done]. injection H as <- <-. apply IHm in E2 as (p & -> & Hp).
        eexists; split; [|apply v_object; exact Hp]. cbn [app]. rewrite <- app_assoc. done.
    + destruct (expect x5d t) as [r'|] eqn:E1.
      * injection H as <- <-. apply expect_sound in E1 as (w' & -> & Hw'). eexists; split; [|apply v_empty_array; exact Hw'].
        cbn [app]. rewrite <- app_assoc. done.
      * destruct (parse_elems n t) as [[vs r']|] eqn:E2; [|done]. injection H as <- <-. apply IHe in E2 as (p & -> & Hp).
        eexists; split; [|apply v_array; exact Hp]. cbn [app]. rewrite <- app_assoc. done.
    + destruct (lex_string LNormal t) as [[raw r']|] eqn:E1; [|done]. injection H as <- <-. apply lex_string_sound in E1 as [-> Hc].
      eexists; split; [|apply v_string; exact Hc]. cbn [app]. rewrite <- app_assoc. done.
    + destruct (strip _ _) as [r'|] eqn:E1; [|done]. injection H as <- <-. apply strip_sound in E1. eexists; split; [exact E1|apply v_true].
    + destruct (strip _ _) as [r'|] eqn:E1; [|done]. injection H as <- <-. apply strip_sound in E1. eexists; split; [exact E1|apply v_false].
    + destruct (strip _ _) as [r'|] eqn:E1; [|done]. injection H as <- <-. apply strip_sound in E1. eexists; split; [exact E1|apply v_null].
    + destruct (lex_number (b :: t)) as [[lit r']|] eqn:E1; [|done]. injection H as <- <-. apply lex_number_sound in E1 as [E1 Hn].
      eexists; split; [exact E1|apply v_number; exact Hn].
  - intros s ms r. cbn [parse_members]. destruct (skip_ws_sound s) as (w & E & Hw). destruct (skip_ws s) as [|b t]; [done|].
    case_bool_decide as H1; [subst b|done]. destruct (lex_string LNormal t) as [[raw r1]|] eqn:E1; [|done]. apply lex_string_sound in E1 as [-> Hc].
    destruct (expect x3a r1) as [r2|] eqn:E2; [|done]. apply expect_sound in E2 as (w2 & -> & Hw2).
    destruct (parse_value n r2) as [[v r3]|] eqn:E3; [|done]. apply IHv in E3 as (w3 & p & -> & Hw3 & Hp).
    destruct (expect x2c r3) as [r4|] eqn:E4.
    + apply expect_sound in E4 as (w4 & -> & Hw4). destruct (parse_members n r4) as [[ms' r5]|] eqn:E5; [|done]. intros [= <- <-].
      apply IHm in E5 as (p' & -> & Hp'). eexists. split; [|eapply ms_more; [exact Hw|exact Hc|exact Hw2|eapply e_value; [exact Hw3|exact Hp|exact Hw4]|exact Hp']].
      rewrite E. repeat (cbn [app]; rewrite <- ?app_assoc). done.
    + destruct (expect x7d r3) as [r4|] eqn:E5; [|done]. apply expect_sound in E5 as (w4 & -> & Hw4). intros [= <- <-].
      eexists. split; [|eapply ms_last; [exact Hw|exact Hc|exact Hw2|eapply e_value; [exact Hw3|exact Hp|exact Hw4]]].
      rewrite E. repeat (cbn [app]; rewrite <- ?app_assoc). done.
  - intros s vs r. cbn [parse_elems]. destruct (parse_value n s) as [[v r3]|] eqn:E3; [|done]. apply IHv in E3 as (w3 & p & -> & Hw3 & Hp).
    destruct (expect x2c r3) as [r4|] eqn:E4.
    + apply expect_sound in E4 as (w4 & -> & Hw4). destruct (parse_elems n r4) as [[vs' r5]|] eqn:E5; [|done]. intros [= <- <-].
      apply IHe in E5 as (p' & -> & Hp'). eexists. split; [|eapply es_more; [eapply e_value; [exact Hw3|exact Hp|exact Hw4]|exact Hp']].
      repeat (cbn [app]; rewrite <- ?app_assoc). done.
    + destruct (expect x5d r3) as [r4|] eqn:E5; [|done]. apply expect_sound in E5 as (w4 & -> & Hw4). intros [= <- <-].
      eexists. split; [|eapply es_last; eapply e_value; [exact Hw3|exact Hp|exact Hw4]].
      repeat (cbn [app]; rewrite <- ?app_assoc). done.
Qed.

Lemma digit_first b : (48 <= bN b <= 57)%N \/ b = x2d ->
  is_ws b = false /\ b <> x5d /\ b <> x7b /\ b <> x5b /\ b <> quote_b /\ b <> x74 /\ b <> x66 /\ b <> x6e.
Proof.
  intros H. destruct (digit_not_ws b) as (H1 & H2); [destruct H as [H|H]; [left; apply is_digit_spec; done|right; done]|].
  split; [done|]. split; [|done]. intros ->. destruct H as [H|H]; [vm_compute in H; naive_solver|done].
Qed.
Lemma number_first lit : number lit -> exists b l, lit = b :: l /\ ((48 <= bN b <= 57)%N \/ b = x2d).
Proof.
  intros (sg & ip & fp & ep & -> & Hsg & Hip & _). destruct Hsg as [-> | ->]; [|cbn [app]; eauto].
  destruct Hip as [-> |(b & d & -> & Hb & _)]; cbn [app]; eexists _, _; (split; [reflexivity|]); left; [vm_compute; split; congruence|lia].
Qed.
Lemma value_first v p : value v p -> exists b l, p = b :: l /\ is_ws b = false /\ b <> x5d.
Proof.
  intros H. inversion H; subst; cbn [app]; try (eexists _, _; split; [reflexivity|done]).
  destruct (number_first p) as (b & l & -> & Hb); [done|]. exists b, l. split; [done|]. apply digit_first in Hb as (H1 & H2 & _). done.
Qed.
Lemma num_end_ws b s : is_ws b = true -> num_end (b :: s).
Proof. intros [-> |[-> |[-> | ->]]]%is_ws_spec; vm_compute; done. Qed.
Lemma num_end_blanks w s : blanks w -> num_end s -> num_end (w ++ s).
Proof. intros Hw Hs. destruct Hw as [|b w Hb _]; [done|]. cbn [app]. apply num_end_ws, is_ws_spec. done. Qed.

Scheme value_mut := Induction for value Sort Prop
  with element_mut := Induction for element Sort Prop
  with elems_mut := Induction for elems Sort Prop
  with members_mut := Induction for members Sort Prop.
Combined Scheme value_mutind from value_mut, element_mut, elems_mut, members_mut.

Lemma elems_first vs s : elems vs s -> exists w b l, s = w ++ b :: l /\ blanks w /\ is_ws b = false /\ b <> x5d.
Proof.
  assert (forall v s, element v s -> exists w b l, s = w ++ b :: l /\ blanks w /\ is_ws b = false /\ b <> x5d) as H.
  { intros v s0 [v' w1 p w2 Hw1 Hp Hw2]. apply value_first in Hp as (b & l & -> & Hb). exists w1, b, (l ++ w2). done. }
  intros [v s0 He|v s0 vs0 s' He _]; apply H in He as (w & b & l & -> & Hw); [eauto 10|]. exists w, b, (l ++ [x2c] ++ s').
  split; [rewrite <- app_assoc; done|done].
Qed.
Lemma members_first ms s : members ms s -> exists w l, s = w ++ quote_b :: l /\ blanks w.
Proof. intros [w1 t k w2 v s0 Hw1|w1 t k w2 v s0 ms0 s' Hw1]; eexists _, _; split; [reflexivity|done|reflexivity|done]. Qed.

Ltac asc := repeat (cbn [app]; rewrite <- ?app_assoc).
Lemma parse_complete :
  (forall v p, value v p -> forall n r, 2 * length p <= n -> num_end r -> parse_value n (p ++ r) = Some (v, r))
  /\ (forall v s, element v s -> forall n r, 2 * length s <= n -> num_end r -> exists w, blanks w /\ parse_value n (s ++ r) = Some (v, w ++ r))
  /\ (forall vs s, elems vs s -> forall n r, 2 * length s < n -> parse_elems n (s ++ x5d :: r) = Some (vs, r))
  /\ (forall ms s, members ms s -> forall n r, 2 * length s < n -> parse_members n (s ++ x7d :: r) = Some (ms, r)).
Proof.
  apply value_mutind.
  - intros n r Hn Hr. destruct n as [|n]; [cbn [length] in Hn; lia|]. cbn [app parse_value skip_ws]. done.
  - intros n r Hn Hr. destruct n as [|n]; [cbn [length] in Hn; lia|]. cbn [app parse_value skip_ws]. done.
  - intros n r Hn Hr. destruct n as [|n]; [cbn [length] in Hn; lia|]. cbn [app parse_value skip_ws]. done.
  - intros lit Hl n r Hn Hr. destruct (number_first lit) as (b & l & E & Hb); [done|]. pose proof (lex_number_complete lit r Hl Hr) as El.
    rewrite E in *. destruct n as [|n]; [cbn [length] in Hn; lia|].
    apply digit_first in Hb as (Hw & H1 & H2 & H3 & H4 & H5 & H6 & H7). cbn [app] in *. cbn [parse_value].
    rewrite skip_ws_cons by done. rewrite !bool_decide_false by done. rewrite El. done.
  - intros t v Hc n r Hn Hr. destruct n as [|n]; [cbn [length app] in Hn; lia|]. asc. destruct (lex_string_complete t v r Hc) as [El Eu].
    cbn [parse_value]. rewrite skip_ws_cons by done. change (bool_decide (x22 = x7b)) with false. change (bool_decide (x22 = x5b)) with false.
    change (bool_decide (x22 = quote_b)) with true. cbn iota. rewrite El, Eu. done.
  - intros w Hw n r Hn Hr. destruct n as [|n]; [cbn [length app] in Hn; lia|]. asc.
    cbn [parse_value]. rewrite skip_ws_cons by done. change (bool_decide (x5b = x7b)) with false. change (bool_decide (x5b = x5b)) with true. cbn iota.
    rewrite expect_blanks, expect_cons by done. done.
  - intros vs s He IH n r Hn Hr. destruct n as [|n]; [cbn [length app] in Hn; lia|]. asc.
    cbn [parse_value]. rewrite skip_ws_cons by done. change (bool_decide (x5b = x7b)) with false. change (bool_decide (x5b = x5b)) with true. cbn iota.
    rewrite IH by (cbn [length app] in Hn; rewrite app_length in Hn; cbn [length] in Hn; lia).
    destruct (elems_first vs s He) as (w & b & l & -> & Hw & Hb & Hb'). asc. rewrite expect_blanks, expect_cons_ne by done. done.
  - intros w Hw n r Hn Hr. destruct n as [|n]; [cbn [length app] in Hn; lia|]. asc.
    cbn [parse_value]. rewrite skip_ws_cons by done. change (bool_decide (x7b = x7b)) with true. cbn iota.
    rewrite expect_blanks, expect_cons by done. done.
  - intros ms s Hm IH n r Hn Hr. destruct n as [|n]; [cbn [length app] in Hn; lia|]. asc.
    cbn [parse_value]. rewrite skip_ws_cons by done. change (bool_decide (x7b = x7b)) with true. cbn iota.
    rewrite IH by (cbn [length app] in Hn; rewrite app_length in Hn; cbn [length] in Hn; lia).
    destruct (members_first ms s Hm) as (w & l & -> & Hw). asc. rewrite expect_blanks, expect_cons_ne by done. done.
  - intros v w1 s w2 Hw1 Hp IH Hw2 n r Hn Hr. exists w2. split; [done|]. asc. rewrite !app_length in Hn.
    rewrite <- (IH n (w2 ++ r)); [|lia|apply num_end_blanks; done]. destruct n as [|n]; [done|].
    cbn [parse_value]. rewrite skip_ws_blanks by done. done.
  - intros v s He IH n r Hn. destruct n as [|n]; [lia|]. cbn [parse_elems]. destruct (IH n (x5d :: r)) as (w & Hw & ->); [lia|done|].
    rewrite !expect_blanks, expect_cons_ne, expect_cons by done. done.
  - intros v s vs s' He IH Hes IH' n r Hn. destruct n as [|n]; [lia|]. asc. rewrite !app_length in Hn. cbn [length] in Hn.
    cbn [parse_elems]. destruct (IH n (x2c :: s' ++ x5d :: r)) as (w & Hw & ->); [lia|done|].
    rewrite expect_blanks, expect_cons by done. rewrite IH' by lia. done.
  - intros w1 t k w2 v s Hw1 Hc Hw2 He IH n r Hn. destruct n as [|n]; [lia|]. asc. rewrite !app_length in Hn. cbn [length] in Hn.
    destruct (lex_string_complete t k (w2 ++ x3a :: s ++ x7d :: r) Hc) as [El Eu].
    cbn [parse_members]. rewrite skip_ws_blanks, skip_ws_cons by done. change (bool_decide (x22 = quote_b)) with true. cbn iota. rewrite El, Eu.
    rewrite expect_blanks, expect_cons by done. destruct (IH n (x7d :: r)) as (w & Hw & ->); [lia|done|].
    rewrite !expect_blanks, expect_cons_ne, expect_cons by done. done.
  - intros w1 t k w2 v s ms s' Hw1 Hc Hw2 He IH Hms IH' n r Hn. destruct n as [|n]; [lia|]. asc. rewrite !app_length in Hn. cbn [length] in Hn.
    destruct (lex_string_complete t k (w2 ++ x3a :: s ++ x2c :: s' ++ x7d :: r) Hc) as [El Eu].
    cbn [parse_members]. rewrite skip_ws_blanks, skip_ws_cons by done. change (bool_decide (x22 = quote_b)) with true. cbn iota. rewrite El, Eu.
    rewrite expect_blanks, expect_cons by done. destruct (IH n (x2c :: s' ++ x7d :: r)) as (w & Hw & ->); [lia|done|].
    rewrite expect_blanks, expect_cons by done. rewrite IH' by lia. done.
Qed.
Lemma parse_doc_spec s v : parse_doc s = Some v <-> element v s.
Proof.
  unfold parse_doc. split.
  - destruct (parse_value _ s) as [[v' r]|] eqn:E; [|done]. case_bool_decide as Hr; [|done]. intros [= ->].
    apply parse_sound in E as (w & p & -> & Hw & Hp). apply e_value; [done|done|].
    destruct (skip_ws_sound r) as (w' & Er & Hw'). rewrite Hr, app_nil_r in Er. subst. done.
  - intros He. destruct (proj1 (proj2 parse_complete) v s He (S (2 * length s)) []) as (w & Hw & E); [lia|done|].
    rewrite app_nil_r in E. rewrite E. rewrite skip_ws_blanks by done. done.
Qed.

(** ** Names *)
Definition lowc (b : byte) : byte := if in_range 65 90 b then Nb (bN b + 32) else b.
(** one step of [fold_key] *)
Definition fold_step (f : list byte -> list byte) (k : list byte) : list byte :=
  match k with
  | xc5 :: xbf :: k' => x73 :: f k'
  | xe2 :: x84 :: xaa :: k' => x6b :: f k'
  | b :: k' => (if in_range 65 90 b then Nb (bN b + 32) else b) :: f k'
  | [] => []
  end.
Lemma fold_key_eq k : fold_key k = fold_step fold_key k.
Proof. destruct k; reflexivity. Qed.
Lemma fold_step_plain f b k : (bN b < 128)%N -> fold_step f (b :: k) = lowc b :: f k.
Proof. intros H. destruct b; first [reflexivity|exfalso; vm_compute in H; discriminate H]. Qed.
Lemma fold_key_plain b k : (bN b < 128)%N -> fold_key (b :: k) = lowc b :: fold_key k.
Proof. rewrite fold_key_eq. apply fold_step_plain. Qed.
Lemma fold_step_step f b k : exists p k' x, b :: k = p ++ k' /\ fold_step f (b :: k) = x :: f k'
  /\ (p = [xc5; xbf] /\ x = x73 \/ p = [xe2; x84; xaa] /\ x = x6b \/ p = [b] /\ x = lowc b).
Proof.
  assert (forall c, fold_step f (c :: k) = lowc c :: f k -> exists p k' x, c :: k = p ++ k' /\ fold_step f (c :: k) = x :: f k'
    /\ (p = [xc5; xbf] /\ x = x73 \/ p = [xe2; x84; xaa] /\ x = x6b \/ p = [c] /\ x = lowc c)) as H.
  { intros c E. exists [c], k, (lowc c). split; [reflexivity|auto]. }
  destruct b; try (apply H; reflexivity).
  - destruct k as [|c k]; [apply H; reflexivity|]. destruct (decide (c = xbf)) as [->|Hc]; [|apply H; destruct c; first [exfalso; apply Hc; reflexivity|reflexivity]].
    exists [xc5; xbf], k, x73. split; [reflexivity|auto].
  - destruct k as [|c k]; [apply H; reflexivity|]. destruct (decide (c = x84)) as [->|Hc]; [|apply H; destruct c; first [exfalso; apply Hc; reflexivity|reflexivity]].
    destruct k as [|d k]; [apply H; reflexivity|]. destruct (decide (d = xaa)) as [->|Hd]; [|apply H; destruct d; first [exfalso; apply Hd; reflexivity|reflexivity]].
    exists [xe2; x84; xaa], k, x6b. split; [reflexivity|auto].
Qed.
Lemma fold_key_step b k : exists p k' x, b :: k = p ++ k' /\ fold_key (b :: k) = x :: fold_key k'
  /\ (p = [xc5; xbf] /\ x = x73 \/ p = [xe2; x84; xaa] /\ x = x6b \/ p = [b] /\ x = lowc b).
Proof. rewrite fold_key_eq. apply fold_step_step. Qed.
Lemma lowc_N b : bN (lowc b) = (if (65 <=? bN b) && (bN b <=? 90) then bN b + 32 else bN b)%N.
Proof.
  unfold lowc. change (in_range 65 90 b) with ((65 <=? bN b) && (bN b <=? 90))%N. destruct (_ && _)%N eqn:E; [|done]. rewrite bN_Nb. apply N.mod_small. lia.
Qed.
Lemma lowc_letter b c : (bN c < 128)%N -> lowc b = lowc c -> letter [b] c.
Proof.
  intros Hc E. apply (f_equal bN) in E. rewrite !lowc_N in E.
  assert (bN b = bN c -> letter [b] c) as Heq by (intros G; left; rewrite <- (Nb_bN b), <- (Nb_bN c), G; done).
  assert (((65 <= bN c <= 90 /\ bN b = bN c + 32) \/ (97 <= bN c <= 122 /\ bN c = bN b + 32))%N -> letter [b] c) as Hne by (intros G; right; left; eauto).
  destruct ((65 <=? bN b) && (bN b <=? 90))%N eqn:E1, ((65 <=? bN c) && (bN c <=? 90))%N eqn:E2.
  - apply Heq. lia.
  - apply Hne. lia.
  - apply Hne. lia.
  - apply Heq. lia.
Qed.
Lemma lowc_eq b c : lowc b = c -> (97 <= bN c <= 122)%N -> b = c \/ b = Nb (bN c - 32).
Proof.
  intros E Hc. pose proof (f_equal bN E) as EN. rewrite lowc_N in EN. destruct (_ && _)%N eqn:E1.
  - right. rewrite <- EN. replace (bN b + 32 - 32)%N with (bN b) by lia. rewrite Nb_bN. done.
  - left. rewrite <- (Nb_bN b), EN, Nb_bN. done.
Qed.
Lemma letter_fold p c k : (bN c < 128)%N -> letter p c -> fold_key (p ++ k) = lowc c :: fold_key k.
Proof.
  intros Hc [-> |[(c' & -> & H)|[[H ->]|[H ->]]]].
  - apply fold_key_plain. done.
  - cbn [app]. assert (bN c' < 128)%N by lia. rewrite fold_key_plain by done. f_equal.
    rewrite <- (Nb_bN (lowc c')), <- (Nb_bN (lowc c)), !lowc_N. f_equal.
    destruct ((65 <=? bN c') && (bN c' <=? 90))%N eqn:E1, ((65 <=? bN c) && (bN c <=? 90))%N eqn:E2; lia.
  - rewrite fold_key_eq. destruct H as [-> | ->]; reflexivity.
  - rewrite fold_key_eq. destruct H as [-> | ->]; reflexivity.
Qed.
Lemma fold_ascii l : Forall (fun c => (bN c < 128)%N) l -> fold_key l = map lowc l.
Proof. induction 1 as [|c l Hc _ IH]; [done|]. rewrite fold_key_plain by done. cbn [map]. rewrite IH. done. Qed.
Lemma fold_key_letters l k : Forall (fun c => (bN c < 128)%N) l -> fold_key k = map lowc l <-> exists ps, k = concat ps /\ Forall2 letter ps l.
Proof.
  intros Hl. revert k. induction Hl as [|c l Hc _ IH]; intros k.
  - split.
    + intros E. exists []. split; [|constructor]. destruct k as [|b k]; [done|]. destruct (fold_key_step b k) as (p & k' & x & _ & E' & _). rewrite E' in E. done.
    + intros (ps & -> & H). inversion H. done.
  - cbn [map]. split.
    + intros E. destruct k as [|b k]; [done|]. destruct (fold_key_step b k) as (p & k' & x & Ek & E' & Hx). rewrite E' in E. injection E as Ex E.
      apply IH in E as (ps & -> & HF). exists (p :: ps). split; [rewrite Ek; done|]. constructor; [|done].
      destruct Hx as [[-> ->]|[[-> ->]|[-> ->]]].
      * right. right. left. split; [|done]. symmetry in Ex. apply lowc_eq in Ex; [exact Ex|vm_compute; split; congruence].
      * right. right. right. split; [|done]. symmetry in Ex. apply lowc_eq in Ex; [exact Ex|vm_compute; split; congruence].
      * apply lowc_letter; done.
    + intros (ps & -> & HF). inversion HF as [|p c' ps' l' Hp HF' E1 E2]; subst. cbn [concat]. rewrite (letter_fold p c) by done.
      f_equal. apply IH. eauto.
Qed.
Definition field_names : list string := ["FilePath"; "SizeInBytes"; "Sha1Hash"; "ChunkSize"; "Pid"; "LastTouched"; "Index"; "DataDir"]%string.
Lemma key_is_spec k name : name ∈ field_names -> key_is k name = true <-> same_name k name.
Proof.
  intros Hn. unfold key_is, same_name. rewrite bool_decide_eq_true.
  assert (Forall (fun c => (bN c < 128)%N) (String.list_byte_of_string name)) as Ha.
  { assert (forall n, n ∈ field_names -> forallb (fun c => bN c <? 128)%N (String.list_byte_of_string n) = true) as H
      by (intros n; unfold field_names; rewrite !elem_of_cons, elem_of_nil; intros [-> |[-> |[-> |[-> |[-> |[-> |[-> |[-> |[]]]]]]]]]; reflexivity).
    apply Forall_forall. intros c Hc. apply H in Hn. rewrite forallb_forall in Hn. apply elem_of_list_In, Hn in Hc. lia. }
  rewrite (fold_ascii _ Ha). apply fold_key_letters. done.
Qed.
Lemma key_is_spec_false k name : name ∈ field_names -> key_is k name = false <-> ~ same_name k name.
Proof. intros H. rewrite <- (key_is_spec k name H). destruct (key_is k name); split; congruence. Qed.
Lemma key_is_other k a b : key_is k a = true -> bool_decide (fold_key (String.list_byte_of_string a) = fold_key (String.list_byte_of_string b)) = false -> key_is k b = false.
Proof. unfold key_is. intros H1%bool_decide_eq_true. rewrite H1. done. Qed.

(** ** Fields *)
Lemma fold_opt_snoc {A B} (f : A -> B -> option A) a l b : fold_opt f a (l ++ [b]) = match fold_opt f a l with Some a' => f a' b | None => None end.
Proof. revert a; induction l as [|c l IH]; intros a; cbn [app fold_opt]; [destruct (f a b); done|]. destruct (f a c); [apply IH|done]. Qed.
Lemma field_nil {A} (P : json -> A -> Prop) name z0 z : field P name z0 [] z <-> z = z0.
Proof. split; [|intros ->; constructor]. intros H. inversion H as [|ms k v z' H1 H2 E|ms k z' H1 H2 E|ms k v z' y H1 H2 H3 E]; [done|..]; destruct ms; done. Qed.
Lemma field_snoc {A} (P : json -> A -> Prop) name z0 ms k v z : field P name z0 (ms ++ [(k, v)]) z <->
  (~ same_name k name /\ field P name z0 ms z) \/ (same_name k name /\ exists z', field P name z0 ms z' /\ (v = JNull /\ z = z' \/ P v z)).
Proof.
  split.
  - intros H. inversion H as [E|ms' k' v' z' H1 H2 E|ms' k' z' H1 H2 E|ms' k' v' z' y H1 H2 H3 E]; [destruct ms; done|..];
      apply app_inj_tail in E as [-> [= -> ->]]; eauto 10.
  - intros [[H1 H2]|[H1 (z' & H2 & [[-> ->]|H3])]]; [apply fi_other|apply fi_null|eapply fi_set]; eauto.
Qed.
Lemma dec_int_spec old v z : dec_int old v = Some z <-> v = JNull /\ z = old \/ is_int v z.
Proof.
  unfold is_int. destruct v; cbn [dec_int]; try (split; [done|intros [[E _]|(l & E & _)]; done]).
  - split; [intros [= ->]; auto|intros [[_ ->]|(l & E & _)]; done].
  - rewrite parse_int_spec. split; [intros H; right; eauto|intros [[E _]|(l & [= ->] & H)]; done].
Qed.
Lemma dec_str_spec old v z : dec_str old v = Some z <-> v = JNull /\ z = old \/ is_text v z.
Proof.
  unfold is_text. destruct v; cbn [dec_str]; try (split; [done|intros [[E _]|E]; done]).
  - split; [intros [= ->]; auto|intros [[_ ->]|E]; done].
  - split; [intros [= ->]; auto|intros [[E _]|[= ->]]; done].
Qed.

Section fields.
  Context {A : Type} (P : json -> A -> Prop) (name : string) (z0 : A).
  Lemma field_same ms k v y : name ∈ field_names -> key_is k name = true ->
    field P name z0 (ms ++ [(k, v)]) y <-> exists old, field P name z0 ms old /\ (v = JNull /\ y = old \/ P v y).
  Proof. intros Hn Hk. apply key_is_spec in Hk; [|done]. rewrite field_snoc. naive_solver. Qed.
  Lemma field_else ms k v y : name ∈ field_names -> key_is k name = false -> field P name z0 (ms ++ [(k, v)]) y <-> field P name z0 ms y.
  Proof. intros Hn Hk. apply key_is_spec_false in Hk; [|done]. rewrite field_snoc. naive_solver. Qed.
End fields.
Ltac in_names := unfold field_names; set_solver.

Lemma dec_rec_fields ms r : fold_opt dec_rec_field jrec_zero ms = Some r <->
  field is_text "FilePath" [] ms (j_path r) /\ field is_int "SizeInBytes" 0%Z ms (j_size r)
  /\ field is_text "Sha1Hash" [] ms (j_hash r) /\ field is_int "ChunkSize" 0%Z ms (j_chunk r).
Proof.
  revert r. induction ms as [|[k v] ms IH] using rev_ind; intros [p s h c]; cbn [j_path j_size j_hash j_chunk].
  { rewrite !field_nil. cbn [fold_opt]. unfold jrec_zero. split; [intros [= <- <- <- <-]; done|intros (-> & -> & -> & ->); done]. }
  rewrite fold_opt_snoc. assert (forall x, fold_opt dec_rec_field jrec_zero ms = Some x -> (forall y, fold_opt dec_rec_field jrec_zero ms = Some y -> y = x)) as Hf by congruence.
  destruct (key_is k "FilePath") eqn:K1; [|destruct (key_is k "SizeInBytes") eqn:K2; [|destruct (key_is k "Sha1Hash") eqn:K3; [|destruct (key_is k "ChunkSize") eqn:K4]]].
  - pose proof (key_is_other k _ "SizeInBytes" K1 eq_refl). pose proof (key_is_other k _ "Sha1Hash" K1 eq_refl). pose proof (key_is_other k _ "ChunkSize" K1 eq_refl).
    rewrite (field_same _ "FilePath"), (field_else _ "SizeInBytes"), (field_else _ "Sha1Hash"), (field_else _ "ChunkSize") by (in_names || done). split.
    + destruct (fold_opt _ _ ms) as [r0|]; [|done]. destruct (proj1 (IH r0) eq_refl) as (F1 & F2 & F3 & F4). cbn [dec_rec_field]. rewrite K1.
      destruct (dec_str _ v) as [x|] eqn:E; [|done]. intros [= <- <- <- <-]. apply dec_str_spec in E. eauto 10.
    + intros ((old & F1 & E) & F2 & F3 & F4). rewrite (proj2 (IH (mkJrec old s h c)) (conj F1 (conj F2 (conj F3 F4)))).
      cbn [dec_rec_field]. rewrite K1. cbn [j_path j_size j_hash j_chunk]. apply dec_str_spec in E. rewrite E. done.
  - pose proof (key_is_other k _ "Sha1Hash" K2 eq_refl). pose proof (key_is_other k _ "ChunkSize" K2 eq_refl).
    rewrite (field_else _ "FilePath"), (field_same _ "SizeInBytes"), (field_else _ "Sha1Hash"), (field_else _ "ChunkSize") by (in_names || done). split.
    + destruct (fold_opt _ _ ms) as [r0|]; [|done]. destruct (proj1 (IH r0) eq_refl) as (F1 & F2 & F3 & F4). cbn [dec_rec_field]. rewrite K1, K2.
      destruct (dec_int _ v) as [x|] eqn:E; [|done]. intros [= <- <- <- <-]. apply dec_int_spec in E. eauto 10.
    + intros (F1 & (old & F2 & E) & F3 & F4). rewrite (proj2 (IH (mkJrec p old h c)) (conj F1 (conj F2 (conj F3 F4)))).
      cbn [dec_rec_field]. rewrite K1, K2. cbn [j_path j_size j_hash j_chunk]. apply dec_int_spec in E. rewrite E. done.
  - pose proof (key_is_other k _ "ChunkSize" K3 eq_refl).
    rewrite (field_else _ "FilePath"), (field_else _ "SizeInBytes"), (field_same _ "Sha1Hash"), (field_else _ "ChunkSize") by (in_names || done). split.
    + destruct (fold_opt _ _ ms) as [r0|]; [|done]. destruct (proj1 (IH r0) eq_refl) as (F1 & F2 & F3 & F4). cbn [dec_rec_field]. rewrite K1, K2, K3.
      destruct (dec_str _ v) as [x|] eqn:E; [|done]. intros [= <- <- <- <-]. apply dec_str_spec in E. eauto 10.
    + intros (F1 & F2 & (old & F3 & E) & F4). rewrite (proj2 (IH (mkJrec p s old c)) (conj F1 (conj F2 (conj F3 F4)))).
      cbn [dec_rec_field]. rewrite K1, K2, K3. cbn [j_path j_size j_hash j_chunk]. apply dec_str_spec in E. rewrite E. done.
  - rewrite (field_else _ "FilePath"), (field_else _ "SizeInBytes"), (field_else _ "Sha1Hash"), (field_same _ "ChunkSize") by (in_names || done). split.
    + destruct (fold_opt _ _ ms) as [r0|]; [|done]. destruct (proj1 (IH r0) eq_refl) as (F1 & F2 & F3 & F4). cbn [dec_rec_field]. rewrite K1, K2, K3, K4.
      destruct (dec_int _ v) as [x|] eqn:E; [|done]. intros [= <- <- <- <-]. apply dec_int_spec in E. eauto 10.
    + intros (F1 & F2 & F3 & (old & F4 & E)). rewrite (proj2 (IH (mkJrec p s h old)) (conj F1 (conj F2 (conj F3 F4)))).
      cbn [dec_rec_field]. rewrite K1, K2, K3, K4. cbn [j_path j_size j_hash j_chunk]. apply dec_int_spec in E. rewrite E. done.
  - rewrite (field_else _ "FilePath"), (field_else _ "SizeInBytes"), (field_else _ "Sha1Hash"), (field_else _ "ChunkSize") by (in_names || done).
    rewrite <- (IH (mkJrec p s h c)). destruct (fold_opt _ _ ms) as [r0|]; [|done]. cbn [dec_rec_field]. rewrite K1, K2, K3, K4. done.
Qed.
Lemma dec_rec_spec v r : dec_rec v = Some r <-> record_of v r.
Proof.
  unfold record_of. destruct v; cbn [dec_rec]; try (split; [done|intros [[E _]|(ms & E & _)]; done]).
  - split; [intros [= <-]; auto|intros [[_ ->]|(ms & E & _)]; done].
  - rewrite dec_rec_fields. split; [intros H; right; eauto|intros [[E _]|(ms' & [= <-] & H)]; done].
Qed.
Lemma dec_entries m es m' : fold_opt (fun m (kv : list byte * json) => match dec_rec kv.2 with Some r => Some (<[kv.1 := r]> m) | None => None end) m es = Some m' <-> adds m es m'.
Proof.
  revert m'. induction es as [|[k v] es IH] using rev_ind; intros m'.
  { cbn [fold_opt]. split; [intros [= <-]; constructor|]. intros H. inversion H as [|es k v r m0 H1 H2 E]; [done|destruct es; done]. }
  rewrite fold_opt_snoc. cbn [fst snd]. split.
  - destruct (fold_opt _ _ es) as [m0|]; [|done]. destruct (dec_rec v) as [r|] eqn:E; [|done]. intros [= <-].
    apply en_more; [apply IH; done|apply dec_rec_spec; done].
  - intros H. inversion H as [E|es' k' v' r m0 H1 H2 E]; [destruct es; done|]. apply app_inj_tail in E as [E1 E2]; injection E2 as E2 E3; subst.
    apply IH in H1. rewrite H1. apply dec_rec_spec in H2. rewrite H2. done.
Qed.
Lemma table_nil m : table [] m <-> m = ∅.
Proof. split; [|intros ->; constructor]. intros H. inversion H as [|ms k v m0 H1 H2 E|ms k m0 H1 H2 E|ms k es m0 m' H1 H2 H3 E]; [done|..]; destruct ms; done. Qed.
Lemma table_same ms k v m : key_is k "Index" = true -> table (ms ++ [(k, v)]) m <-> exists old, table ms old /\ dec_map old v = Some m.
Proof.
  intros Hk. apply key_is_spec in Hk; [|in_names]. split.
  - intros H. inversion H as [E|ms' k' v' m0 H1 H2 E|ms' k' m0 H1 H2 E|ms' k' es m0 m' H1 H2 H3 E]; [destruct ms; done|..]; apply app_inj_tail in E as [E1 E2]; injection E2 as E2 E3; subst.
    + done.
    + exists m0. done.
    + exists m0. split; [done|]. apply dec_entries. done.
  - intros (old & H & E). destruct v; try done.
    + injection E as <-. eapply ta_null; done.
    + eapply ta_more; [done|done|]. apply dec_entries. done.
Qed.
Lemma table_else ms k v m : key_is k "Index" = false -> table (ms ++ [(k, v)]) m <-> table ms m.
Proof.
  intros Hk. apply key_is_spec_false in Hk; [|in_names]. split; [|intros H; apply ta_other; done].
  intros H. inversion H as [E|ms' k' v' m0 H1 H2 E|ms' k' m0 H1 H2 E|ms' k' es m0 m' H1 H2 H3 E]; [destruct ms; done|..]; apply app_inj_tail in E as [E1 E2]; injection E2 as E2 E3; subst; done.
Qed.
Lemma dec_index_fields ms x : fold_opt dec_index_field jindex_zero ms = Some x <->
  field is_int "Pid" 0%Z ms (ji_pid x) /\ field is_int "LastTouched" 0%Z ms (ji_touched x) /\ table ms (ji_index x) /\ field is_text "DataDir" [] ms (ji_dir x).
Proof.
  revert x. induction ms as [|[k v] ms IH] using rev_ind; intros [p t i d]; cbn [ji_pid ji_touched ji_index ji_dir].
  { rewrite !field_nil, table_nil. cbn [fold_opt]. unfold jindex_zero. split; [intros [= <- <- <- <-]; done|intros (-> & -> & -> & ->); done]. }
  rewrite fold_opt_snoc.
  destruct (key_is k "Pid") eqn:K1; [|destruct (key_is k "LastTouched") eqn:K2; [|destruct (key_is k "Index") eqn:K3; [|destruct (key_is k "DataDir") eqn:K4]]].
  - pose proof (key_is_other k _ "LastTouched" K1 eq_refl). pose proof (key_is_other k _ "Index" K1 eq_refl). pose proof (key_is_other k _ "DataDir" K1 eq_refl).
    rewrite (field_same _ "Pid"), (field_else _ "LastTouched"), table_else, (field_else _ "DataDir") by (in_names || done). split.
    + destruct (fold_opt _ _ ms) as [r0|]; [|done]. destruct (proj1 (IH r0) eq_refl) as (F1 & F2 & F3 & F4). cbn [dec_index_field]. rewrite K1.
      destruct (dec_int _ v) as [x|] eqn:E; [|done]. intros [= <- <- <- <-]. apply dec_int_spec in E. eauto 10.
    + intros ((old & F1 & E) & F2 & F3 & F4). rewrite (proj2 (IH (mkJindex old t i d)) (conj F1 (conj F2 (conj F3 F4)))).
      cbn [dec_index_field]. rewrite K1. cbn [ji_pid ji_touched ji_index ji_dir]. apply dec_int_spec in E. rewrite E. done.
  - pose proof (key_is_other k _ "Index" K2 eq_refl). pose proof (key_is_other k _ "DataDir" K2 eq_refl).
    rewrite (field_else _ "Pid"), (field_same _ "LastTouched"), table_else, (field_else _ "DataDir") by (in_names || done). split.
    + destruct (fold_opt _ _ ms) as [r0|]; [|done]. destruct (proj1 (IH r0) eq_refl) as (F1 & F2 & F3 & F4). cbn [dec_index_field]. rewrite K1, K2.
      destruct (dec_int _ v) as [x|] eqn:E; [|done]. intros [= <- <- <- <-]. apply dec_int_spec in E. eauto 10.
    + intros (F1 & (old & F2 & E) & F3 & F4). rewrite (proj2 (IH (mkJindex p old i d)) (conj F1 (conj F2 (conj F3 F4)))).
      cbn [dec_index_field]. rewrite K1, K2. cbn [ji_pid ji_touched ji_index ji_dir]. apply dec_int_spec in E. rewrite E. done.
  - pose proof (key_is_other k _ "DataDir" K3 eq_refl).
    rewrite (field_else _ "Pid"), (field_else _ "LastTouched"), table_same, (field_else _ "DataDir") by (in_names || done). split.
    + destruct (fold_opt _ _ ms) as [r0|]; [|done]. destruct (proj1 (IH r0) eq_refl) as (F1 & F2 & F3 & F4). cbn [dec_index_field]. rewrite K1, K2, K3.
      destruct (dec_map _ v) as [x|] eqn:E; [|done]. intros [= <- <- <- <-]. eauto 10.
    + intros (F1 & F2 & (old & F3 & E) & F4). rewrite (proj2 (IH (mkJindex p t old d)) (conj F1 (conj F2 (conj F3 F4)))).
      cbn [dec_index_field]. rewrite K1, K2, K3. cbn [ji_pid ji_touched ji_index ji_dir]. rewrite E. done.
  - rewrite (field_else _ "Pid"), (field_else _ "LastTouched"), table_else, (field_same _ "DataDir") by (in_names || done). split.
    + destruct (fold_opt _ _ ms) as [r0|]; [|done]. destruct (proj1 (IH r0) eq_refl) as (F1 & F2 & F3 & F4). cbn [dec_index_field]. rewrite K1, K2, K3, K4.
      destruct (dec_str _ v) as [x|] eqn:E; [|done]. intros [= <- <- <- <-]. apply dec_str_spec in E. eauto 10.
    + intros (F1 & F2 & F3 & (old & F4 & E)). rewrite (proj2 (IH (mkJindex p t i old)) (conj F1 (conj F2 (conj F3 F4)))).
      cbn [dec_index_field]. rewrite K1, K2, K3, K4. cbn [ji_pid ji_touched ji_index ji_dir]. apply dec_str_spec in E. rewrite E. done.
  - rewrite (field_else _ "Pid"), (field_else _ "LastTouched"), table_else, (field_else _ "DataDir") by (in_names || done).
    rewrite <- (IH (mkJindex p t i d)). destruct (fold_opt _ _ ms) as [r0|]; [|done]. cbn [dec_index_field]. rewrite K1, K2, K3, K4. done.
Qed.
Lemma dec_index_spec v x : dec_index v = Some x <-> index_of v x.
Proof.
  unfold index_of. destruct v; cbn [dec_index]; try (split; [done|intros [[E _]|(ms & E & _)]; done]).
  - split; [intros [= <-]; auto|intros [[_ ->]|(ms & E & _)]; done].
  - rewrite dec_index_fields. split; [intros H; right; eauto|intros [[E _]|(ms' & [= <-] & H)]; done].
Qed.
Lemma json_unmarshal_spec data x : json_unmarshal data = Some x <-> index_text data x.
Proof.
  unfold json_unmarshal, index_text. split.
  - destruct (parse_doc data) as [v|] eqn:E; [|done]. intros H. exists v. split; [apply parse_doc_spec; done|apply dec_index_spec; done].
  - intros (v & H1 & H2). apply parse_doc_spec in H1. rewrite H1. apply dec_index_spec. done.
Qed.
