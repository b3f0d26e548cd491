(** Strings and numbers round-trip; parsing is stable under appending. *)
From Verif Require Export Json Utf8Proofs HashProofs.
From Coq Require Import ZifyBool ZifyNat ZifyN.
Ltac Zify.zify_post_hook ::= Z.div_mod_to_equations.

(** ** Tokens *)
Lemma tokens_n_wf n s : Forall tok_wf (tokens_n n s).
Proof.
  revert s; induction n as [|n IH]; intros s; [constructor|]. cbn [tokens_n].
  destruct s as [|b s']; [constructor|]. destruct (rune_len (b :: s')) as [|k] eqn:E.
  - constructor; [|apply IH]. exists b. split; [done|].
    destruct (decide (rune_len [b] = 0)) as [|Hn]; [done|].
    rewrite <- (rune_len_app [b] s') in Hn; [|done]. cbn [app] in Hn. congruence.
  - constructor; [|apply IH]. unfold tok_wf. cbn [fst snd]. split; [done|].
    rewrite <- E. rewrite rune_len_take by (rewrite E; done). rewrite take_length.
    pose proof (rune_len_le (b :: s')). lia.
Qed.

Lemma rune_len_1 b : rune_len [b] = 1 <-> (bN b < 128)%N.
Proof.
  unfold rune_len. destruct (in_range 0 127 b) eqn:E0.
  - apply in_range_spec in E0. split; [lia|done].
  - assert (~ (bN b < 128)%N) as Hn by (intros H; assert (in_range 0 127 b = true) by (apply in_range_spec; lia); congruence).
    destruct (in_range 194 223 b); [split; [done|lia]|].
    destruct (in_range 224 239 b); [split; [done|lia]|].
    destruct (in_range 240 244 b); split; (done || lia).
Qed.
(** the bytes of a multi-byte rune are all above 127 *)
Lemma rune_multi_high t : 2 <= length t -> rune_len t = length t -> Forall (fun b => (128 <= bN b)%N) t.
Proof.
  intros H2 H. destruct (rune_len_decode t) as (r & Hr & E); [lia|]. rewrite H, firstn_all in E. rewrite E in *.
  clear H E. unfold encode_rune, scalar in *.
  destruct (N.ltb_spec r 128); [cbn in H2; lia|].
  destruct (N.ltb_spec r 2048).
  { repeat constructor; rewrite bN_Nb_small; lia. }
  destruct (N.ltb_spec r 65536); repeat constructor; rewrite bN_Nb_small; lia.
Qed.

(** ** Lexing an escaped string *)
Definition lcons (raw : list byte) (r : option (list byte * list byte)) :=
  match r with Some (raw', rest) => Some (raw ++ raw', rest) | None => None end.
Lemma lcons_cons b raw r : raw_cons b (lcons raw r) = lcons (b :: raw) r.
Proof. destruct r as [[? ?]|]; done. Qed.
Lemma lcons_raw b r : raw_cons b r = lcons [b] r.
Proof. destruct r as [[? ?]|]; done. Qed.
Lemma lcons_nil r : lcons [] r = r.
Proof. destruct r as [[? ?]|]; done. Qed.
Lemma lcons_app a b r : lcons a (lcons b r) = lcons (a ++ b) r.
Proof. destruct r as [[? ?]|]; cbn; [rewrite app_assoc|]; done. Qed.

Lemma lex_high t s : Forall (fun b => (128 <= bN b)%N) t -> lex_string LNormal (t ++ s) = lcons t (lex_string LNormal s).
Proof.
  induction 1 as [|b t Hb _ IH]; [cbn; destruct (lex_string _ _) as [[? ?]|]; done|].
  cbn [app lex_string]. rewrite bool_decide_false by (intros ->; vm_compute in Hb; done).
  rewrite bool_decide_false by (intros ->; vm_compute in Hb; done).
  destruct (in_range 0 31 b) eqn:E; [apply in_range_spec in E; lia|].
  rewrite IH. apply lcons_cons.
Qed.
(** ASCII tokens: finitely many, so check each *)
Definition all_bytes : list byte := map Nb (map N.of_nat (seq 0 256)).
Lemma all_bytes_in b : b ∈ all_bytes.
Proof.
  unfold all_bytes. apply elem_of_list_fmap. exists (bN b). split; [rewrite Nb_bN; done|].
  apply elem_of_list_fmap. exists (N.to_nat (bN b)). split; [lia|]. apply elem_of_seq. pose proof (bN_lt b). lia.
Qed.
Lemma all_bytes_forall (P : byte -> bool) : forallb P all_bytes = true -> forall b, P b = true.
Proof. intros H b. rewrite forallb_forall in H. apply H. apply elem_of_list_In. apply all_bytes_in. Qed.

(** the state of the scanner after some raw text, or None *)
Fixpoint lex_run (st : lstate) (raw : list byte) : option lstate :=
  match raw with
  | [] => Some st
  | b :: r =>
      match st with
      | LNormal =>
          if bool_decide (b = quote_b) then None
          else if bool_decide (b = bslash) then lex_run LEsc r
          else if in_range 0 31 b then None
          else lex_run LNormal r
      | LEsc =>
          if bool_decide (b ∈ [x62; x66; x6e; x72; x74; bslash; x2f; quote_b]) then lex_run LNormal r
          else if bool_decide (b = x75) then lex_run (LHex 3) r
          else None
      | LHex k =>
          match from_hex_char b with
          | None => None
          | Some _ => lex_run (match k with O => LNormal | S k' => LHex k' end) r
          end
      end
  end.
Lemma lex_run_lex st raw st' s : lex_run st raw = Some st' ->
  lex_string st (raw ++ s) = lcons raw (lex_string st' s).
Proof.
  revert st; induction raw as [|b raw IH]; intros st; cbn [lex_run app].
  - intros [= ->]. rewrite lcons_nil. done.
  - cbn [lex_string]. destruct st as [| |k].
    + case_bool_decide; [done|]. case_bool_decide; [intros H'; rewrite (IH _ H'); apply lcons_cons|].
      destruct (in_range 0 31 b); [done|]. intros H'; rewrite (IH _ H'); apply lcons_cons.
    + case_bool_decide; [intros H'; rewrite (IH _ H'); apply lcons_cons|].
      case_bool_decide; [|done]. intros H'; rewrite (IH _ H'); apply lcons_cons.
    + destruct (from_hex_char b); [|done]. intros H'; rewrite (IH _ H'); apply lcons_cons.
Qed.
Definition is_normal (o : option lstate) : bool := match o with Some LNormal => true | _ => false end.
Lemma is_normal_spec o : is_normal o = true -> o = Some LNormal.
Proof. destruct o as [[]|]; done. Qed.
Lemma esc_ascii_lex b : (bN b < 128)%N -> lex_run LNormal (esc_token (true, [b])) = Some LNormal.
Proof.
  intros H. apply is_normal_spec.
  pose proof (all_bytes_forall (fun b => negb (bN b <? 128)%N || is_normal (lex_run LNormal (esc_token (true, [b]))))) as Hall.
  specialize (Hall ltac:(vm_compute; reflexivity) b). cbn beta in Hall.
  apply orb_true_iff in Hall as [Hf|Hf]; [|done].
  destruct (N.ltb_spec (bN b) 128); [done|lia].
Qed.
Lemma esc_token_multi t : 2 <= length t -> 
  esc_token (true, t) = if bool_decide (t = [xe2; x80; xa8]) then [bslash; x75; x32; x30; x32; x38]
      else if bool_decide (t = [xe2; x80; xa9]) then [bslash; x75; x32; x30; x32; x39]
      else t.
Proof. intros H. destruct t as [|a [|b t]]; cbn in H; [lia|lia|]. reflexivity. Qed.
Lemma lex_run_high t : Forall (fun b => (128 <= bN b)%N) t -> lex_run LNormal t = Some LNormal.
Proof.
  induction 1 as [|b t Hb _ IH]; [done|]. cbn [lex_run].
  rewrite bool_decide_false by (intros ->; vm_compute in Hb; done).
  rewrite bool_decide_false by (intros ->; vm_compute in Hb; done).
  destruct (in_range 0 31 b) eqn:E; [apply in_range_spec in E; lia|]. done.
Qed.
Lemma tok_wf_cases t : tok_wf t ->
  (exists b, t = (true, [b]) /\ (bN b < 128)%N) \/
  (exists bs, t = (true, bs) /\ 2 <= length bs /\ rune_len bs = length bs) \/
  (exists b, t = (false, [b]) /\ rune_len [b] = 0).
Proof.
  destruct t as [[] bs]; unfold tok_wf; cbn [fst snd].
  - intros [Hn Hl]. destruct bs as [|b [|b2 bs]]; [done| |].
    + left. exists b. split; [done|]. apply rune_len_1. done.
    + right; left. exists (b :: b2 :: bs). split; [done|]. split; [cbn; lia|done].
  - intros (b & -> & H). right; right. exists b. done.
Qed.
Lemma esc_token_lex t : tok_wf t -> lex_run LNormal (esc_token t) = Some LNormal.
Proof.
  intros H. destruct (tok_wf_cases t H) as [(b & -> & Hb)|[(bs & -> & H2 & Hl)|(b & -> & Hb)]].
  - apply esc_ascii_lex. done.
  - rewrite esc_token_multi by done. case_bool_decide; [reflexivity|]. case_bool_decide; [reflexivity|].
    apply lex_run_high, rune_multi_high; done.
  - reflexivity.
Qed.
Lemma lex_escape s r : lex_string LNormal (escape s ++ quote_b :: r) = Some (escape s, r).
Proof.
  unfold escape, tokens. pose proof (tokens_n_wf (length s) s) as H.
  induction H as [|t ts Ht _ IH].
  - reflexivity.
  - cbn [map concat]. rewrite <- app_assoc. rewrite (lex_run_lex _ _ _ _ (esc_token_lex _ Ht)).
    rewrite IH. done.
Qed.

(** ** Unquoting an escaped string *)
Lemma getu4_length s rr : getu4 s = Some rr -> 6 <= length s.
Proof. destruct s as [|? [|? [|? [|? [|? [|? s]]]]]]; cbn; (done || lia). Qed.
Lemma unquote_n_more n m s : length s <= n -> length s <= m -> unquote_n n s = unquote_n m s.
Proof.
  revert m s; induction n as [|n IH]; intros m s Hn Hm.
  - destruct s as [|b s]; [destruct m; done|cbn in Hn; lia].
  - destruct m as [|m]; [destruct s as [|b s]; [done|cbn in Hm; lia]|].
    cbn [unquote_n]. destruct s as [|b s1]; [done|]. cbn [length] in Hn, Hm.
    case_bool_decide.
    + destruct s1 as [|c s2]; [done|]. cbn [length] in *. case_bool_decide.
      * destruct (getu4 (b :: c :: s2)) as [rr|]; [|done].
        case_match.
        -- destruct (getu4 (drop 6 (b :: c :: s2))) as [r2|].
           ++ case_match; (f_equal; apply IH; rewrite drop_length; cbn [length]; lia).
           ++ f_equal; apply IH; rewrite drop_length; cbn [length]; lia.
        -- f_equal; apply IH; rewrite drop_length; cbn [length]; lia.
      * f_equal. apply IH; lia.
    + destruct (rune_len (b :: s1)) as [|k].
      * f_equal; apply IH; lia.
      * f_equal; apply IH; rewrite drop_length; cbn [length]; lia.
Qed.
Lemma unquote_unfold s : unquote s = unquote_n (S (length s)) s.
Proof. apply unquote_n_more; lia. Qed.
Lemma unquote_nil : unquote [] = [].
Proof. reflexivity. Qed.
Lemma unquote_rune t s : t <> [] -> rune_len t = length t -> hd x00 t <> bslash -> unquote (t ++ s) = t ++ unquote s.
Proof.
  intros Hn Hl Hb. rewrite unquote_unfold. destruct t as [|b t]; [done|]. cbn [hd] in Hb.
  cbn [app unquote_n]. rewrite bool_decide_false by done.
  change (b :: t ++ s) with ((b :: t) ++ s). rewrite rune_len_app by (rewrite Hl; done).
  rewrite Hl. cbn [length]. change (S (length t)) with (length (b :: t)).
  rewrite take_app, drop_app. apply (f_equal (app (b :: t))). apply unquote_n_more; rewrite ?app_length; cbn [length]; lia.
Qed.
Lemma unquote_short c s : c <> x75 ->
  unquote (bslash :: c :: s) = (if bool_decide (c = x62) then x08 else
                   if bool_decide (c = x66) then x0c else
                   if bool_decide (c = x6e) then x0a else
                   if bool_decide (c = x72) then x0d else
                   if bool_decide (c = x74) then x09 else c) :: unquote s.
Proof.
  intros H. rewrite unquote_unfold. cbn [unquote_n]. rewrite bool_decide_true by done.
  rewrite (bool_decide_false (c = x75)) by done. f_equal. apply unquote_n_more; cbn [length]; lia.
Qed.
Lemma unquote_n_u n t : unquote_n (S n) (bslash :: x75 :: t) =
  match getu4 (bslash :: x75 :: t) with
  | None => []
  | Some rr =>
      if ((55296 <=? rr) && (rr <? 57344))%N then
        match getu4 (drop 4 t) with
        | Some r2 =>
            if ((rr <? 56320) && (56320 <=? r2) && (r2 <? 57344))%N
            then encode_rune ((rr - 55296) * 1024 + (r2 - 56320) + 65536) ++ unquote_n n (drop 10 t)
            else fffd ++ unquote_n n (drop 4 t)
        | None => fffd ++ unquote_n n (drop 4 t)
        end
      else encode_rune rr ++ unquote_n n (drop 4 t)
  end.
Proof. reflexivity. Qed.
Lemma unquote_u a b c d rr s : hex4 a b c d = Some rr -> (rr < 55296 \/ 57344 <= rr)%N ->
  unquote (bslash :: x75 :: a :: b :: c :: d :: s) = encode_rune rr ++ unquote s.
Proof.
  intros H Hr. rewrite unquote_unfold, unquote_n_u.
  assert (getu4 (bslash :: x75 :: a :: b :: c :: d :: s) = Some rr) as -> by exact H.
  destruct ((55296 <=? rr) && (rr <? 57344))%N eqn:E; [lia|].
  change (drop 4 (a :: b :: c :: d :: s)) with (drop 0 s). rewrite drop_0.
  apply (f_equal (app (encode_rune rr))). apply unquote_n_more; cbn [length]; lia.
Qed.
Lemma unquote_u' a b c d rr out s : hex4 a b c d = Some rr -> (rr < 55296 \/ 57344 <= rr)%N -> encode_rune rr = out ->
  unquote (bslash :: x75 :: a :: b :: c :: d :: s) = out ++ unquote s.
Proof. intros H1 H2 <-. apply unquote_u; done. Qed.
Definition tok_out (t : bool * list byte) : list byte := if t.1 then t.2 else fffd.

Definition esc_shape (b : byte) : bool :=
  match esc_token (true, [b]) with
  | [c] => bool_decide (c = b) && negb (bool_decide (b = bslash))
  | [p; c] => bool_decide (p = bslash) && negb (bool_decide (c = x75)) &&
              bool_decide ((if bool_decide (c = x62) then x08 else
                   if bool_decide (c = x66) then x0c else
                   if bool_decide (c = x6e) then x0a else
                   if bool_decide (c = x72) then x0d else
                   if bool_decide (c = x74) then x09 else c) = b)
  | [p; u; a; b1; c; d] => bool_decide (p = bslash) && bool_decide (u = x75) &&
        match hex4 a b1 c d with Some rr => (rr <? 55296)%N && bool_decide (encode_rune rr = [b]) | None => false end
  | _ => false
  end.
Lemma esc_shape_ok b : (bN b < 128)%N -> esc_shape b = true.
Proof.
  intros H. pose proof (all_bytes_forall (fun b => negb (bN b <? 128)%N || esc_shape b)) as Hall.
  specialize (Hall ltac:(vm_compute; reflexivity) b). cbn beta in Hall.
  apply orb_true_iff in Hall as [Hf|Hf]; [|done]. destruct (N.ltb_spec (bN b) 128); [done|lia].
Qed.
Lemma unquote_esc t s : tok_wf t -> unquote (esc_token t ++ s) = tok_out t ++ unquote s.
Proof.
  intros H. destruct (tok_wf_cases t H) as [(b & -> & Hb)|[(bs & -> & H2 & Hl)|(b & -> & Hb)]]; unfold tok_out; cbn [fst snd].
  - pose proof (esc_shape_ok b Hb) as Hs. unfold esc_shape in Hs.
    destruct (esc_token (true, [b])) as [|x1 [|x2 [|x3 [|x4 [|x5 [|x6 [|x7 l]]]]]]]; try done.
    + apply andb_true_iff in Hs as [E1 E2]. apply bool_decide_eq_true in E1 as ->.
      apply negb_true_iff, bool_decide_eq_false in E2. apply unquote_rune; [done| |done].
      apply rune_len_1. done.
    + apply andb_true_iff in Hs as [Hs E3]. apply andb_true_iff in Hs as [E1 E2].
      apply bool_decide_eq_true in E1 as ->. apply negb_true_iff, bool_decide_eq_false in E2.
      apply bool_decide_eq_true in E3. cbn [app]. rewrite unquote_short by done. rewrite E3. done.
    + apply andb_true_iff in Hs as [Hs E3]. apply andb_true_iff in Hs as [E1 E2].
      apply bool_decide_eq_true in E1 as ->. apply bool_decide_eq_true in E2 as ->.
      destruct (hex4 x3 x4 x5 x6) as [rr|] eqn:E; [|done]. apply andb_true_iff in E3 as [E3 E4].
      apply bool_decide_eq_true in E4. cbn [app]. rewrite (unquote_u _ _ _ _ rr) by (done || lia). rewrite E4. done.
  - rewrite esc_token_multi by done. case_bool_decide as E1; [|case_bool_decide as E2].
    + rewrite E1. cbn [app]. apply (unquote_u' _ _ _ _ 8232 [xe2; x80; xa8]); [reflexivity|lia|reflexivity].
    + rewrite E2. cbn [app]. apply (unquote_u' _ _ _ _ 8233 [xe2; x80; xa9]); [reflexivity|lia|reflexivity].
    + pose proof (rune_multi_high bs H2 Hl) as Hh. apply unquote_rune; [intros ->; cbn in H2; lia|done|].
      inversion Hh as [|b0 bs' Hb0 Hrest]; subst; [cbn in H2; lia|]. cbn [hd]. intros ->. vm_compute in Hb0. done.
  - cbn [esc_token app]. apply (unquote_u' _ _ _ _ 65533 fffd); [reflexivity|lia|reflexivity].
Qed.
Lemma unquote_escape s : unquote (escape s) = sanitize s.
Proof.
  unfold escape, sanitize, tokens. pose proof (tokens_n_wf (length s) s) as H.
  induction H as [|t ts Ht _ IH]; [reflexivity|].
  cbn [map concat]. rewrite unquote_esc by done. rewrite IH. done.
Qed.

(** ** Numbers *)
Lemma bN_digit n : (n < 10)%N -> bN (digit n) = (48 + n)%N.
Proof. intros H. unfold digit. apply bN_Nb_small. lia. Qed.
Lemma is_digit_digit n : (n < 10)%N -> is_digit (digit n) = true.
Proof. intros H. unfold is_digit. apply in_range_spec. rewrite bN_digit by done. lia. Qed.
Lemma dec_n_value f n : (n < 10 ^ N.of_nat f)%N -> digits_value (dec_n f n) = n.
Proof.
  revert n; induction f as [|f IH]; intros n H.
  - cbn in H. assert (n = 0%N) as -> by lia. done.
  - cbn [dec_n]. destruct (N.ltb_spec n 10).
    + unfold digits_value. cbn [foldl]. rewrite bN_digit by done. lia.
    + unfold digits_value in *. rewrite foldl_app. cbn [foldl]. rewrite IH.
      * rewrite bN_digit by lia. lia.
      * rewrite Nat2N.inj_succ, N.pow_succ_r in H by lia. lia.
Qed.
Lemma dec_n_digits f n : Forall (fun b => is_digit b = true) (dec_n f n).
Proof.
  revert n; induction f as [|f IH]; intros n; [constructor|]. cbn [dec_n].
  destruct (N.ltb_spec n 10).
  - constructor; [apply is_digit_digit; done|constructor].
  - apply Forall_app. split; [apply IH|]. constructor; [apply is_digit_digit; lia|constructor].
Qed.
Lemma dec_n_head f n : (n < 10 ^ N.of_nat f)%N -> f <> 0 ->
  (n = 0%N /\ dec_n f n = [x30]) \/ (n <> 0%N /\ exists b l, dec_n f n = b :: l /\ is_digit b = true /\ b <> x30).
Proof.
  revert n; induction f as [|f IH]; intros n H Hf; [done|].
  cbn [dec_n]. destruct (N.ltb_spec n 10).
  - destruct (decide (n = 0%N)) as [->|Hn]; [left; done|]. right. split; [done|].
    exists (digit n), []. split; [done|]. split; [apply is_digit_digit; done|].
    intros E. apply (f_equal bN) in E. rewrite bN_digit in E by done. change (bN x30) with 48%N in E. lia.
  - right. split; [lia|]. rewrite Nat2N.inj_succ, N.pow_succ_r in H by lia.
    destruct (IH (n / 10)%N) as [[E _]|(_ & b & l & E & Hb & Hb')]; [lia| |lia|].
    { intros ->. change (10 ^ N.of_nat 0)%N with 1%N in H. lia. }
    exists b, (l ++ [digit (n mod 10)]). rewrite E. done.
Qed.
Lemma size_bound n : (n < 10 ^ N.of_nat (S (N.to_nat (N.size n))))%N.
Proof.
  rewrite Nat2N.inj_succ, N2Nat.id.
  pose proof (N.size_gt n) as H.
  apply N.lt_le_trans with (2 ^ N.size n)%N; [done|].
  apply N.le_trans with (10 ^ N.size n)%N; [apply N.pow_le_mono_l; lia|].
  apply N.pow_le_mono_r; lia.
Qed.
Lemma span_digits_app d s : Forall (fun b => is_digit b = true) d ->
  (match s with b :: _ => is_digit b = false | [] => True end) -> span_digits (d ++ s) = (d, s).
Proof.
  induction 1 as [|b d Hb _ IH]; intros Hs.
  - cbn [app]. destruct s as [|b s]; [done|]. cbn [span_digits]. rewrite Hs. done.
  - cbn [app span_digits]. rewrite Hb, IH by done. done.
Qed.
(** what may follow a number: nothing that would continue it *)
Definition num_end (s : list byte) : Prop :=
  match s with b :: _ => is_digit b = false /\ b <> x2e /\ b <> x65 /\ b <> x45 | [] => True end.
Lemma lex_frac_end s : num_end s -> lex_frac s = Some ([], s).
Proof. destruct s as [|b s]; [done|]. intros (_ & H1 & _). unfold lex_frac. destruct b; done. Qed.
Lemma lex_exp_end s : num_end s -> lex_exp s = Some ([], s).
Proof. destruct s as [|b s]; [done|]. intros (_ & _ & H1 & H2). unfold lex_exp. destruct b; done. Qed.
Lemma lex_number_nat n s : num_end s -> lex_number (print_nat n ++ s) = Some (print_nat n, s).
Proof.
  intros Hs. unfold print_nat. pose proof (size_bound n) as Hb. set (f := S (N.to_nat (N.size n))) in *.
  destruct (dec_n_head f n Hb) as [[_ E]|(_ & b & l & E & Hd & Hz)]; [unfold f; lia| |].
  - rewrite E. unfold lex_number. cbn [app]. rewrite bool_decide_true by done.
    rewrite lex_frac_end, lex_exp_end by done. done.
  - pose proof (dec_n_digits f n) as Hall. rewrite E in *.
    unfold lex_number. cbn [app]. 
    assert ((match b :: l ++ s with | x2d :: r => ([x2d], r) | _ => ([], b :: l ++ s) end) = ([], b :: l ++ s)) as ->.
    { destruct b; try done. }
    rewrite bool_decide_false by done. rewrite Hd.
    change (b :: l ++ s) with ((b :: l) ++ s). rewrite span_digits_app; [|done|destruct s as [|c s]; [done|apply Hs]].
    rewrite lex_frac_end, lex_exp_end by done. rewrite !app_nil_r. done.
Qed.
Lemma print_nat_ne n : print_nat n <> [].
Proof.
  unfold print_nat. pose proof (size_bound n) as Hb.
  destruct (dec_n_head _ n Hb) as [[_ E]|(_ & b & l & E & _)]; [lia|rewrite E; done|rewrite E; done].
Qed.
Lemma print_nat_head n : exists b l, print_nat n = b :: l /\ is_digit b = true.
Proof.
  unfold print_nat. pose proof (size_bound n) as Hb.
  destruct (dec_n_head _ n Hb) as [[_ E]|(_ & b & l & E & H & _)]; [lia|rewrite E; exists x30, []; done|].
  rewrite E. exists b, l. done.
Qed.
Lemma lex_number_int z s : num_end s -> lex_number (print_int z ++ s) = Some (print_int z, s).
Proof.
  intros Hs. unfold print_int. destruct (z <? 0)%Z; [|apply lex_number_nat; done].
  pose proof (lex_number_nat (Z.to_N (- z)) s Hs) as H.
  destruct (print_nat_head (Z.to_N (- z))) as (b & l & E & Hd). rewrite E in *. cbn [app] in *.
  unfold lex_number in *.
  assert ((match b :: l ++ s with | x2d :: r => ([x2d], r) | _ => ([], b :: l ++ s) end) = ([], b :: l ++ s)) as E2.
  { destruct b; try done. }
  rewrite E2 in H.
  destruct (if bool_decide (b = x30) then _ else _) as [[ip s2]|]; [|done].
  destruct (lex_frac s2) as [[fp s3]|]; [|done]. destruct (lex_exp s3) as [[ep s4]|]; [|done].
  cbn [app] in *. injection H as -> ->. done.
Qed.
Lemma print_nat_digits n : Forall (fun b => is_digit b = true) (print_nat n).
Proof. apply dec_n_digits. Qed.
Lemma print_nat_value n : digits_value (print_nat n) = n.
Proof. apply dec_n_value, size_bound. Qed.
Lemma forallb_Forall_digit d : Forall (fun b => is_digit b = true) d -> forallb is_digit d = true.
Proof. induction 1 as [|b d H _ IH]; [done|]. cbn [forallb]. rewrite H, IH. done. Qed.
Lemma parse_print_int z : (-9223372036854775808 <= z < 9223372036854775808)%Z -> parse_int (print_int z) = Some z.
Proof.
  intros Hz. unfold print_int. destruct (Z.ltb_spec z 0).
  - unfold parse_int. rewrite forallb_Forall_digit by apply print_nat_digits.
    rewrite bool_decide_false by apply print_nat_ne. cbn [andb negb]. rewrite print_nat_value.
    destruct ((-9223372036854775808 <=? - Z.of_N (Z.to_N (- z))) && (- Z.of_N (Z.to_N (- z)) <? 9223372036854775808))%Z eqn:E; [f_equal; lia|lia].
  - unfold parse_int. destruct (print_nat_head (Z.to_N z)) as (b & l & E & Hd).
    assert ((match print_nat (Z.to_N z) with | x2d :: r => (true, r) | _ => (false, print_nat (Z.to_N z)) end) = (false, print_nat (Z.to_N z))) as ->.
    { rewrite E. destruct b; try done. }
    rewrite forallb_Forall_digit by apply print_nat_digits.
    rewrite bool_decide_false by apply print_nat_ne. cbn [andb negb]. rewrite print_nat_value.
    destruct ((-9223372036854775808 <=? Z.of_N (Z.to_N z)) && (Z.of_N (Z.to_N z) <? 9223372036854775808))%Z eqn:E2; [f_equal; lia|lia].
Qed.
