(** More proofs about the bitset model: Count, set operations, ranges,
    serialization. *)
From Verif Require Export BitsetProofs BitsetSpec.
From Coq Require Import ZifyBool ZifyNat ZifyN.
Ltac Zify.zify_post_hook ::= Z.div_mod_to_equations.

Lemma list_filter_fmap {A B} (f : A -> B) (P : B -> Prop) `{!forall x, Decision (P x)} (l : list A) :
  filter P (f <$> l) = f <$> filter (fun x => P (f x)) l.
Proof.
  induction l as [|a l IH]; [done|]. rewrite fmap_cons, !filter_cons, IH.
  destruct (decide (P (f a))); done.
Qed.

(** ** Count *)
Lemma popcount_loop_spec f : forall w r, (w < 2 ^ N.of_nat f)%N ->
  popcount_loop f w r = (r + N.of_nat (length (filter (fun k => N.testbit w (N.of_nat k) = true) (seq 0 f))))%N.
Proof.
  induction f as [|f IH]; intros w r Hw.
  - cbn. lia.
  - cbn [popcount_loop]. destruct (N.ltb_spec 0 w) as [Hpos|Hz].
    + rewrite IH.
      2:{ rewrite N.shiftr_div_pow2. change (2^1)%N with 2%N.
          rewrite Nat2N.inj_succ, N.pow_succ_r in Hw by lia. lia. }
      cbn [seq]. rewrite filter_cons.
      assert (N.land w 1 = if N.testbit w 0 then 1%N else 0%N) as Hl.
      { change 1%N with (N.ones 1) at 1. rewrite N.land_ones. change (2^1)%N with 2%N.
        rewrite <- N.bit0_mod. destruct (N.testbit w 0); done. }
      rewrite Hl.
      assert (length (filter (fun k => N.testbit (N.shiftr w 1) (N.of_nat k) = true) (seq 0 f))
        = length (filter (fun k => N.testbit w (N.of_nat k) = true) (seq 1 f))) as ->.
      { rewrite <- fmap_S_seq. rewrite list_filter_fmap. rewrite fmap_length.
        f_equal. apply list_filter_iff. intros k.
        rewrite N.shiftr_spec' . rewrite Nat2N.inj_succ, N.add_1_r. done. }
      change (N.of_nat 0) with 0%N.
      destruct (N.testbit w 0) eqn:E; destruct (decide _); try done; cbn [length]; lia.
    + assert (w = 0)%N as -> by lia.
      assert (filter (fun k => N.testbit 0 (N.of_nat k) = true) (seq 0 (S f)) = []) as ->.
      { clear. induction (seq 0 (S f)) as [|a l IH]; [done|]. rewrite filter_cons, IH.
        rewrite N.bits_0. destruct (decide _); done. }
      cbn. lia.
Qed.

Definition word_positions (off : nat) (w : N) : list N :=
  (fun k => (N.of_nat off * 64 + N.of_nat k)%N) <$> filter (fun k => N.testbit w (N.of_nat k) = true) (seq 0 64).
Fixpoint positions (off : nat) (d : list N) : list N :=
  match d with [] => [] | w :: d' => word_positions off w ++ positions (S off) d' end.

Lemma elem_of_word_positions off w x : (w < p64)%N ->
  x ∈ word_positions off w <-> (x / 64 = N.of_nat off)%N /\ N.testbit w (x mod 64) = true.
Proof.
  intros Hw. unfold word_positions. rewrite elem_of_list_fmap. split.
  - intros (k & -> & Hk). apply elem_of_list_filter in Hk as [Hk Hin]. apply elem_of_seq in Hin.
    split; [lia|]. replace ((N.of_nat off * 64 + N.of_nat k) mod 64)%N with (N.of_nat k) by lia. done.
  - intros [Hq Hb]. exists (N.to_nat (x mod 64)). split; [lia|].
    apply elem_of_list_filter. rewrite N2Nat.id. split; [done|]. apply elem_of_seq. lia.
Qed.
Lemma elem_of_positions d : forall off x, Forall (fun w => w < p64)%N d ->
  x ∈ positions off d <-> (N.of_nat off <= x / 64)%N /\
    match d !! (N.to_nat (x / 64) - off) with Some w => N.testbit w (x mod 64) = true | None => False end.
Proof.
  induction d as [|w d IH]; intros off x HF.
  - cbn. rewrite elem_of_nil. rewrite ?lookup_nil. naive_solver.
  - inversion HF; subst. cbn [positions]. rewrite elem_of_app, elem_of_word_positions, IH by done.
    split.
    + intros [[Hq Hb]|[Hq Hb]].
      * split; [lia|]. replace (N.to_nat (x/64) - off) with 0 by lia. done.
      * split; [lia|]. replace (N.to_nat (x/64) - off) with (S (N.to_nat (x/64) - S off)) by lia. done.
    + intros [Hq Hb]. destruct (decide (x/64 = N.of_nat off)%N) as [He|He].
      * left. split; [done|]. replace (N.to_nat (x/64) - off) with 0 in Hb by lia. done.
      * right. split; [lia|]. replace (N.to_nat (x/64) - off) with (S (N.to_nat (x/64) - S off)) in Hb by lia. done.
Qed.
Lemma NoDup_positions d : forall off, Forall (fun w => w < p64)%N d -> NoDup (positions off d).
Proof.
  induction d as [|w d IH]; intros off HF; [constructor|].
  inversion HF; subst. cbn [positions]. apply NoDup_app. split_and!.
  - unfold word_positions. apply NoDup_fmap_2.
    + intros a c Hac. lia.
    + apply NoDup_filter, NoDup_seq.
  - intros x Hx Hx'. apply elem_of_word_positions in Hx as [Hq _]; [|done].
    apply elem_of_positions in Hx' as [Hq' _]; [|done]. lia.
  - auto.
Qed.
Lemma bcount_positions b : Forall (fun w => w < p64)%N (bdata b) ->
  bcount b = Z.of_nat (length (positions 0 (bdata b))).
Proof.
  intros HF. unfold bcount.
  assert (forall d off r, Forall (fun w => w < p64)%N d ->
    foldl (fun result unit => popcount_loop 64 unit result) r d = (r + N.of_nat (length (positions off d)))%N) as H.
  { induction d as [|w d IH]; intros off r HF'; [cbn; lia|].
    inversion HF'; subst. cbn [foldl positions].
    rewrite (IH (S off)) by done. rewrite popcount_loop_spec.
    2:{ change (2 ^ N.of_nat 64)%N with p64. done. }
    rewrite app_length. unfold word_positions. rewrite fmap_length. lia. }
  rewrite (H _ 0) by done. lia.
Qed.
Lemma elem_of_positions_bits b x : Forall (fun w => w < p64)%N (bdata b) ->
  x ∈ positions 0 (bdata b) <-> bits b x = true.
Proof.
  intros HF. rewrite elem_of_positions by done. unfold bits. rewrite Nat.sub_0_r.
  destruct (bdata b !! N.to_nat (x / 64)); split; intros H; try (by destruct H); (split; [lia|done]).
Qed.
Lemma bcount_set b (X : gset N) : binv b -> (forall x, x ∈ X <-> bits b x = true) ->
  bcount b = Z.of_nat (size X).
Proof.
  intros Hi HX. rewrite bcount_positions by apply Hi. f_equal.
  assert (X = list_to_set (positions 0 (bdata b))) as ->.
  { apply set_eq. intros x. rewrite HX, elem_of_list_to_set, elem_of_positions_bits; [done|apply Hi]. }
  rewrite size_list_to_set; [done|]. apply NoDup_positions, Hi.
Qed.

(** ** Union / Intersect *)
Lemma bunion_bits b a x : bits (bunion b a) x = bits b x || bits a x.
Proof.
  unfold bunion, shorter_first.
  assert (forall s l : bitset, length (bdata s) <= length (bdata l) ->
    bits (mkBitset (zip_with N.lor (bdata s) (bdata l) ++ drop (length (bdata s)) (bdata l)) 0) x = bits s x || bits l x) as H.
  { intros s l Hl. unfold bits. cbn [bdata].
    assert (length (zip_with N.lor (bdata s) (bdata l)) = length (bdata s)) as Hz by (rewrite zip_with_length; lia).
    destruct (decide (N.to_nat (x/64) < length (bdata s))).
    - rewrite lookup_app_l by lia. rewrite lookup_zip_with.
      destruct (bdata s !! N.to_nat (x/64)) as [w|] eqn:E1; [|apply lookup_ge_None in E1; lia].
      destruct (bdata l !! N.to_nat (x/64)) as [w'|] eqn:E2; [|apply lookup_ge_None in E2; lia].
      cbn. apply N.lor_spec.
    - rewrite (lookup_ge_None_2 (bdata s)) by lia.
      rewrite lookup_app_r by lia. rewrite Hz, lookup_drop.
      replace (length (bdata s) + (N.to_nat (x / 64) - length (bdata s))) with (N.to_nat (x/64)) by lia. done. }
  destruct (Nat.ltb_spec (length (bdata a)) (length (bdata b))); cbn.
  - rewrite H by lia. apply orb_comm.
  - rewrite H by lia. done.
Qed.
Lemma bintersect_bits b a x : bits (bintersect b a) x = bits b x && bits a x.
Proof.
  unfold bintersect, shorter_first.
  assert (forall s l : bitset, length (bdata s) <= length (bdata l) ->
    bits (mkBitset (zip_with N.land (bdata s) (bdata l)) 0) x = bits s x && bits l x) as H.
  { intros s l Hl. unfold bits. cbn [bdata]. rewrite lookup_zip_with.
    destruct (bdata s !! N.to_nat (x/64)) as [w|] eqn:E1; [|done].
    destruct (bdata l !! N.to_nat (x/64)) as [w'|] eqn:E2;
      [|apply lookup_ge_None in E2; apply lookup_lt_Some in E1; lia].
    cbn. apply N.land_spec. }
  destruct (Nat.ltb_spec (length (bdata a)) (length (bdata b))); cbn.
  - rewrite H by lia. apply andb_comm.
  - rewrite H by lia. done.
Qed.

(** ** Runs of consecutive indices *)
Fixpoint sepZ (lo : Z) (ps : list (Z * Z)) : Prop :=
  match ps with
  | [] => True
  | (s, e) :: ps' => (lo <= s)%Z /\ (s <= e)%Z /\ sepZ (e + 2) ps'
  end.
Definition covZ (ps : list (Z * Z)) (x : Z) : Prop := exists s e, (s, e) ∈ ps /\ (s <= x <= e)%Z.
Definition afterZ (lo : Z) (ps : list (Z * Z)) : Z :=
  match last ps with Some p => (p.2 + 2)%Z | None => lo end.

Lemma sepZ_snoc ps : forall lo s e, sepZ lo (ps ++ [(s, e)]) <-> sepZ lo ps /\ (afterZ lo ps <= s)%Z /\ (s <= e)%Z.
Proof.
  induction ps as [|[s' e'] ps IH]; intros lo s e.
  - cbn. unfold afterZ. cbn. naive_solver.
  - cbn [app sepZ]. rewrite IH.
    assert (afterZ lo ((s', e') :: ps) = afterZ (e' + 2) ps) as ->.
    { unfold afterZ. destruct ps as [|q ps]; [done|]. cbn [last]. destruct (last (q :: ps)) eqn:E; [done|].
      apply last_None in E. done. }
    naive_solver.
Qed.
Lemma covZ_snoc ps s e x : covZ (ps ++ [(s, e)]) x <-> covZ ps x \/ (s <= x <= e)%Z.
Proof.
  unfold covZ. setoid_rewrite elem_of_app. setoid_rewrite elem_of_list_singleton. naive_solver.
Qed.
Lemma covZ_nil x : ~ covZ [] x.
Proof. intros (s & e & Hin & _). by apply elem_of_nil in Hin. Qed.

Definition run_step (g : Z -> bool) (st : list (Z * Z) * Z * Z) (i : Z) : list (Z * Z) * Z * Z :=
  let '(ps, rs, re) := st in
  if g i then (ps, rs, i) else ((if (rs <=? re)%Z then ps ++ [(rs, re)] else ps), (i + 1)%Z, re).
Definition run_finish (st : list (Z * Z) * Z * Z) : list (Z * Z) :=
  let '(ps, rs, re) := st in if (rs <=? re)%Z then ps ++ [(rs, re)] else ps.

Record runinv (g : Z -> bool) (start i : Z) (st : list (Z * Z) * Z * Z) : Prop := {
  ri_bnd : (start <= st.1.2 <= i)%Z;
  ri_all : forall x, (st.1.2 <= x < i)%Z -> g x = true;
  ri_end : (st.1.2 < i /\ st.2 = i - 1 \/ st.1.2 = i /\ st.2 < i)%Z;
  ri_sep : sepZ start st.1.1;
  ri_aft : st.1.1 <> [] -> (afterZ start st.1.1 <= st.1.2)%Z;
  ri_cov : forall x, covZ st.1.1 x <-> (start <= x < st.1.2)%Z /\ g x = true
}.
Lemma run_step_inv g start i st : runinv g start i st -> runinv g start (i + 1) (run_step g st i).
Proof.
  destruct st as [[ps rs] re]. intros [Hb Ha He Hs Haf Hc]. cbn [fst snd] in *.
  unfold run_step. destruct (g i) eqn:Eg.
  - split; cbn [fst snd].
    + lia.
    + intros x Hx. destruct (decide (x = i)) as [->|]; [done|]. apply Ha. lia.
    + left. lia.
    + done.
    + done.
    + done.
  - destruct (Z.leb_spec rs re) as [Hle|Hgt].
    + assert (re = i - 1)%Z as -> by lia.
      split; cbn [fst snd].
      * lia.
      * intros x Hx. lia.
      * right. lia.
      * apply sepZ_snoc. split_and!; [done| |lia].
        destruct ps as [|p ps]; [cbn; lia|]. apply Haf. done.
      * intros _. unfold afterZ. rewrite last_snoc. cbn. lia.
      * intros x. rewrite covZ_snoc, Hc. split.
        -- intros [[H1 H2]|H1]; (split; [lia|]); [done|]. apply Ha. lia.
        -- intros [H1 H2]. destruct (decide (x < rs)%Z); [left; split; [lia|done]|].
           right. destruct (decide (x = i)) as [->|]; [congruence|]. lia.
    + assert (rs = i) as -> by lia.
      split; cbn [fst snd].
      * lia.
      * intros x Hx. lia.
      * right. lia.
      * done.
      * intros H. specialize (Haf H). lia.
      * intros x. rewrite Hc. split; (intros [H1 H2]; split; [|done]); [lia|].
        destruct (decide (x = i)) as [->|]; [congruence|]. lia.
Qed.
Lemma runs_inv g start n : forall i st, (0 <= n)%Z -> runinv g start i st ->
  runinv g start (i + n) (foldl (run_step g) st (seqZ i n)).
Proof.
  intros i st Hn. remember (Z.to_nat n) as k eqn:Hk. revert n i st Hn Hk.
  induction k as [|k IH]; intros n i st Hn Hk Hi.
  - assert (n = 0)%Z as -> by lia. rewrite seqZ_nil by lia. cbn. rewrite Z.add_0_r. done.
  - rewrite seqZ_cons by lia. cbn [foldl].
    replace (i + n)%Z with (Z.succ i + Z.pred n)%Z by lia. apply IH; [lia|lia|].
    replace (Z.succ i) with (i + 1)%Z by lia. apply run_step_inv. done.
Qed.
Lemma runs_finish g start i st : runinv g start i st ->
  sepZ start (run_finish st) /\ (forall x, covZ (run_finish st) x <-> (start <= x < i)%Z /\ g x = true).
Proof.
  destruct st as [[ps rs] re]. intros [Hb Ha He Hs Haf Hc]. cbn [fst snd] in *. unfold run_finish.
  destruct (Z.leb_spec rs re).
  - assert (re = i - 1)%Z as -> by lia. split.
    + apply sepZ_snoc. split_and!; [done| |lia].
      destruct ps as [|p ps]; [cbn; lia|]. apply Haf. done.
    + intros x. rewrite covZ_snoc, Hc. split.
      * intros [[H1 H2]|H1]; (split; [lia|]); [done|]. apply Ha. lia.
      * intros [H1 H2]. destruct (decide (x < rs)%Z); [left; split; [lia|done]|right; lia].
  - assert (rs = i) as -> by lia. split; [done|]. done.
Qed.
Lemma runs_init g start : runinv g start start ([], start, (start - 1)%Z).
Proof.
  split; cbn.
  - lia.
  - intros; lia.
  - right; lia.
  - done.
  - done.
  - intros x. split; [intros H; by apply covZ_nil in H|]. lia.
Qed.

Definition runs (g : Z -> bool) (start n : Z) : list (Z * Z) :=
  run_finish (foldl (run_step g) ([], start, (start - 1)%Z) (seqZ start n)).
Lemma runs_spec g start n : (0 <= n)%Z ->
  sepZ start (runs g start n) /\ (forall x, covZ (runs g start n) x <-> (start <= x < start + n)%Z /\ g x = true).
Proof. intros Hn. apply runs_finish. apply runs_inv; [done|]. apply runs_init. Qed.

(** Connecting the Go loops to [runs]. *)
Definition zbits (b : bitset) (i : Z) : bool := bits b (Z.to_N i).
Definition flat16 (ps : list (Z * Z)) : list N := flat_map (fun p => [u16_of_int p.1; u16_of_int p.2]) ps.
Lemma flat16_app a c : flat16 (a ++ c) = flat16 a ++ flat16 c.
Proof. unfold flat16. apply flat_map_app. Qed.

Lemma filled_loop b n : forall start ps rs re, (0 <= start)%Z -> (start + n <= 9223372036854775808)%Z ->
  for_list (seqZ start n) (filled_body b) (flat16 ps, rs, re) =
  Ok (let '(ps', rs', re') := foldl (run_step (zbits b)) (ps, rs, re) (seqZ start n) in (flat16 ps', rs', re')).
Proof.
  intros start. remember (Z.to_nat n) as k eqn:Hk. revert n start Hk.
  induction k as [|k IH]; intros n start Hk ps rs re H0 Hlt.
  - rewrite seqZ_nil by lia. done.
  - rewrite seqZ_cons by lia. cbn [for_list foldl].
    unfold filled_body at 1. rewrite u64_of_int_nonneg by lia.
    rewrite bget_bits by (unfold p63; lia). cbn [rbind].
    change (bits b (Z.to_N start)) with (zbits b start).
    unfold run_step at 2. destruct (zbits b start).
    + cbn [rbind]. rewrite IH by lia. done.
    + cbn [rbind]. rewrite <- (IH (Z.pred n) (Z.succ start) ltac:(lia)) by lia.
      replace (start + 1)%Z with (Z.succ start) by lia.
      destruct (Z.leb_spec rs re); [|done]. rewrite flat16_app. done.
Qed.
Lemma filled_ranges_runs b start end_ : (0 <= start)%Z -> (end_ < 9223372036854775808)%Z ->
  filled_ranges b start end_ = Ok (flat16 (runs (zbits b) start (end_ - start + 1))).
Proof.
  intros H0 H1. unfold filled_ranges. change (@nil N) with (flat16 []).
  rewrite filled_loop by lia. cbn [rbind]. unfold runs.
  destruct (foldl _ _ _) as [[ps rs] re]. unfold run_finish.
  destruct (Z.leb_spec rs re); [|done]. rewrite flat16_app. done.
Qed.

Lemma unfilled_loop b n : forall start ps rs re, (0 <= start)%Z -> (start + n <= 9223372036854775808)%Z ->
  for_list (seqZ start n) (unfilled_body b) (map (fun p => mkRange (u16_of_int p.1) (u16_of_int p.2)) ps, rs, re) =
  Ok (let '(ps', rs', re') := foldl (run_step (fun i => negb (zbits b i))) (ps, rs, re) (seqZ start n) in
      (map (fun p => mkRange (u16_of_int p.1) (u16_of_int p.2)) ps', rs', re')).
Proof.
  intros start. remember (Z.to_nat n) as k eqn:Hk. revert n start Hk.
  induction k as [|k IH]; intros n start Hk ps rs re H0 Hlt.
  - rewrite seqZ_nil by lia. done.
  - rewrite seqZ_cons by lia. cbn [for_list foldl].
    unfold unfilled_body at 1. rewrite u64_of_int_nonneg by lia.
    rewrite bget_bits by (unfold p63; lia). cbn [rbind].
    change (bits b (Z.to_N start)) with (zbits b start).
    unfold run_step at 2. destruct (negb (zbits b start)).
    + cbn [rbind]. rewrite IH by lia. done.
    + cbn [rbind]. rewrite <- (IH (Z.pred n) (Z.succ start) ltac:(lia)) by lia.
      replace (start + 1)%Z with (Z.succ start) by lia.
      destruct (Z.leb_spec rs re); [|done]. rewrite map_app. done.
Qed.
Lemma unfilled_ranges_runs b : (bsize b <= 9223372036854775808)%Z ->
  bunfilled_ranges b = Ok (map (fun p => mkRange (u16_of_int p.1) (u16_of_int p.2))
     (runs (fun i => negb (zbits b i)) 0 (bsize b))).
Proof.
  intros H1. unfold bunfilled_ranges.
  change (@nil range) with (map (fun p : Z * Z => mkRange (u16_of_int p.1) (u16_of_int p.2)) []).
  rewrite unfilled_loop by lia. cbn [rbind]. unfold runs. cbn [Z.sub Z.add Z.opp Z.pos_sub].
  change (0 - 1)%Z with (-1)%Z.
  destruct (foldl _ _ _) as [[ps rs] re]. unfold run_finish.
  destruct (Z.leb_spec rs re); [|done]. rewrite map_app. done.
Qed.

(** From Z pairs to N pairs *)
Definition toN2 (p : Z * Z) : N * N := (Z.to_N p.1, Z.to_N p.2).
Lemma sepZ_bounds ps : forall lo, sepZ lo ps -> forall s e, (s, e) ∈ ps -> (lo <= s)%Z /\ (s <= e)%Z.
Proof.
  induction ps as [|[s' e'] ps IH]; intros lo Hs s e Hin; [by apply elem_of_nil in Hin|].
  destruct Hs as (H1 & H2 & H3). apply elem_of_cons in Hin as [[= -> ->]|Hin]; [lia|].
  specialize (IH _ H3 _ _ Hin). lia.
Qed.
Lemma sepZ_separated ps : forall lo, (0 <= lo)%Z -> sepZ lo ps -> separated (Z.to_N lo) (map toN2 ps).
Proof.
  induction ps as [|[s e] ps IH]; intros lo Hlo Hs; [done|].
  destruct Hs as (H1 & H2 & H3). cbn [map separated toN2 fst snd]. split_and!; [lia|lia|].
  apply IH in H3; [|lia]. replace (Z.to_N e + 2)%N with (Z.to_N (e + 2)) by lia. done.
Qed.
Lemma covZ_covered ps lo x : (0 <= lo)%Z -> sepZ lo ps -> covered (map toN2 ps) x <-> covZ ps (Z.of_N x).
Proof.
  intros Hlo Hs. unfold covered, covZ. split.
  - intros (s & e & Hin & Hx). apply elem_of_list_fmap in Hin as ([s' e'] & [= -> ->] & Hin).
    pose proof (sepZ_bounds _ _ Hs _ _ Hin). cbn in *. exists s', e'. split; [done|]. lia.
  - intros (s & e & Hin & Hx). pose proof (sepZ_bounds _ _ Hs _ _ Hin).
    exists (Z.to_N s), (Z.to_N e). split; [|lia].
    apply elem_of_list_fmap. exists (s, e). done.
Qed.

Lemma sepZ_cov_ends ps lo : sepZ lo ps -> forall s e, (s, e) ∈ ps -> covZ ps s /\ covZ ps e.
Proof.
  intros Hs s e Hin. pose proof (sepZ_bounds _ _ Hs _ _ Hin). split; exists s, e; (split; [done|lia]).
Qed.

(** If every covered index is below 65536 the uint16 conversion is lossless. *)
Lemma flat16_flatten ps lo : (0 <= lo)%Z -> sepZ lo ps -> (forall x, covZ ps x -> (x < 65536)%Z) ->
  flat16 ps = flatten (map toN2 ps).
Proof.
  intros Hlo Hs Hc. unfold flat16, flatten.
  assert (forall s e, (s, e) ∈ ps -> (0 <= s < 65536)%Z /\ (0 <= e < 65536)%Z) as Hin.
  { intros s e Hin. pose proof (sepZ_bounds _ _ Hs _ _ Hin).
    destruct (sepZ_cov_ends _ _ Hs _ _ Hin) as [H1 H2]. apply Hc in H1, H2. lia. }
  clear Hs Hc Hlo lo. induction ps as [|[s e] ps IH]; [done|].
  cbn [flat_map map]. rewrite IH.
  2:{ intros; apply Hin. apply elem_of_list_further. done. }
  destruct (Hin s e) as [H1 H2]; [apply elem_of_list_here|]. cbn [toN2 fst snd].
  rewrite !u16_of_int_small by done. done.
Qed.
Lemma rng16 ps lo : (0 <= lo)%Z -> sepZ lo ps -> (forall x, covZ ps x -> (x < 65536)%Z) ->
  map (fun p => mkRange (u16_of_int p.1) (u16_of_int p.2)) ps = map (fun p => mkRange p.1 p.2) (map toN2 ps).
Proof.
  intros Hlo Hs Hc.
  assert (forall s e, (s, e) ∈ ps -> (0 <= s < 65536)%Z /\ (0 <= e < 65536)%Z) as Hin.
  { intros s e Hin. pose proof (sepZ_bounds _ _ Hs _ _ Hin).
    destruct (sepZ_cov_ends _ _ Hs _ _ Hin) as [H1 H2]. apply Hc in H1, H2. lia. }
  clear Hs Hc Hlo lo. induction ps as [|[s e] ps IH]; [done|].
  cbn [map]. rewrite IH.
  2:{ intros; apply Hin. apply elem_of_list_further. done. }
  destruct (Hin s e) as [H1 H2]; [apply elem_of_list_here|]. cbn [toN2 fst snd].
  rewrite !u16_of_int_small by done. done.
Qed.

Lemma filled_ranges_spec b start end_ : (0 <= start)%Z -> (end_ < 9223372036854775808)%Z ->
  (forall x, bits b x = true -> (Z.of_N x <= end_)%Z -> (x < 65536)%N) ->
  exists ps, filled_ranges b start end_ = Ok (flatten ps) /\ separated (Z.to_N start) ps /\
    (forall x, covered ps x <-> (start <= Z.of_N x <= end_)%Z /\ bits b x = true).
Proof.
  intros H0 H1 H16. rewrite filled_ranges_runs by done.
  destruct (decide (0 <= end_ - start + 1)%Z) as [Hn|Hn].
  - destruct (runs_spec (zbits b) start (end_ - start + 1) Hn) as [Hs Hc].
    exists (map toN2 (runs (zbits b) start (end_ - start + 1))). split_and!.
    + f_equal. apply (flat16_flatten _ start H0 Hs). intros x Hx. pose proof Hx as Hx'. apply Hc in Hx as [Hx Hg].
      unfold zbits in Hg. apply H16 in Hg; lia.
    + apply sepZ_separated; done.
    + intros x. rewrite (covZ_covered _ start) by done. rewrite Hc. unfold zbits. rewrite N2Z.id.
      split; intros [? ?]; (split; [lia|done]).
  - exists []. split_and!.
    + unfold runs. rewrite seqZ_nil by lia. cbn. destruct (Z.leb_spec start (start - 1)); [lia|done].
    + done.
    + intros x. split; [intros (s & e & Hin & _); by apply elem_of_nil in Hin|]. lia.
Qed.

Lemma branges_spec b : binv b -> (bsize b <= 65536)%Z ->
  exists ps, branges b = Ok (flatten ps) /\ separated 0 ps /\ (forall x, covered ps x <-> bits b x = true).
Proof.
  intros [Hw Hs Hl Hb] H16. unfold branges.
  destruct (filled_ranges_spec b 0 (bsize b)) as (ps & E & Hsep & Hc); [lia|lia| |].
  { intros x Hx _. apply Hb in Hx. lia. }
  exists ps. split_and!; [done|done|]. intros x. rewrite Hc. split; [naive_solver|].
  intros Hx. split; [|done]. apply Hb in Hx. lia.
Qed.

Lemma bunfilled_ranges_spec b : binv b -> (bsize b <= 65536)%Z ->
  exists ps, bunfilled_ranges b = Ok (map (fun p => mkRange p.1 p.2) ps) /\ separated 0 ps /\
    (forall x, covered ps x <-> (Z.of_N x < bsize b)%Z /\ bits b x = false).
Proof.
  intros [Hw Hs Hl Hb] H16. rewrite unfilled_ranges_runs by lia.
  destruct (runs_spec (fun i => negb (zbits b i)) 0 (bsize b)) as [Hsep Hc]; [lia|].
  eexists. split_and!.
  - f_equal. apply (rng16 _ 0 ltac:(lia) Hsep). intros x Hx. apply Hc in Hx. lia.
  - apply (sepZ_separated _ 0); [lia|done].
  - intros x. rewrite (covZ_covered _ 0) by (done || lia). rewrite Hc. unfold zbits. rewrite N2Z.id.
    rewrite negb_true_iff. split; intros [? ?]; (split; [lia|done]).
Qed.

(** Overlap on even-length requests *)
Lemma boverlap_spec b qs : Forall (fun q => q.1 < p16 /\ q.2 < p16)%N qs ->
  exists pss, boverlap b (flatten qs) = Ok (flatten (concat pss)) /\
    Forall2 (fun q ps => separated q.1 ps /\
               (forall x, covered ps x <-> (q.1 <= x <= q.2)%N /\ bits b x = true)) qs pss.
Proof.
  induction qs as [|[s e] qs IH]; intros HF.
  - exists []. split; [done|constructor].
  - inversion HF as [|? ? [H1 H2] HF']; subst. cbn [fst snd] in *.
    destruct (IH HF') as (pss & E & HF2). unfold p16 in *.
    destruct (filled_ranges_spec b (Z.of_N s) (Z.of_N e)) as (ps & E1 & Hs & Hc); [lia|lia|lia|].
    exists (ps :: pss). split.
    + change (flatten ((s, e) :: qs)) with (s :: e :: flatten qs). cbn [boverlap].
      rewrite E1. cbn [rbind]. rewrite E. cbn [rbind concat]. unfold flatten. rewrite flat_map_app. done.
    + constructor; [|done]. cbn [fst snd]. rewrite N2Z.id in Hs. split; [done|].
      intros x. rewrite Hc. split; intros [? ?]; (split; [lia|done]).
Qed.
Lemma boverlap_odd b qs x : Forall (fun q => q.1 < p16 /\ q.2 < p16)%N qs ->
  is_panic (boverlap b (flatten qs ++ [x])).
Proof.
  induction qs as [|[s e] qs IH]; intros HF.
  - cbn. eexists. done.
  - inversion HF as [|? ? [H1 H2] HF']; subst. cbn [fst snd] in *. unfold p16 in *.
    destruct (filled_ranges_spec b (Z.of_N s) (Z.of_N e)) as (ps & E1 & Hs & Hc); [lia|lia|lia|].
    change (flatten ((s, e) :: qs) ++ [x]) with (s :: e :: (flatten qs ++ [x])). cbn [boverlap].
    rewrite E1. cbn [rbind]. destruct (IH HF') as [p ->]. cbn. eexists. done.
Qed.
Lemma flatten_pairs l : exists qs t, l = flatten qs ++ t /\ (t = [] \/ exists x, t = [x]).
Proof.
  remember (length l) as n eqn:Hn. revert l Hn. induction n as [n IH] using lt_wf_ind. intros l Hn.
  destruct l as [|a [|c l]].
  - exists [], []. auto.
  - exists [], [a]. eauto.
  - destruct (IH (length l)) with (l := l) as (qs & t & -> & Ht); [cbn in Hn; lia|done|].
    exists ((a, c) :: qs), t. done.
Qed.

(** UnfilledItems *)
Lemma unfilled_items_loop_spec b count n : forall start result,
  (0 <= start)%Z -> (start + n <= 65536)%Z ->
  length result <= count ->
  unfilled_items_loop (seqZ start n) b count result =
  Ok (take count (result ++ map Z.to_N (filter (fun i => zbits b i = false) (seqZ start n)))).
Proof.
  intros start. remember (Z.to_nat n) as k eqn:Hk. revert n start Hk.
  induction k as [|k IH]; intros n start Hk result H0 H16 Hle.
  - rewrite seqZ_nil by lia. cbn. rewrite app_nil_r, take_ge by done. done.
  - rewrite seqZ_cons by lia. cbn [unfilled_items_loop].
    destruct (Nat.ltb_spec (length result) count) as [Hc|Hc].
    + rewrite u64_of_int_nonneg by lia. rewrite bget_bits by (unfold p63; lia). cbn [rbind].
      change (bits b (Z.to_N start)) with (zbits b start).
      rewrite filter_cons. destruct (zbits b start) eqn:Ez.
      * rewrite decide_False by done. apply IH; lia.
      * rewrite decide_True by done. rewrite IH; try lia.
        -- rewrite <- app_assoc. cbn [map app]. rewrite u16_of_int_small by lia. done.
        -- rewrite app_length. cbn. lia.
    + assert (length result = count) as <- by lia. rewrite take_app. done.
Qed.
Lemma bunfilled_items_spec b count : binv b -> (bsize b <= 65536)%Z -> (0 <= count)%Z ->
  bunfilled_items b count =
   Ok (take (Z.to_nat count) (filter (fun x => bits b x = false) (map Z.to_N (seqZ 0 (bsize b))))).
Proof.
  intros [Hw Hs Hl Hb] H16 Hc. unfold bunfilled_items. destruct (Z.ltb_spec count 0); [lia|].
  rewrite u64_of_int_nonneg by lia. rewrite Z2N.id by lia.
  rewrite unfilled_items_loop_spec by (cbn; lia). cbn [app]. do 2 f_equal.
  change (map Z.to_N (seqZ 0 (bsize b))) with (Z.to_N <$> seqZ 0 (bsize b)).
  rewrite list_filter_fmap. done.
Qed.

(** ** Serialization *)
Lemma concat_be_length d : length (concat (map (be 8) d)) = 8 * length d.
Proof. induction d as [|w d IH]; [done|]. cbn [map concat length]. rewrite app_length, be_length, IH. lia. Qed.
Lemma bserialize_length b : length (bserialize b) = 8 + 8 * length (bdata b).
Proof. unfold bserialize. rewrite app_length, be_length, concat_be_length. done. Qed.

Lemma concat_be_read d : forall i w, d !! i = Some w -> take 8 (drop (i * 8) (concat (map (be 8) d))) = be 8 w.
Proof.
  induction d as [|w' d IH]; intros i w E; [done|].
  destruct i as [|i]; cbn [map concat].
  - injection E as ->. cbn [Nat.mul]. rewrite drop_0.
    rewrite take_app_alt by (rewrite be_length; done). done.
  - cbn in E. rewrite drop_app_ge by (rewrite be_length; lia). rewrite be_length.
    replace (S i * 8 - 8) with (i * 8) by lia. auto.
Qed.

Lemma bdeserialize_serialize b : Forall (fun w => w < p64)%N (bdata b) ->
  (-9223372036854775808 <= bsize b < 9223372036854775808)%Z ->
  bdeserialize (bserialize b) = Ok b.
Proof.
  intros Hw Hs. unfold bdeserialize. rewrite bserialize_length.
  destruct (Nat.ltb_spec (8 + 8 * length (bdata b)) 8); [lia|].
  rewrite drop_length, bserialize_length.
  replace (8 + 8 * length (bdata b) - 8) with (length (bdata b) * 8) by lia.
  rewrite Nat.mod_mul by lia. cbn [Nat.eqb negb]. rewrite Nat.div_mul by lia.
  destruct b as [d s]. cbn [bdata bsize] in *. f_equal. f_equal.
  - apply list_eq. intros i. change (map (fun i => unbe (take 8 (drop (8 + i * 8) (bserialize (mkBitset d s))))) (seq 0 (length d)))
     with ((fun i => unbe (take 8 (drop (8 + i * 8) (bserialize (mkBitset d s))))) <$> (seq 0 (length d))).
    rewrite list_lookup_fmap. destruct (d !! i) as [w|] eqn:E.
    + rewrite lookup_seq_lt by (eapply lookup_lt_Some; eauto). cbn [fmap option_fmap option_map]. f_equal.
      unfold bserialize. cbn [bdata bsize]. rewrite Nat.add_0_l.
      rewrite drop_app_ge by (rewrite be_length; lia). rewrite be_length.
      replace (8 + i * 8 - 8) with (i * 8) by lia.
      rewrite (concat_be_read d i w) by done. apply unbe_be_small.
      change (256 ^ N.of_nat 8)%N with p64. exact (Forall_lookup_1 _ _ _ _ Hw E).
    + apply lookup_ge_None in E. rewrite lookup_seq_ge by done. done.
  - unfold bserialize. cbn [bdata bsize]. rewrite take_app_alt by (rewrite be_length; done).
    rewrite unbe_be_small.
    + apply int_u64_int. done.
    + change (256 ^ N.of_nat 8)%N with p64. unfold u64_of_int, p64. lia.
Qed.

Lemma chunks_be data n : length data = n * 8 ->
  concat (map (be 8) (map (fun i => unbe (take 8 (drop (i * 8) data))) (seq 0 n))) = data.
Proof.
  revert data. induction n as [|n IH]; intros data Hl.
  - destruct data; [done|cbn in Hl; lia].
  - cbn [seq map concat]. cbn [Nat.mul]. rewrite drop_0.
    rewrite <- seq_shift, (map_map S).
    erewrite (map_ext (fun x => unbe _) (fun i => unbe (take 8 (drop (i * 8) (drop 8 data))))).
    2:{ intros i. rewrite drop_drop. do 3 f_equal. }
    rewrite IH by (rewrite drop_length; lia).
    assert (length (take 8 data) = 8) as Ht by (rewrite take_length; lia).
    rewrite <- Ht at 1. rewrite be_unbe, take_drop. done.
Qed.

Lemma u64_int_u64 x : (x < p64)%N -> u64_of_int (int_of_u64 x) = x.
Proof.
  unfold u64_of_int, int_of_u64, p63, p64. intros Hx.
  destruct (N.ltb_spec x 9223372036854775808).
  - rewrite Z.mod_small by lia. lia.
  - replace (Z.of_N x - Z.of_N 18446744073709551616)%Z with (Z.of_N x + (-1) * Z.of_N 18446744073709551616)%Z by lia.
    rewrite Z_mod_plus_full, Z.mod_small by lia. lia.
Qed.

Lemma bserialize_deserialize data b : bdeserialize data = Ok b -> bserialize b = data.
Proof.
  unfold bdeserialize. destruct (Nat.ltb_spec (length data) 8) as [|H8]; [done|].
  rewrite drop_length. destruct (Nat.eqb_spec ((length data - 8) mod 8) 0) as [Hm|Hm]; [|done].
  cbn [negb]. intros [= <-]. unfold bserialize. cbn [bdata bsize].
  assert (length (take 8 data) = 8) as Ht by (rewrite take_length; lia).
  rewrite u64_int_u64.
  2:{ pose proof (unbe_lt (take 8 data)) as H. rewrite Ht in H. exact H. }
  rewrite <- Ht at 1. rewrite be_unbe.
  rewrite (map_ext _ (fun i => unbe (take 8 (drop (i * 8) (drop 8 data))))).
  2:{ intros i. rewrite drop_drop. done. }
  rewrite chunks_be.
  - apply take_drop.
  - rewrite drop_length. change ((Nat.divmod (length data - 8) 7 0 7).1) with ((length data - 8) / 8). lia.
Qed.

Lemma bdeserialize_cases data :
  (length data < 8 -> is_panic (bdeserialize data)) /\
  (8 <= length data -> length data mod 8 <> 0 -> is_err (bdeserialize data)) /\
  (8 <= length data -> length data mod 8 = 0 -> exists b, bdeserialize data = Ok b /\ bserialize b = data).
Proof.
  split_and!.
  - intros H. unfold bdeserialize. destruct (Nat.ltb_spec (length data) 8); [|lia]. eexists. done.
  - intros H Hm. unfold bdeserialize. destruct (Nat.ltb_spec (length data) 8); [lia|].
    rewrite drop_length. destruct (Nat.eqb_spec ((length data - 8) mod 8) 0); [lia|]. eexists. done.
  - intros H Hm. assert (exists b, bdeserialize data = Ok b) as [b Hb].
    { unfold bdeserialize. destruct (Nat.ltb_spec (length data) 8); [lia|].
      rewrite drop_length. destruct (Nat.eqb_spec ((length data - 8) mod 8) 0); [|lia]. eexists. done. }
    exists b. split; [done|]. by apply bserialize_deserialize.
Qed.
