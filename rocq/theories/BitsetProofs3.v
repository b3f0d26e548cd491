(** Bitset: lemmas in the vocabulary of BitsetSpec.v. *)
From Verif Require Export BitsetProofs2.
From Coq Require Export Sorting.Sorted.
From Coq Require Import ZifyBool ZifyNat ZifyN.
Ltac Zify.zify_post_hook ::= Z.div_mod_to_equations.

Lemma bget_big b x : (N.of_nat (length (bdata b)) <= 144115188075855872)%N -> (p63 <= x < p64)%N ->
  bget b x = if decide (bdata b = [] /\ p64 - 64 < x)%N then Ok false else Panic "index out of range".
Proof.
  intros Hl Hx. unfold bget, int_of_u64, p63, p64 in *.
  destruct (N.ltb_spec x 9223372036854775808); [lia|].
  rewrite nth_N_lookup, (lookup_ge_None_2 (bdata b)) by lia.
  destruct (Z.leb_spec (Z.of_nat (length (bdata b))) (Z.quot (Z.of_N x - Z.of_N 18446744073709551616) 64)) as [H1|H1].
  - rewrite decide_True; [done|]. destruct (bdata b); cbn [length] in *; split; try done; lia.
  - rewrite decide_False; [done|]. intros [He H2]. rewrite He in H1. cbn in H1. lia.
Qed.

Lemma binv_length b : binv b -> (N.of_nat (length (bdata b)) <= 144115188075855872)%N.
Proof. intros [_ Hs Hl _]. lia. Qed.

Lemma bits_lt b x : binv b -> bits b x = true -> (x < p63)%N.
Proof. intros Hi Hx. pose proof (binv_size b Hi). apply (binv_bits b Hi) in Hx. unfold p63. lia. Qed.

Lemma bget_huge b x : binv b -> (p63 <= x)%N -> bget b x <> Ok true.
Proof.
  intros Hi Hx. pose proof (binv_length b Hi). unfold bget.
  rewrite nth_N_lookup, (lookup_ge_None_2 (bdata b)) by (unfold p63 in *; lia).
  by destruct (_ <=? _)%Z.
Qed.
Lemma mem_bits b x : binv b -> mem b x <-> bits b x = true.
Proof.
  intros Hi. unfold mem. destruct (decide (x < p63)%N) as [H|H].
  - rewrite bget_bits by done. split; congruence.
  - split.
    + intros Hm. exfalso. apply (bget_huge b x); [done|lia|done].
    + intros Hb. pose proof (bits_lt b x Hi Hb). lia.
Qed.

Lemma api_reach_inv b : api_reach b -> binv b.
Proof.
  induction 1 as [n b Hn E|b x b' _ IH Hx E|b x b' _ IH Hx E|b b' _ IH E|b _ IH|b b' _ IH E].
  - destruct (decide (n < 0)%Z) as [H|H].
    + destruct (new_bitset_neg n H) as [p Hp]. congruence.
    + destruct (new_bitset_ok n) as (b0 & E0 & Hi & _); [lia|]. congruence.
  - destruct (bset_inv b x IH Hx) as (b0 & E0 & Hi & _). congruence.
  - apply mem_bits in Hx; [|done]. destruct (bunset_inv b x IH Hx) as (b0 & E0 & Hi & _). congruence.
  - destruct (bfill_inv b IH) as (b0 & E0 & Hi & _). congruence.
  - destruct b; done.
  - rewrite bdeserialize_serialize in E; [congruence|apply IH|].
    pose proof (binv_size b IH). lia.
Qed.

Lemma elem_of_all_below n x : x ∈ all_below n <-> (Z.of_N x < n)%Z.
Proof.
  unfold all_below. rewrite elem_of_list_to_set.
  change (map Z.to_N (seqZ 0 n)) with (Z.to_N <$> seqZ 0 n). rewrite elem_of_list_fmap. split.
  - intros (z & -> & Hz). apply elem_of_seqZ in Hz. lia.
  - intros H. exists (Z.of_N x). split; [lia|]. apply elem_of_seqZ. lia.
Qed.

(** Refinement relation and the history theorem. *)
Definition brel (b : bitset) (s : gset N * Z) : Prop :=
  binv b /\ bsize b = s.2 /\ forall x, x ∈ s.1 <-> bits b x = true.

Lemma run_ops_refines os : forall b s, brel b s -> legal os s ->
  exists b', run_ops os b = Ok b' /\ brel b' (spec_ops os s).
Proof.
  induction os as [|o os IH]; intros b [X n] (Hi & Hn & HX) Hleg; cbn [fst snd] in *.
  - exists b. done.
  - destruct Hleg as [Ho Hleg].
    assert (exists b', run_op o b = Ok b' /\ brel b' (spec_op o (X, n))) as (b1 & E1 & H1).
    { destruct o as [x|x|]; cbn [run_op spec_op].
      - destruct (bset_inv b x Hi Ho) as (b1 & E1 & Hi1 & Hs1 & Hb1). exists b1. split; [done|].
        split_and!; cbn [fst snd]; [done|congruence|]. intros y. rewrite Hb1, elem_of_union, HX, elem_of_singleton.
        rewrite orb_true_iff, N.eqb_eq. done.
      - cbn [fst] in Ho. apply HX in Ho.
        destruct (bunset_inv b x Hi Ho) as (b1 & E1 & Hi1 & Hs1 & Hb1). exists b1. split; [done|].
        split_and!; cbn [fst snd]; [done|congruence|]. intros y. rewrite Hb1, elem_of_difference, HX, elem_of_singleton.
        destruct (N.eqb_spec y x); naive_solver.
      - destruct (bfill_inv b Hi) as (b1 & E1 & Hi1 & Hs1 & Hb1). exists b1. split; [done|].
        split_and!; cbn [fst snd]; [done|congruence|]. intros y. rewrite Hb1, elem_of_all_below, Hn.
        rewrite Z.ltb_lt. done. }
    cbn [run_ops]. rewrite E1. cbn [rbind]. apply IH; done.
Qed.

Lemma C01_lemma n os : (0 <= n < 9223372036854775808)%Z -> legal os (∅, n) ->
  exists b0 b, new_bitset n = Ok b0 /\ run_ops os b0 = Ok b /\
    let '(X, m) := spec_ops os (∅, n) in
    bsize_of b = m /\ bcount b = Z.of_nat (size X) /\
    forall x, (x < p63)%N -> bget b x = Ok (bool_decide (x ∈ X)).
Proof.
  intros Hn Hleg. destruct (new_bitset_ok n Hn) as (b0 & E0 & Hi0 & Hs0 & Hb0).
  destruct (run_ops_refines os b0 (∅, n)) as (b & E & Hi & Hs & HX).
  { split_and!; cbn [fst snd]; [done|done|]. intros x. rewrite Hb0. set_solver. }
  { done. }
  exists b0, b. split_and!; [done|done|]. destruct (spec_ops os (∅, n)) as [X m]. cbn [fst snd] in *.
  split_and!.
  - done.
  - apply bcount_set; done.
  - intros x Hx. rewrite bget_bits by done. f_equal. destruct (bits b x) eqn:E1.
    + rewrite bool_decide_true; [done|]. apply HX. done.
    + rewrite bool_decide_false; [done|]. intros Hc. apply HX in Hc. congruence.
Qed.

(** Every reachable bitset never panics in the API (indices below 2^63-1). *)
Lemma reach_ops_total b o : api_reach b ->
  match o with BSet x => (x < p63 - 1)%N | BUnset x => mem b x | BFill => True end ->
  exists b', run_op o b = Ok b' /\ api_reach b'.
Proof.
  intros Hr Ho. pose proof (api_reach_inv b Hr) as Hi. destruct o as [x|x|]; cbn [run_op].
  - destruct (bset_inv b x Hi Ho) as (b1 & E1 & _). exists b1. split; [done|]. by eapply ar_set.
  - pose proof Ho as Ho'. apply mem_bits in Ho'; [|done].
    destruct (bunset_inv b x Hi Ho') as (b1 & E1 & _). exists b1. split; [done|]. by eapply ar_unset.
  - destruct (bfill_inv b Hi) as (b1 & E1 & _). exists b1. split; [done|]. by eapply ar_fill.
Qed.

(** Unset of a member *)
Lemma C02_member_lemma b x : api_reach b -> mem b x ->
  exists b', bunset b x = Ok b' /\ bsize_of b' = bsize_of b /\
    forall y, mem b' y <-> mem b y /\ y <> x.
Proof.
  intros Hr Hx. pose proof (api_reach_inv b Hr) as Hi. pose proof Hx as Hx'.
  apply mem_bits in Hx'; [|done].
  destruct (bunset_inv b x Hi Hx') as (b1 & E1 & Hi1 & Hs1 & Hb1).
  exists b1. split_and!; [done|done|]. intros y. rewrite !mem_bits by done. rewrite Hb1.
  destruct (N.eqb_spec y x); naive_solver.
Qed.
Lemma testbit_sub_flip w k : (k < 64)%N -> (w < p64)%N ->
  N.testbit ((w + p64 - N.shiftl 1 k) mod p64) k = negb (N.testbit w k).
Proof.
  intros Hk Hw. change p64 with (2 ^ 64)%N. rewrite N.mod_pow2_bits_low by done.
  rewrite N.shiftl_1_l.
  assert (2 ^ 64 = 2 ^ k * (2 * 2 ^ (63 - k)))%N as Hp.
  { replace 64%N with (k + (1 + (63 - k)))%N at 1 by lia. rewrite !N.pow_add_r. done. }
  assert (w + 2 ^ 64 - 2 ^ k = w + (2 * 2 ^ (63 - k) - 1) * 2 ^ k)%N as ->.
  { rewrite Hp. assert (0 < 2 ^ (63 - k))%N by (apply N.neq_0_lt_0, N.pow_nonzero; lia). nia. }
  assert (forall a, N.testbit (a / 2 ^ k) 0 = N.testbit a k) as Hd.
  { intros a. rewrite N.div_pow2_bits. f_equal. }
  rewrite <- (Hd w), <- (Hd (w + _)%N).
  rewrite N.div_add by (apply N.pow_nonzero; lia).
  rewrite !N.bit0_odd. rewrite N.odd_add.
  assert (N.odd (2 * 2 ^ (63 - k) - 1) = true) as ->.
  { assert (0 < 2 ^ (63 - k))%N by (apply N.neq_0_lt_0, N.pow_nonzero; lia).
    replace (2 * 2 ^ (63 - k) - 1)%N with (2 * (2 ^ (63 - k) - 1) + 1)%N by lia.
    rewrite N.odd_add_mul_2 || (rewrite N.add_comm, N.odd_add_mul_2). done. }
  by destruct (N.odd _).
Qed.
Lemma C02_nonmember_lemma b x : api_reach b -> (Z.of_N x < bsize_of b)%Z -> ~ mem b x ->
  exists b', bunset b x = Ok b' /\ bsize_of b' = bsize_of b /\ mem b' x.
Proof.
  intros Hr Hx Hn. pose proof (api_reach_inv b Hr) as Hi. rewrite mem_bits in Hn by done.
  pose proof Hi as [Hw Hs Hl Hb]. unfold bsize_of in Hx.
  assert (x < p63)%N as Hx63 by (unfold p63; lia).
  destruct (bdata b !! N.to_nat (x / 64)) as [w|] eqn:E; [|apply lookup_ge_None in E; lia].
  unfold bunset. rewrite quot64 by done.
  destruct (Z.leb_spec (Z.of_nat (length (bdata b))) (Z.of_N (x / 64))); [lia|].
  rewrite nth_Z_lookup by lia. replace (Z.to_nat (Z.of_N (x / 64))) with (N.to_nat (x / 64)) by lia.
  rewrite E. eexists. split_and!; [done|done|]. unfold mem. rewrite bget_bits by done.
  rewrite (bits_insert b x w) by done. rewrite decide_True by done. f_equal.
  rewrite testbit_sub_flip; [|lia|exact (Forall_lookup_1 _ _ _ _ Hw E)].
  unfold bits in Hn. rewrite E in Hn. destruct (N.testbit w (x mod 64)); done.
Qed.
Lemma C02_outside_lemma b x : api_reach b -> (x < p63)%N -> (bsize_of b + 63 < Z.of_N x)%Z ->
  bunset b x = Ok b.
Proof.
  intros Hr Hx Hs. pose proof (api_reach_inv b Hr) as [_ Hs' Hl _]. unfold bsize_of in Hs.
  apply bunset_oob; [done|lia].
Qed.

(** Get / Set totality *)
Lemma bset_big b x : (N.of_nat (length (bdata b)) <= 144115188075855872)%N -> (p63 <= x < p64)%N ->
  is_panic (bset b x).
Proof.
  intros Hl Hx. unfold bset, int_of_u64, p63, p64 in *.
  destruct (N.ltb_spec x 9223372036854775808); [lia|].
  set (off := Z.quot (Z.of_N x - Z.of_N 18446744073709551616) 64).
  assert (off <= 0)%Z as Ho by (subst off; lia).
  set (data := if (Z.of_nat (length (bdata b)) - 1 <? off)%Z then _ else _).
  assert (N.of_nat (length data) <= 144115188075855872)%N as Hd.
  { subst data. destruct (Z.ltb_spec (Z.of_nat (length (bdata b)) - 1) off); [|done].
    rewrite app_length, replicate_length. lia. }
  rewrite nth_N_lookup, (lookup_ge_None_2 data) by lia. eexists. done.
Qed.
Lemma C03_lemma b x : api_reach b -> (x < p64)%N ->
  ((x < p63)%N -> exists r, bget b x = Ok r) /\
  ((x < p63)%N -> (bsize_of b + 63 < Z.of_N x)%Z -> bget b x = Ok false) /\
  ((x < p63 - 1)%N -> exists b', bset b x = Ok b' /\ api_reach b') /\
  ((p63 <= x)%N -> is_panic (bset b x) /\ (is_panic (bget b x) <-> (0 < bsize_of b)%Z \/ (x <= p64 - 64)%N)).
Proof.
  intros Hr Hx. pose proof (api_reach_inv b Hr) as Hi. pose proof Hi as [Hw Hs Hl Hb].
  pose proof (binv_length b Hi) as Hlen. split_and!.
  - intros H. rewrite bget_bits by done. eauto.
  - intros H Hout. rewrite bget_bits by done. unfold bits. unfold bsize_of in Hout.
    rewrite (lookup_ge_None_2 (bdata b)) by lia. done.
  - intros H. apply (reach_ops_total b (BSet x)); done.
  - intros H. split; [by apply bset_big|]. rewrite bget_big by done. unfold bsize_of.
    destruct (decide _) as [[He Hgt]|Hne].
    + split; [intros [p Hp]; done|]. rewrite He in Hl. cbn in Hl. intros [Hc|Hc]; lia.
    + split; [|intros _; by eexists]. intros _.
      destruct (decide (x <= p64 - 64)%N) as [|Hnx]; [by right|]. left.
      destruct (bdata b) as [|w d] eqn:Ed; [|cbn [length] in Hl; lia].
      exfalso. apply Hne. split; [done|]. lia.
Qed.

(** Full / Fill *)
Lemma C04_lemma b : api_reach b ->
  (exists r, bfull b = Ok r /\ (r = true <-> forall y, (Z.of_N y < bsize_of b)%Z -> mem b y)) /\
  (exists b', bfill b = Ok b' /\ bsize_of b' = bsize_of b /\ bfull b' = Ok true /\
     forall y, mem b' y <-> (Z.of_N y < bsize_of b)%Z).
Proof.
  intros Hr. pose proof (api_reach_inv b Hr) as Hi. split.
  - destruct (bfull_spec b Hi) as (r & E & Hr'). exists r. split; [done|]. rewrite Hr'.
    setoid_rewrite mem_bits; done.
  - destruct (bfill_inv b Hi) as (b1 & E1 & Hi1 & Hs1 & Hb1). exists b1. split_and!; [done|done| |].
    + destruct (bfull_spec b1 Hi1) as (r & -> & Hr1). f_equal. apply Hr1. intros y Hy. rewrite Hb1. lia.
    + intros y. rewrite mem_bits by done. rewrite Hb1. unfold bsize_of. lia.
Qed.
Lemma C04_count_lemma b : api_reach b ->
  (bcount b <= bsize_of b)%Z /\ (bfull b = Ok true <-> bcount b = bsize_of b).
Proof.
  intros Hr. pose proof (api_reach_inv b Hr) as Hi. pose proof Hi as [Hw Hs Hl Hb]. unfold bsize_of.
  assert (forall n, (0 <= n)%Z -> size (all_below n) = Z.to_nat n) as Hsz.
  { intros n Hn. unfold all_below. rewrite size_list_to_set.
    - rewrite map_length, seqZ_length. done.
    - change (map Z.to_N (seqZ 0 n)) with (Z.to_N <$> seqZ 0 n). apply NoDup_fmap_2_strong; [|apply NoDup_seqZ].
      intros x y Hx Hy. apply elem_of_seqZ in Hx, Hy. lia. }
  set (X := list_to_set (positions 0 (bdata b)) : gset N).
  assert (forall x, x ∈ X <-> bits b x = true) as HX.
  { intros x. unfold X. rewrite elem_of_list_to_set, elem_of_positions_bits; done. }
  rewrite (bcount_set b X Hi HX).
  assert (X ⊆ all_below (bsize b)) as Hsub.
  { intros x Hx. apply elem_of_all_below. apply Hb, HX, Hx. }
  pose proof (subseteq_size _ _ Hsub) as Hle. rewrite Hsz in Hle by lia.
  split; [lia|].
  destruct (bfull_spec b Hi) as (r & -> & Hr'). split.
  - intros [= ->]. assert (X = all_below (bsize b)) as ->.
    { apply set_eq. intros x. rewrite HX, elem_of_all_below. split; [apply Hb|]. apply Hr'. done. }
    rewrite Hsz by lia. lia.
  - intros Hc. f_equal. apply Hr'. intros y Hy. apply HX.
    assert (X = all_below (bsize b)) as ->.
    { destruct (decide (all_below (bsize b) ⊆ X)) as [Hs'|Hs']; [set_solver|].
      assert (X ⊂ all_below (bsize b)) as Hss by done.
      apply subset_size in Hss. rewrite Hsz in Hss by lia. lia. }
    apply elem_of_all_below. done.
Qed.

(** Ranges *)
Lemma C05_lemma b : api_reach b -> (bsize_of b <= 65536)%Z ->
  exists ps, branges b = Ok (flatten ps) /\ separated 0 ps /\ (forall x, covered ps x <-> mem b x).
Proof.
  intros Hr H. pose proof (api_reach_inv b Hr) as Hi.
  destruct (branges_spec b Hi H) as (ps & E & Hs & Hc). exists ps. split_and!; [done|done|].
  intros x. rewrite mem_bits by done. apply Hc.
Qed.
Lemma C06_lemma b qs : api_reach b -> Forall (fun q => q.1 < 65536 /\ q.2 < 65536)%N qs ->
  exists pss, boverlap b (flatten qs) = Ok (flatten (concat pss)) /\
    Forall2 (fun q ps => separated q.1 ps /\
               (forall x, covered ps x <-> (q.1 <= x <= q.2)%N /\ mem b x)) qs pss.
Proof.
  intros Hr H. pose proof (api_reach_inv b Hr) as Hi.
  destruct (boverlap_spec b qs H) as (pss & E & HF). exists pss. split; [done|].
  eapply Forall2_impl; [exact HF|]. cbn. intros q ps [H1 H2]. split; [done|].
  intros x. rewrite mem_bits by done. apply H2.
Qed.
Lemma C06_odd_lemma b l : Forall (fun v => v < 65536)%N l ->
  (is_panic (boverlap b l) <-> Nat.odd (length l) = true) /\ ~ is_err (boverlap b l).
Proof.
  intros HF. destruct (flatten_pairs l) as (qs & t & -> & Ht).
  assert (Forall (fun q => q.1 < 65536 /\ q.2 < 65536)%N qs) as Hq.
  { apply Forall_app in HF as [HF _]. clear -HF. induction qs as [|[s e] qs IH]; [constructor|].
    cbn [flatten flat_map app fst snd] in HF. inversion HF as [|? ? H1 H2]; subst. inversion H2; subst.
    constructor; [done|]. apply IH. done. }
  assert (forall qs, Nat.odd (length (flatten qs)) = false) as Hodd.
  { clear. induction qs as [|q qs IH]; [done|]. cbn [flatten flat_map app length]. exact IH. }
  destruct Ht as [->|[x ->]].
  - rewrite app_nil_r. destruct (boverlap_spec b qs Hq) as (pss & -> & _). rewrite Hodd. split.
    + split; [intros [p Hp]; done|done].
    + intros [p Hp]; done.
  - destruct (boverlap_odd b qs x Hq) as [p Hp]. rewrite Hp. split.
    + rewrite app_length. cbn [length]. rewrite Nat.add_1_r, Nat.odd_succ, <- Nat.negb_odd, Hodd.
      split; [done|]. intros _. by eexists.
    + intros [e He]; done.
Qed.
Lemma C07_ranges_lemma b : api_reach b -> (bsize_of b <= 65536)%Z ->
  exists ps, bunfilled_ranges b = Ok (map (fun p => mkRange p.1 p.2) ps) /\ separated 0 ps /\
    (forall x, covered ps x <-> (Z.of_N x < bsize_of b)%Z /\ ~ mem b x).
Proof.
  intros Hr H. pose proof (api_reach_inv b Hr) as Hi.
  destruct (bunfilled_ranges_spec b Hi H) as (ps & E & Hs & Hc). exists ps. split_and!; [done|done|].
  intros x. rewrite mem_bits by done. rewrite Hc. rewrite not_true_iff_false. done.
Qed.

(** UnfilledItems(k): strictly increasing list of the smallest non-members *)
Lemma seqN_lookup n i : (0 <= n)%Z -> map Z.to_N (seqZ 0 n) !! i = if decide (Z.of_nat i < n)%Z then Some (N.of_nat i) else None.
Proof.
  intros Hn. change (map Z.to_N (seqZ 0 n)) with (Z.to_N <$> seqZ 0 n). rewrite list_lookup_fmap.
  destruct (decide (Z.of_nat i < n)%Z).
  - rewrite lookup_seqZ_lt by done. cbn. f_equal. lia.
  - rewrite lookup_seqZ_ge by lia. done.
Qed.
Lemma sorted_filter (P : N -> Prop) `{!forall x, Decision (P x)} l :
  StronglySorted N.lt l -> StronglySorted N.lt (filter P l).
Proof.
  induction 1 as [|a l Hl IH HF]; [constructor|].
  rewrite filter_cons. destruct (decide (P a)); [|done]. constructor; [done|].
  apply Forall_forall. intros x Hx. apply elem_of_list_filter in Hx as [_ Hx].
  eapply Forall_forall; eauto.
Qed.
Lemma sorted_seqN n : StronglySorted N.lt (map Z.to_N (seqZ 0 n)).
Proof.
  cut (forall k s, (0 <= s)%Z -> StronglySorted N.lt (map Z.to_N (seqZ s (Z.of_nat k)))).
  { intros H. destruct (decide (0 <= n)%Z).
    - replace n with (Z.of_nat (Z.to_nat n)) by lia. apply H. lia.
    - rewrite seqZ_nil by lia. constructor. }
  induction k as [|k IH]; intros s Hs.
  - constructor.
  - rewrite seqZ_cons by lia. replace (Z.pred (Z.of_nat (S k))) with (Z.of_nat k) by lia. cbn [map].
    constructor; [apply IH; lia|]. apply Forall_forall. intros x Hx.
    apply elem_of_list_fmap in Hx as (z & -> & Hz). apply elem_of_seqZ in Hz. lia.
Qed.
Lemma sorted_take l k : StronglySorted N.lt l -> StronglySorted N.lt (take k l).
Proof.
  revert k. induction l as [|a l IH]; intros k H; [by rewrite take_nil|].
  destruct k; [constructor|]. inversion H; subst. cbn [take]. constructor; [auto|].
  apply Forall_take. done.
Qed.
Lemma C07_items_lemma b k : api_reach b -> (bsize_of b <= 65536)%Z -> (0 <= k)%Z ->
  exists l, bunfilled_items b k = Ok l /\ StronglySorted N.lt l /\ (Z.of_nat (length l) <= k)%Z /\
    (forall x, x ∈ l -> (Z.of_N x < bsize_of b)%Z /\ ~ mem b x) /\
    (forall x, (Z.of_N x < bsize_of b)%Z -> ~ mem b x -> x ∉ l ->
       Z.of_nat (length l) = k /\ forall y, y ∈ l -> (y < x)%N).
Proof.
  intros Hr H Hk. pose proof (api_reach_inv b Hr) as Hi. unfold bsize_of in *.
  rewrite bunfilled_items_spec by done. eexists. split; [done|].
  set (L := filter (fun x => bits b x = false) (map Z.to_N (seqZ 0 (bsize b)))).
  assert (StronglySorted N.lt L) as HS by apply sorted_filter, sorted_seqN.
  assert (forall x, x ∈ L <-> (Z.of_N x < bsize b)%Z /\ ~ mem b x) as HL.
  { intros x. unfold L. rewrite elem_of_list_filter.
    change (map Z.to_N (seqZ 0 (bsize b))) with (Z.to_N <$> seqZ 0 (bsize b)).
    rewrite elem_of_list_fmap, mem_bits, not_true_iff_false by done. split.
    - intros [Hf (z & -> & Hz)]. apply elem_of_seqZ in Hz. split; [lia|done].
    - intros [H1 H2]. split; [done|]. exists (Z.of_N x). split; [lia|]. apply elem_of_seqZ. lia. }
  split_and!.
  - apply sorted_take. done.
  - rewrite take_length. lia.
  - intros x Hx. apply HL. rewrite <- (take_drop (Z.to_nat k) L). apply elem_of_app. by left.
  - intros x Hx Hm Hn. assert (x ∈ L) as HxL by (apply HL; done).
    rewrite <- (take_drop (Z.to_nat k) L) in HxL. apply elem_of_app in HxL as [?|Hd]; [done|].
    split.
    + rewrite take_length. assert (Z.to_nat k < length L); [|lia].
      destruct (decide (Z.to_nat k < length L)) as [|Hge]; [done|]. rewrite drop_ge in Hd by lia.
      by apply elem_of_nil in Hd.
    + intros y Hy. revert HS Hd Hy. generalize (Z.to_nat k). clear. induction L as [|a L IH]; intros m HS Hd Hy.
      * rewrite take_nil in Hy. by apply elem_of_nil in Hy.
      * destruct m as [|m]; cbn [take drop] in *; [by apply elem_of_nil in Hy|].
        inversion HS as [|? ? HS' HF]; subst. apply elem_of_cons in Hy as [->|Hy].
        -- rewrite Forall_forall in HF. apply HF. rewrite <- (take_drop m L). apply elem_of_app. by right.
        -- apply (IH m); done.
Qed.

(** For every size, every reported range endpoint is congruent mod 65536 to
    a missing index. *)
Lemma C08_mod_lemma b : api_reach b ->
  exists ps, bunfilled_ranges b = Ok (map (fun p => mkRange (p.1 mod 65536) (p.2 mod 65536))%N ps) /\
    separated 0 ps /\ (forall x, covered ps x <-> (Z.of_N x < bsize_of b)%Z /\ ~ mem b x).
Proof.
  intros Hr. pose proof (api_reach_inv b Hr) as Hi. pose proof Hi as [Hw Hs Hl Hb]. unfold bsize_of.
  rewrite unfilled_ranges_runs by lia.
  destruct (runs_spec (fun i => negb (zbits b i)) 0 (bsize b)) as [Hsep Hc]; [lia|].
  exists (map toN2 (runs (fun i => negb (zbits b i)) 0 (bsize b))). split_and!.
  - f_equal. rewrite map_map. apply map_ext_in. intros [s e] Hin.
    apply elem_of_list_In in Hin. pose proof (sepZ_bounds _ _ Hsep _ _ Hin). unfold u16_of_int. cbn [toN2 fst snd].
    f_equal; rewrite Z2N.inj_mod by lia; done.
  - apply (sepZ_separated _ 0); [lia|done].
  - intros x. rewrite (covZ_covered _ 0) by (done || lia). rewrite Hc. unfold zbits. rewrite N2Z.id.
    rewrite mem_bits, negb_true_iff, not_true_iff_false by done. split; intros [? ?]; (split; [lia|done]).
Qed.

(** C08: with more than 65536 chunks the missing ranges may name a held chunk:
    size 65538 with only index 65536 missing. *)
Lemma sep_singleton ps v : separated 0 ps -> (forall x, covered ps x <-> x = v) -> ps = [(v, v)].
Proof.
  intros Hs Hc. assert (covered ps v) as (s & e & Hin & Hv) by (apply Hc; done).
  destruct ps as [|[s1 e1] ps]; [by apply elem_of_nil in Hin|].
  destruct Hs as (H0 & H1 & H2).
  assert (s1 = v) as -> by (apply Hc; exists s1, e1; split; [apply elem_of_list_here|lia]).
  assert (e1 = v) as -> by (apply Hc; exists v, e1; split; [apply elem_of_list_here|lia]).
  destruct ps as [|[s2 e2] ps]; [done|]. destruct H2 as (H3 & H4 & _).
  assert (s2 = v); [|lia]. apply Hc. exists s2, e2. split; [apply elem_of_list_further, elem_of_list_here|lia].
Qed.
Lemma C08_lemma : exists b, api_reach b /\ (65536 < bsize_of b)%Z /\ mem b 0 /\
  bunfilled_ranges b = Ok [mkRange 0 0] /\ ~ mem b 65536.
Proof.
  destruct (new_bitset_ok 65536) as (b0 & E0 & Hi0 & Hs0 & _); [lia|].
  destruct (bfill_inv b0 Hi0) as (b1 & E1 & Hi1 & Hs1 & Hb1).
  destruct (bset_inv b1 65537 Hi1) as (b & E & Hi & Hs & Hb); [unfold p63; lia|].
  assert (api_reach b) as Hr.
  { apply (ar_set b1 65537 b); [|unfold p63; lia|exact E]. eapply ar_fill; [|exact E1]. eapply ar_new; [|exact E0]. lia. }
  assert (forall x, mem b x <-> (x < 65536)%N \/ x = 65537%N) as Hm.
  { intros x. rewrite mem_bits by done. rewrite Hb, Hb1, orb_true_iff, N.eqb_eq. lia. }
  exists b. split_and!.
  - done.
  - unfold bsize_of. lia.
  - apply Hm. lia.
  - destruct (C08_mod_lemma b Hr) as (ps & -> & Hsep & Hc).
    rewrite (sep_singleton ps 65536); [done|done|]. intros x. rewrite Hc, Hm. unfold bsize_of. lia.
  - rewrite Hm. lia.
Qed.

Lemma C09_lemma a b x : (x < p63)%N ->
  exists ga gb, bget a x = Ok ga /\ bget b x = Ok gb /\
    bget (bunion a b) x = Ok (ga || gb) /\ bget (bintersect a b) x = Ok (ga && gb).
Proof.
  intros Hx. exists (bits a x), (bits b x). rewrite !bget_bits by done.
  rewrite bunion_bits, bintersect_bits. done.
Qed.
(** Word-level facts used by callers: lengths of the results *)
Lemma union_length a b : length (bdata (bunion a b)) = Nat.max (length (bdata a)) (length (bdata b)) /\
  length (bdata (bintersect a b)) = Nat.min (length (bdata a)) (length (bdata b)).
Proof.
  unfold bunion, bintersect, shorter_first.
  destruct (Nat.ltb_spec (length (bdata b)) (length (bdata a))); cbn [bdata];
    rewrite ?app_length, !zip_with_length, ?drop_length; lia.
Qed.

Lemma C10_lemma a b : bsize_of (bunion a b) = 0%Z /\ bsize_of (bintersect a b) = 0%Z /\
  bfull (bunion a b) = Ok true /\ bfull (bintersect a b) = Ok true.
Proof.
  unfold bunion, bintersect, shorter_first. destruct (_ <? _); done.
Qed.

Lemma C02_refuted_lemma :
  exists b b', api_reach b /\ (forall x, ~ mem b x) /\ bunset b 0 = Ok b' /\
    (forall x, (x < 64)%N -> mem b' x).
Proof.
  destruct (new_bitset_ok 64) as (b & E & Hi & Hs & Hb); [lia|].
  assert (b = mkBitset [0%N] 64) as -> by (vm_compute in E; congruence).
  exists (mkBitset [0%N] 64), (mkBitset [18446744073709551615%N] 64). split_and!.
  - eapply ar_new; [|exact E]. lia.
  - intros x Hx. apply mem_bits in Hx; [|done]. rewrite Hb in Hx. done.
  - vm_compute. reflexivity.
  - intros x Hx. unfold mem. rewrite bget_bits by (unfold p63; lia). f_equal. unfold bits.
    rewrite N.div_small, N.mod_small by done. change (N.to_nat 0) with 0. cbn [bdata lookup list_lookup].
    change 18446744073709551615%N with (N.ones 64). apply N.ones_spec_low. done.
Qed.

Lemma C03_refuted_lemma : exists b x, api_reach b /\ (x < p64)%N /\ is_panic (bget b x).
Proof.
  destruct (new_bitset 1) as [b| |] eqn:E; [|by vm_compute in E..].
  exists b, p63. split_and!; [eapply ar_new; [|exact E]; lia|done|].
  vm_compute in E. injection E as <-. vm_compute. by eexists.
Qed.

Lemma C10_refuted_lemma : exists a b, api_reach a /\ api_reach b /\ mem (bunion a b) 1 /\
  bsize_of (bunion a b) = 0%Z /\ bfull (bunion a b) = Ok true /\ ~ mem (bunion a b) 0.
Proof.
  destruct (let! b := new_bitset 2 in bset b 1) as [b| |] eqn:E; [|by vm_compute in E..].
  exists b, b.
  assert (api_reach b) as Hr.
  { destruct (new_bitset 2) as [b0| |] eqn:E0; cbn [rbind] in E; [|done..].
    eapply ar_set; [eapply ar_new; [|exact E0]; lia| |exact E]. unfold p63; lia. }
  vm_compute in E. injection E as <-. split_and!; try done.
Qed.

Lemma C11_inj_lemma : forall a b, api_reach a -> api_reach b ->
  bserialize a = bserialize b -> a = b.
Proof.
  intros a b Ha Hb E. apply api_reach_inv in Ha as [Hw Hs _ _]. apply api_reach_inv in Hb as [Hw' Hs' _ _].
  assert (@Ok bitset a = Ok b) as H; [|congruence].
  rewrite <- (bdeserialize_serialize a), <- (bdeserialize_serialize b), E; try done; lia.
Qed.
