(** Proofs about the bitset model (Bitset.v). *)
From Verif Require Export Bitset.
From Coq Require Import ZifyBool ZifyNat ZifyN.
Ltac Zify.zify_post_hook ::= Z.div_mod_to_equations.

(** Membership of index x, read straight from the words. *)
Definition bits (b : bitset) (x : N) : bool :=
  match bdata b !! N.to_nat (x / 64) with
  | Some w => N.testbit w (x mod 64)
  | None => false
  end.

(** Invariant of every bitset reachable through the API. *)
Record binv (b : bitset) : Prop := {
  binv_words : Forall (fun w => w < p64)%N (bdata b);
  binv_size : (0 <= bsize b < 9223372036854775808)%Z;
  binv_len : Z.of_nat (length (bdata b)) = ((bsize b + 63) / 64)%Z;
  binv_bits : forall x, bits b x = true -> (Z.of_N x < bsize b)%Z
}.

Lemma quot64 x : (x < p63)%N -> Z.quot (int_of_u64 x) 64 = Z.of_N (x / 64).
Proof.
  intros H. rewrite int_of_u64_small by done. rewrite Z.quot_div_nonneg by lia. lia.
Qed.

Lemma nth_N_lookup l i : nth_N l i = l !! N.to_nat i.
Proof.
  unfold nth_N. destruct (N.ltb_spec i (N.of_nat (length l))); [done|].
  symmetry. apply lookup_ge_None_2. lia.
Qed.
Lemma nth_Z_lookup l i : (0 <= i)%Z -> nth_Z l i = l !! Z.to_nat i.
Proof.
  intros H. unfold nth_Z. destruct (Z.ltb_spec i 0); [lia|].
  rewrite nth_N_lookup. f_equal. lia.
Qed.

Lemma land_bit w k : negb (N.land w (N.shiftl 1 k) =? 0)%N = N.testbit w k.
Proof.
  rewrite N.shiftl_1_l. destruct (N.testbit w k) eqn:E.
  - destruct (N.eqb_spec (N.land w (2 ^ k)) 0) as [H|]; [|done].
    assert (N.testbit (N.land w (2^k)) k = true) as H'.
    { rewrite N.land_spec, E, N.pow2_bits_true. done. }
    rewrite H in H'. rewrite N.bits_0 in H'. done.
  - assert (N.land w (2^k) = 0)%N as ->; [|done].
    apply N.bits_inj. intros j. rewrite N.land_spec, N.bits_0, N.pow2_bits_eqb.
    destruct (N.eqb_spec k j) as [->|]; [rewrite E; done|]. apply andb_false_r.
Qed.

Lemma bget_bits b x : (x < p63)%N -> bget b x = Ok (bits b x).
Proof.
  intros H. unfold bget, bits. rewrite quot64 by done. rewrite nth_N_lookup.
  destruct (Z.leb_spec (Z.of_nat (length (bdata b))) (Z.of_N (x / 64))).
  - rewrite (lookup_ge_None_2 (bdata b)) by lia. done.
  - destruct (bdata b !! N.to_nat (x / 64)) eqn:E.
    + rewrite land_bit. done.
    + apply lookup_ge_None in E. lia.
Qed.

Lemma idx_eq x y : (x / 64 = y / 64)%N -> (x mod 64 = y mod 64)%N -> x = y.
Proof. intros H1 H2. rewrite (N.div_mod x 64), (N.div_mod y 64) by lia. congruence. Qed.

Lemma bits_insert b x w z y :
  bdata b !! N.to_nat (x / 64) = Some w ->
  bits (mkBitset (<[N.to_nat (x / 64) := z]> (bdata b)) (bsize b)) y =
  if decide (y / 64 = x / 64)%N then N.testbit z (y mod 64) else bits b y.
Proof.
  intros E. unfold bits. cbn [bdata]. apply lookup_lt_Some in E.
  destruct (decide (y / 64 = x / 64)%N) as [->|Hne].
  - rewrite list_lookup_insert by done. done.
  - rewrite list_lookup_insert_ne by lia. done.
Qed.
Lemma bits_size d s s' y : bits (mkBitset d s) y = bits (mkBitset d s') y.
Proof. done. Qed.

Definition grow_to (d : list N) (x : N) : list N :=
  let len := Z.of_nat (length d) in
  if (len - 1 <? Z.of_N (x / 64))%Z
  then d ++ replicate (Z.to_nat (Z.of_N (x / 64) - (len - 1))) 0%N else d.

Lemma grow_to_length d x :
  Z.of_nat (length (grow_to d x)) = Z.max (Z.of_nat (length d)) (Z.of_N (x / 64) + 1).
Proof.
  unfold grow_to. destruct (Z.ltb_spec (Z.of_nat (length d) - 1) (Z.of_N (x/64))).
  - rewrite app_length, replicate_length. lia.
  - lia.
Qed.
Lemma grow_to_bits d s x y : bits (mkBitset (grow_to d x) s) y = bits (mkBitset d s) y.
Proof.
  unfold grow_to. destruct (Z.ltb_spec (Z.of_nat (length d) - 1) (Z.of_N (x/64))); [|done].
  unfold bits; cbn [bdata].
  destruct (decide (N.to_nat (y/64) < length d)).
  - rewrite lookup_app_l by done. done.
  - rewrite (lookup_ge_None_2 d) by lia. rewrite lookup_app_r by lia.
    destruct (replicate _ 0%N !! _) as [w|] eqn:E; [|done].
    apply lookup_replicate in E as [-> _]. apply N.bits_0.
Qed.
Lemma grow_to_words d x : Forall (fun w => w < p64)%N d -> Forall (fun w => w < p64)%N (grow_to d x).
Proof.
  intros H. unfold grow_to. destruct (_ <? _)%Z; [|done].
  apply Forall_app. split; [done|]. apply Forall_replicate. unfold p64; lia.
Qed.

Lemma testbit_lt_p64 w : (forall k, (64 <= k)%N -> N.testbit w k = false) -> (w < p64)%N.
Proof.
  intros H. change p64 with (2 ^ 64)%N.
  destruct (decide (w = 0)%N) as [->|Hw]; [lia|].
  apply N.log2_lt_pow2; [lia|].
  destruct (N.lt_ge_cases (N.log2 w) 64) as [?|Hge]; [done|].
  specialize (H _ Hge). rewrite N.bit_log2 in H by done. done.
Qed.
Lemma testbit_ge_p64 w k : (w < p64)%N -> (64 <= k)%N -> N.testbit w k = false.
Proof.
  intros Hw Hk. destruct (decide (w = 0)%N) as [->|Hne]; [apply N.bits_0|].
  apply N.bits_above_log2. change p64 with (2^64)%N in Hw.
  apply N.log2_lt_pow2 in Hw; lia.
Qed.
Lemma lor_lt_p64 a c : (a < p64)%N -> (c < p64)%N -> (N.lor a c < p64)%N.
Proof.
  intros Ha Hc. apply testbit_lt_p64. intros k Hk.
  rewrite N.lor_spec, !testbit_ge_p64 by done. done.
Qed.
Lemma pow2_lt_p64 k : (k < 64)%N -> (2 ^ k < p64)%N.
Proof. intros H. change p64 with (2^64)%N. apply N.pow_lt_mono_r; lia. Qed.

Lemma bset_ok b x : (x < p63)%N ->
  exists b', bset b x = Ok b' /\
    bsize b' = Z.max (bsize b) (wrap64 (Z.of_N x + 1)) /\
    Z.of_nat (length (bdata b')) = Z.max (Z.of_nat (length (bdata b))) (Z.of_N (x / 64) + 1) /\
    (forall y, bits b' y = (y =? x)%N || bits b y) /\
    (Forall (fun w => w < p64)%N (bdata b) -> Forall (fun w => w < p64)%N (bdata b')).
Proof.
  intros Hx. unfold bset. rewrite quot64 by done.
  fold (grow_to (bdata b) x). rewrite nth_N_lookup.
  pose proof (grow_to_length (bdata b) x) as Hlen.
  destruct (grow_to (bdata b) x !! N.to_nat (x / 64)) as [w|] eqn:E.
  2:{ apply lookup_ge_None in E. lia. }
  eexists. split; [reflexivity|]. cbn [bdata bsize].
  rewrite int_of_u64_small by done. split; [done|]. split.
  { rewrite insert_length. exact Hlen. }
  split.
  - intros y.
    rewrite (bits_size _ _ (bsize b)).
    rewrite (bits_insert (mkBitset (grow_to (bdata b) x) (bsize b)) x w _ y) by done.
    rewrite grow_to_bits.
    change (bits (mkBitset (bdata b) (bsize b)) y) with (bits b y).
    destruct (decide (y / 64 = x / 64)%N) as [Hq|Hq].
    + rewrite N.lor_spec, N.shiftl_1_l, N.pow2_bits_eqb.
      assert (bits b y = N.testbit w (y mod 64)) as ->.
      { rewrite <- (grow_to_bits (bdata b) (bsize b) x y : _ = bits b y).
        unfold bits. cbn [bdata]. rewrite Hq, E. done. }
      rewrite orb_comm. f_equal.
      destruct (N.eqb_spec (x mod 64) (y mod 64)), (N.eqb_spec y x); try done.
      * exfalso. apply n. apply idx_eq; congruence.
      * subst. done.
    + destruct (N.eqb_spec y x); [subst; done|]. done.
  - intros HF. apply Forall_insert; [by apply grow_to_words|].
    apply lor_lt_p64.
    + eapply Forall_lookup_1 in E; [|by apply grow_to_words]. done.
    + rewrite N.shiftl_1_l. apply pow2_lt_p64. lia.
Qed.

Lemma bset_inv b x : binv b -> (x < p63 - 1)%N ->
  exists b', bset b x = Ok b' /\ binv b' /\
    bsize b' = Z.max (bsize b) (Z.of_N x + 1) /\
    (forall y, bits b' y = (y =? x)%N || bits b y).
Proof.
  intros [Hw Hs Hl Hb] Hx. assert (x < 9223372036854775807)%N as Hx' by (unfold p63 in Hx; lia).
  destruct (bset_ok b x) as (b' & E & Hs' & Hl' & Hbits & Hw'); [unfold p63; lia|].
  rewrite wrap64_small in Hs' by lia.
  exists b'. split_and!; try done. split.
  - auto.
  - rewrite Hs'. lia.
  - rewrite Hl', Hs', Hl. lia.
  - intros y Hy. rewrite Hbits in Hy. rewrite Hs'.
    destruct (N.eqb_spec y x); [lia|]. simpl in Hy. apply Hb in Hy. lia.
Qed.

(** Subtracting a set bit clears exactly that bit. *)
Lemma sub_bit w k : (k < 64)%N -> (w < p64)%N -> N.testbit w k = true ->
  forall j, N.testbit ((w + p64 - N.shiftl 1 k) mod p64) j = if (j =? k)%N then false else N.testbit w j.
Proof.
  intros Hk Hw Hbit j. rewrite N.shiftl_1_l.
  assert (w = N.lor (N.clearbit w k) (2 ^ k) )%N as Hdec.
  { apply N.bits_inj. intros i. rewrite N.lor_spec, N.clearbit_eqb, N.pow2_bits_eqb.
    destruct (N.eqb_spec k i) as [->|]; [rewrite Hbit; done|].
    simpl. rewrite andb_true_r, orb_false_r. done. }
  assert (N.land (N.clearbit w k) (2^k) = 0)%N as Hdisj.
  { apply N.bits_inj. intros i. rewrite N.land_spec, N.clearbit_eqb, N.pow2_bits_eqb, N.bits_0.
    destruct (N.eqb_spec k i); simpl; rewrite ?andb_false_r; done. }
  assert (w = N.clearbit w k + 2^k)%N as Hadd.
  { rewrite Hdec at 1. rewrite N.add_nocarry_lxor by done. rewrite N.lxor_lor by done. done. }
  assert (w + p64 - 2^k = N.clearbit w k + 1 * p64)%N as -> by lia.
  rewrite N.mod_add by (unfold p64; lia).
  assert (N.clearbit w k < p64)%N by lia.
  rewrite N.mod_small by done.
  rewrite N.clearbit_eqb. rewrite (N.eqb_sym j k).
  destruct (N.eqb_spec k j); simpl; rewrite ?andb_false_r, ?andb_true_r; done.
Qed.

Lemma bunset_inv b x : binv b -> bits b x = true ->
  exists b', bunset b x = Ok b' /\ binv b' /\ bsize b' = bsize b /\
    (forall y, bits b' y = if (y =? x)%N then false else bits b y).
Proof.
  intros [Hw Hs Hl Hb] Hx. pose proof (Hb _ Hx) as Hlt.
  unfold bunset. rewrite quot64 by (unfold p63; lia).
  pose proof Hx as Hx2. unfold bits in Hx2.
  destruct (bdata b !! N.to_nat (x / 64)) as [w|] eqn:E; [|done].
  pose proof (lookup_lt_Some _ _ _ E) as Hlt2.
  destruct (Z.leb_spec (Z.of_nat (length (bdata b))) (Z.of_N (x/64))); [lia|].
  rewrite nth_Z_lookup by lia.
  replace (Z.to_nat (Z.of_N (x/64))) with (N.to_nat (x/64)) by lia.
  rewrite E. eexists. split; [reflexivity|].
  assert (w < p64)%N as Hw1 by exact (Forall_lookup_1 _ _ _ _ Hw E).
  assert (forall y, bits (mkBitset (<[N.to_nat (x/64) := ((w + p64 - N.shiftl 1 (x mod 64)) mod p64)%N]> (bdata b)) (bsize b)) y
     = if (y =? x)%N then false else bits b y) as Hbits.
  { intros y. rewrite (bits_insert b x w) by done.
    destruct (decide (y/64 = x/64)%N) as [Hq|Hq].
    - rewrite sub_bit; [| lia | done | done].
      destruct (N.eqb_spec (y mod 64) (x mod 64)), (N.eqb_spec y x); try done.
      + exfalso. apply n. apply idx_eq; done.
      + subst. done.
      + unfold bits. rewrite Hq, E. done.
    - destruct (N.eqb_spec y x); [subst; done|done]. }
  split_and!; [|done|done].
  split; cbn [bdata bsize].
  - apply Forall_insert; [done|]. apply N.mod_lt. unfold p64; lia.
  - done.
  - rewrite insert_length. done.
  - intros y Hy. rewrite Hbits in Hy. destruct (N.eqb_spec y x); [done|]. auto.
Qed.

Lemma bunset_oob b x : (x < p63)%N -> (length (bdata b) <= N.to_nat (x / 64)) -> bunset b x = Ok b.
Proof.
  intros Hx Hl. unfold bunset. rewrite quot64 by done.
  destruct (Z.leb_spec (Z.of_nat (length (bdata b))) (Z.of_N (x/64))); [done|lia].
Qed.

Lemma empty_inv : binv (mkBitset [] 0).
Proof. split; cbn; [constructor|lia|lia|]. intros x. unfold bits. cbn. done. Qed.

Lemma new_bitset_ok n : (0 <= n < 9223372036854775808)%Z ->
  exists b, new_bitset n = Ok b /\ binv b /\ bsize b = n /\ (forall y, bits b y = false).
Proof.
  intros Hn. unfold new_bitset.
  destruct (Z.ltb_spec n 0); [lia|]. destruct (Z.ltb_spec 0 n).
  2:{ assert (n = 0)%Z as -> by lia. eexists. split_and!; [reflexivity|apply empty_inv|done|].
      intros y. unfold bits. done. }
  rewrite u64_of_int_nonneg by lia.
  destruct (bset_ok (mkBitset [] n) (Z.to_N (n-1))) as (b1 & E1 & Hs1 & Hl1 & Hb1 & Hw1); [unfold p63; lia|].
  rewrite E1. cbn [rbind].
  rewrite wrap64_small in Hs1 by lia. cbn [bsize bdata length] in *.
  assert (binv b1) as Hi1.
  { split; [apply Hw1; constructor| lia | rewrite Hl1, Hs1; lia|].
    intros x Hx. rewrite Hb1 in Hx. destruct (N.eqb_spec x (Z.to_N (n-1))); [lia|].
    simpl in Hx. unfold bits in Hx. done. }
  destruct (bunset_inv b1 (Z.to_N (n-1))) as (b2 & E2 & Hi2 & Hs2 & Hb2); [done| |].
  { rewrite Hb1. rewrite N.eqb_refl. done. }
  exists b2. split_and!; [done|done|lia|].
  intros y. rewrite Hb2, Hb1. destruct (N.eqb_spec y (Z.to_N (n-1))); [done|].
  simpl. unfold bits. done.
Qed.
Lemma new_bitset_neg n : (n < 0)%Z -> is_panic (new_bitset n).
Proof. intros H. unfold new_bitset. destruct (Z.ltb_spec n 0); [|lia]. eexists. done. Qed.

(** ** Fill and Full *)
Lemma last_mask_spec k : (0 <= k < 64)%Z ->
  exists m, last_mask k = Ok m /\ m = (2 ^ (Z.to_N k + 1) - 1)%N.
Proof.
  intros Hk. unfold last_mask. destruct (Z.ltb_spec k 0); [lia|].
  eexists. split; [reflexivity|].
  assert (k ∈ seqZ 0 64) as Hin by (apply elem_of_seqZ; lia).
  assert (Forall (fun k => N.lor (N.shiftl ((N.shiftl 1 (Z.to_N k) mod p64 + p64 - 1) mod p64) 1 mod p64) 1
     = (2 ^ (Z.to_N k + 1) - 1)%N) (seqZ 0 64)) as HF.
  { apply Forall_forall. clear. intros k Hk.
    assert (forallb (fun k => (N.lor (N.shiftl ((N.shiftl 1 (Z.to_N k) mod p64 + p64 - 1) mod p64) 1 mod p64) 1
     =? (2 ^ (Z.to_N k + 1) - 1))%N) (seqZ 0 64) = true) as HB by (vm_compute; reflexivity).
    rewrite forallb_forall in HB. apply N.eqb_eq. apply HB. apply elem_of_list_In. done. }
  rewrite Forall_forall in HF. auto.
Qed.
Lemma mask_bits k j : N.testbit (2 ^ k - 1) j = (j <? k)%N.
Proof.
  rewrite <- N.pred_sub, <- N.ones_equiv.
  destruct (N.ltb_spec j k).
  - apply N.ones_spec_low; done.
  - apply N.ones_spec_high; done.
Qed.
Lemma max_u64_bits j : N.testbit max_u64 j = (j <? 64)%N.
Proof. change max_u64 with (2 ^ 64 - 1)%N. apply mask_bits. Qed.

Lemma fill_loop n d : (0 <= n)%Z -> (n <= Z.of_nat (length d))%Z ->
  for_list (seqZ 0 n) (fun i d => upd_Z d i max_u64) d = Ok (replicate (Z.to_nat n) max_u64 ++ drop (Z.to_nat n) d).
Proof.
  intros H0 Hn.
  assert (forall pre d', Z.of_nat (length pre) + Z.of_nat (length d') = Z.of_nat (length d) -> 
     forall m, (0 <= m <= Z.of_nat (length d'))%Z ->
     for_list (seqZ (Z.of_nat (length pre)) m) (fun i d => upd_Z d i max_u64) (pre ++ d')
     = Ok (pre ++ replicate (Z.to_nat m) max_u64 ++ drop (Z.to_nat m) d'))%Z as Hgen.
  2:{ specialize (Hgen [] d ltac:(cbn; lia) n ltac:(lia)). cbn [length app] in Hgen. exact Hgen. }
  intros pre d' Hl m Hm.
  remember (Z.to_nat m) as k eqn:Hk. revert pre d' Hl m Hm Hk.
  induction k as [|k IH]; intros pre d' Hl m Hm Hk.
  - assert (m = 0)%Z as -> by lia. rewrite seqZ_nil by lia. cbn. rewrite drop_0. done.
  - destruct d' as [|a d']; [cbn in *; lia|].
    rewrite seqZ_cons by lia. cbn [for_list].
    unfold upd_Z at 1. rewrite nth_Z_lookup by lia. rewrite Nat2Z.id.
    rewrite lookup_app_r by lia. rewrite Nat.sub_diag. cbn [lookup list_lookup].
    rewrite insert_app_r_alt by lia. rewrite Nat.sub_diag. cbn [insert list_insert rbind].
    specialize (IH (pre ++ [max_u64]) d').
    rewrite app_length in IH. cbn [length] in *.
    replace (Z.of_nat (length pre + 1)) with (Z.succ (Z.of_nat (length pre))) in IH by lia.
    rewrite <- !app_assoc in IH. cbn [app] in IH.
    rewrite (IH ltac:(lia) (Z.pred m)) by lia.
    done.
Qed.

Lemma bfill_inv b : binv b ->
  exists b', bfill b = Ok b' /\ binv b' /\ bsize b' = bsize b /\
   (forall y, bits b' y = (Z.of_N y <? bsize b)%Z).
Proof.
  intros Hi. pose proof Hi as [Hw Hs Hl Hb]. unfold bfill.
  destruct (Z.eqb_spec (bsize b) 0) as [E0|E0].
  - exists b. split_and!; [done|done|done|]. intros y.
    destruct (bits b y) eqn:E.
    + apply Hb in E. lia.
    + symmetry. apply Z.ltb_ge. lia.
  - rewrite Z.quot_div_nonneg by lia. rewrite Z.rem_mod_nonneg by lia.
    rewrite fill_loop by lia. cbn [rbind].
    destruct (last_mask_spec ((bsize b - 1) mod 64)) as (m & -> & ->); [lia|]. cbn [rbind].
    set (n := ((bsize b - 1) / 64)%Z) in *.
    assert (exists a, drop (Z.to_nat n) (bdata b) = [a]) as [a Ha].
    { assert (length (drop (Z.to_nat n) (bdata b)) = 1) as Hl1 by (rewrite drop_length; lia).
      destruct (drop (Z.to_nat n) (bdata b)) as [|a [|]]; cbn in Hl1; try lia. eauto. }
    rewrite Ha.
    unfold upd_Z. rewrite nth_Z_lookup by lia.
    rewrite lookup_app_r by (rewrite replicate_length; lia).
    rewrite replicate_length, Nat.sub_diag. cbn [lookup list_lookup].
    rewrite insert_app_r_alt by (rewrite replicate_length; lia).
    rewrite replicate_length, Nat.sub_diag. cbn [insert list_insert rbind].
    set (msk := (2 ^ (Z.to_N ((bsize b - 1) mod 64) + 1) - 1)%N).
    eexists. split; [reflexivity|].
    assert (forall y, bits (mkBitset (replicate (Z.to_nat n) max_u64 ++ [msk]) (bsize b)) y = (Z.of_N y <? bsize b)%Z) as Hbits.
    { intros y. unfold bits. cbn [bdata].
      destruct (decide (N.to_nat (y/64) < Z.to_nat n)).
      - rewrite lookup_app_l by (rewrite replicate_length; done).
        rewrite lookup_replicate_2 by done. rewrite max_u64_bits.
        destruct (N.ltb_spec (y mod 64) 64); destruct (Z.ltb_spec (Z.of_N y) (bsize b)); try lia.
      - rewrite lookup_app_r by (rewrite replicate_length; lia). rewrite replicate_length.
        destruct (N.to_nat (y/64) - Z.to_nat n) as [|k] eqn:Ek; cbn [lookup list_lookup].
        + unfold msk. rewrite mask_bits.
          destruct (N.ltb_spec (y mod 64) (Z.to_N ((bsize b - 1) mod 64) + 1));
          destruct (Z.ltb_spec (Z.of_N y) (bsize b)); try lia.
        + destruct (Z.ltb_spec (Z.of_N y) (bsize b)); [exfalso; lia|by destruct k]. }
    split_and!; [|done|done].
    split; cbn [bdata bsize].
    + apply Forall_app. split.
      * apply Forall_replicate. unfold max_u64, p64; lia.
      * apply Forall_singleton. unfold msk. change p64 with (2^64)%N.
        assert (2 ^ (Z.to_N ((bsize b - 1) mod 64) + 1) <= 2^64)%N by (apply N.pow_le_mono_r; lia).
        assert (2 ^ (Z.to_N ((bsize b - 1) mod 64) + 1) <> 0)%N by (apply N.pow_nonzero; lia). lia.
    + done.
    + rewrite app_length, replicate_length. cbn [length]. lia.
    + intros x Hx. rewrite Hbits in Hx. lia.
Qed.

Lemma all_max_spec d : forall n m, (0 <= n)%Z -> (0 <= m)%Z -> (n + m <= Z.of_nat (length d))%Z ->
  exists a, all_max (seqZ n m) d = Ok a /\
   (a = true <-> forall i, (n <= i < n + m)%Z -> d !! Z.to_nat i = Some max_u64).
Proof.
  intros n m. remember (Z.to_nat m) as k eqn:Hk. revert n m Hk.
  induction k as [|k IH]; intros n m Hk Hn Hm Hlen.
  - rewrite seqZ_nil by lia. exists true. cbn. split; [done|]. split; [intros; lia|done].
  - rewrite seqZ_cons by lia. cbn [all_max]. rewrite nth_Z_lookup by lia.
    destruct (d !! Z.to_nat n) as [w|] eqn:E.
    2:{ apply lookup_ge_None in E. lia. }
    destruct (N.eqb_spec w max_u64) as [->|Hne].
    + destruct (IH (Z.succ n) (Z.pred m)) as (a & -> & Ha); [lia..|].
      exists a. split; [done|]. rewrite Ha. split.
      * intros H i Hi. destruct (decide (i = n)) as [->|]; [done|]. apply H. lia.
      * intros H i Hi. apply H. lia.
    + exists false. split; [done|]. split; [done|]. intros H.
      specialize (H n ltac:(lia)). congruence.
Qed.

Lemma bfull_spec b : binv b ->
  exists r, bfull b = Ok r /\ (r = true <-> forall y, (Z.of_N y < bsize b)%Z -> bits b y = true).
Proof.
  intros [Hw Hs Hl Hb]. unfold bfull. destruct (Z.eqb_spec (bsize b) 0) as [E0|E0].
  - exists true. split; [done|]. split; [intros; lia|done].
  - rewrite Z.quot_div_nonneg by lia. rewrite Z.rem_mod_nonneg by lia.
    set (n := ((bsize b - 1) / 64)%Z) in *.
    destruct (all_max_spec (bdata b) 0 n) as (a & -> & Ha); [lia..|].
    cbn [rbind].
    destruct (last_mask_spec ((bsize b - 1) mod 64)) as (m & Hm & ->); [lia|].
    set (msk := (2 ^ (Z.to_N ((bsize b - 1) mod 64) + 1) - 1)%N) in *.
    destruct a.
    + rewrite nth_Z_lookup by lia.
      destruct (bdata b !! Z.to_nat n) as [w|] eqn:E.
      2:{ apply lookup_ge_None in E. lia. }
      rewrite Hm. cbn [rbind]. eexists. split; [done|].
      assert (w < p64)%N as Hw1 by exact (Forall_lookup_1 _ _ _ _ Hw E).
      assert (forall k, (k < 64)%N -> bits b (Z.to_N n * 64 + k) = N.testbit w k) as Hk.
      { intros k Hk. unfold bits. replace (N.to_nat ((Z.to_N n * 64 + k) / 64)) with (Z.to_nat n) by lia.
        rewrite E. f_equal. lia. }
      rewrite N.eqb_eq. split.
      * intros -> y Hy. destruct (decide (y / 64 = Z.to_N n)%N) as [Hq|Hq].
        -- replace y with (Z.to_N n * 64 + y mod 64)%N by lia. rewrite Hk by lia.
           unfold msk. rewrite mask_bits. lia.
        -- unfold bits. destruct Ha as [Ha _].
           specialize (Ha eq_refl (Z.of_N (y/64)) ltac:(lia)).
           replace (Z.to_nat (Z.of_N (y/64))) with (N.to_nat (y/64)) in Ha by lia.
           rewrite Ha, max_u64_bits. lia.
      * intros H. apply N.bits_inj. intros j.
        destruct (decide (j < 64)%N).
        -- unfold msk. rewrite mask_bits. rewrite <- Hk by done.
           destruct (N.ltb_spec j (Z.to_N ((bsize b - 1) mod 64) + 1)).
           ++ apply H. lia.
           ++ destruct (bits b (Z.to_N n * 64 + j)) eqn:Eb; [|done]. apply Hb in Eb. lia.
        -- rewrite testbit_ge_p64 by (done || lia). unfold msk. rewrite mask_bits. lia.
    + exists false. split; [done|]. split; [done|]. intros H.
      assert (false = true); [|done]. apply Ha. intros i Hi.
      assert (exists w, bdata b !! Z.to_nat i = Some w) as [w E].
      { apply lookup_lt_is_Some_2. lia. }
      rewrite E. f_equal. apply N.bits_inj. intros j. rewrite max_u64_bits.
      assert (w < p64)%N as Hw1 by exact (Forall_lookup_1 _ _ _ _ Hw E).
      destruct (N.ltb_spec j 64).
      * specialize (H (Z.to_N i * 64 + j)%N ltac:(lia)). unfold bits in H.
        replace (N.to_nat ((Z.to_N i * 64 + j) / 64)) with (Z.to_nat i) in H by lia.
        rewrite E in H. rewrite <- H. f_equal. lia.
      * apply testbit_ge_p64; done.
Qed.
