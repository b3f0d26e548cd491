(** Model of Bitset.Print. *)
From Verif Require Export BitsetProofs3 CliProofs5.

(** the binary digits of a uint64, most significant first, at least one (strconv.AppendUint base 2) *)
Fixpoint bin_digits (fuel : nat) (n : N) : list byte :=
  match fuel with
  | O => []
  | S f => if (n <? 2)%N then [digit n] else bin_digits f (n / 2) ++ [digit (n mod 2)]
  end.
(** "%064b" of a uint64 (at most 64 digits): padded with zeros on the left to 64 *)
Definition fmt_064b (w : N) : list byte :=
  let ds := bin_digits 64 w in replicate (64 - length ds) x30 ++ ds.
(** bitset.go:224-232  Print *)
Definition bprint (b : bitset) : list byte :=
  str "size: " ++ print_int (bsize b) ++ nl ++ concat (map (fun w => fmt_064b w ++ nl) (bdata b)).

(** ** Proofs *)
Lemma bin_digits_spec f w : (w < 2 ^ N.of_nat f)%N -> 0 < f ->
  0 < length (bin_digits f w) <= f
  /\ (w < 2 ^ N.of_nat (length (bin_digits f w)))%N
  /\ forall j, j < length (bin_digits f w) -> bin_digits f w !! (length (bin_digits f w) - 1 - j) = Some (if N.testbit w (N.of_nat j) then x31 else x30).
Proof.
  revert w. induction f as [|f IH]; intros w Hw Hf; [lia|]. cbn [bin_digits]. destruct (N.ltb_spec w 2) as [H2|H2].
  - cbn [length]. split; [lia|]. split; [cbn; lia|]. intros j Hj. assert (j = 0) as -> by lia. assert (w = 0 \/ w = 1)%N as [-> | ->] by lia; reflexivity.
  - destruct f as [|f]; [cbn in Hw; lia|]. assert (w / 2 < 2 ^ N.of_nat (S f))%N as Hd.
    { apply N.div_lt_upper_bound; [lia|]. rewrite <- N.pow_succ_r'. rewrite Nat2N.inj_succ in Hw. done. }
    destruct (IH (w / 2)%N Hd ltac:(lia)) as (L1 & L2 & L3). set (ds := bin_digits (S f) (w / 2)) in *. rewrite app_length. cbn [length].
    split; [lia|]. split.
    { replace (N.of_nat (length ds + 1)) with (N.succ (N.of_nat (length ds))) by lia. rewrite N.pow_succ_r'. pose proof (N.div_mod w 2 ltac:(lia)). pose proof (N.mod_lt w 2 ltac:(lia)). lia. }
    intros j Hj. destruct j as [|j].
    + rewrite lookup_app_r by lia. replace (length ds + 1 - 1 - 0 - length ds) with 0 by lia. cbn [lookup list_lookup].
      change (N.of_nat 0) with 0%N. rewrite <- (N.bit0_mod w). destruct (N.testbit w 0); reflexivity.
    + rewrite lookup_app_l by lia. replace (length ds + 1 - 1 - S j) with (length ds - 1 - j) by lia. rewrite L3 by lia.
      rewrite Nat2N.inj_succ. rewrite <- N.div2_bits. done.
Qed.
Lemma fmt_064b_spec w : (w < p64)%N -> length (fmt_064b w) = 64
  /\ forall j, j < 64 -> fmt_064b w !! (63 - j) = Some (if N.testbit w (N.of_nat j) then x31 else x30).
Proof.
  intros Hw. destruct (bin_digits_spec 64 w) as (L1 & L2 & L3); [exact Hw|lia|]. unfold fmt_064b. set (ds := bin_digits 64 w) in *. clearbody ds.
  split; [rewrite app_length, replicate_length; lia|]. intros j Hj. destruct (decide (j < length ds)) as [Hl|Hl].
  - rewrite lookup_app_r by (rewrite replicate_length; lia). rewrite replicate_length. replace (63 - j - (64 - length ds)) with (length ds - 1 - j) by lia. apply L3. done.
  - rewrite lookup_app_l by (rewrite replicate_length; lia). rewrite lookup_replicate_2 by lia. f_equal.
    destruct (decide (w = 0%N)) as [->|Hn]; [rewrite N.bits_0; done|]. rewrite N.bits_above_log2; [done|].
    apply N.log2_lt_pow2; [lia|]. eapply N.lt_le_trans; [exact L2|]. apply N.pow_le_mono_r; lia.
Qed.
(** what Print should say: the size in decimal, then the bits in lines of 64, the lowest at the right *)
Definition prints (size : Z) (set : N -> Prop) (t : list byte) : Prop :=
  exists num ls, t = str "size: " ++ num ++ nl ++ concat (map (fun l => l ++ nl) ls) /\ decimal num size
    /\ Z.of_nat (length ls) = ((size + 63) / 64)%Z
    /\ (forall k l, ls !! k = Some l -> length l = 64)
    /\ (forall k l j, ls !! k = Some l -> j < 64 -> l !! (63 - j) = Some x31 /\ set (N.of_nat (64 * k + j)) \/ l !! (63 - j) = Some x30 /\ ~ set (N.of_nat (64 * k + j)))
    /\ (forall x, set x -> (Z.of_N x < size)%Z).
Lemma C117_lemma b : api_reach b -> prints (bsize_of b) (mem b) (bprint b).
Proof.
  intros Hr. pose proof (api_reach_inv b Hr) as Hi. pose proof Hi as [Hw Hs Hl Hb]. unfold bsize_of.
  exists (print_int (bsize b)), (map fmt_064b (bdata b)). split; [unfold bprint; rewrite map_map; done|]. split; [apply C67_numbers_lemma|].
  split; [rewrite map_length; done|].
  assert (forall k l, map fmt_064b (bdata b) !! k = Some l -> exists w, bdata b !! k = Some w /\ l = fmt_064b w /\ (w < p64)%N) as Hk.
  { intros k l E. apply list_lookup_fmap_Some in E as (w & E & ->). exists w. split; [done|]. split; [done|]. eapply Forall_lookup_1 in Hw; done. }
  split.
  { intros k l E. destruct (Hk k l E) as (w & _ & -> & H). apply fmt_064b_spec. done. }
  split.
  { intros k l j E Hj. destruct (Hk k l E) as (w & Ew & -> & H). destruct (fmt_064b_spec w H) as [_ Hf]. rewrite (Hf j Hj).
    rewrite mem_bits by done. unfold bits.
    replace (N.of_nat (64 * k + j) / 64)%N with (N.of_nat k) by (apply (N.div_unique _ 64 _ (N.of_nat j)); lia).
    replace (N.of_nat (64 * k + j) mod 64)%N with (N.of_nat j) by (apply (N.mod_unique _ 64 (N.of_nat k)); lia).
    rewrite Nat2N.id, Ew. destruct (N.testbit w (N.of_nat j)); [left|right]; done. }
  intros x Hx. apply Hb. apply mem_bits; done.
Qed.
Lemma nl_digits_eq a b s t : Forall (fun c => c <> x0a) a -> Forall (fun c => c <> x0a) b -> a ++ nl ++ s = b ++ nl ++ t -> a = b /\ s = t.
Proof.
  revert b. induction a as [|x a IH]; intros b Ha Hb E; destruct b as [|y b].
  - cbn in E. injection E as E. done.
  - exfalso. inversion Hb; subst. cbn in E. injection E as E _. done.
  - exfalso. inversion Ha; subst. cbn in E. injection E as E _. done.
  - inversion Ha; subst. inversion Hb; subst. injection E as -> E. apply IH in E as [-> ->]; done.
Qed.
Lemma lines_eq ls ls' : Forall (fun l => length l = 64) ls -> Forall (fun l => length l = 64) ls' ->
  concat (map (fun l => l ++ nl) ls) = concat (map (fun l => l ++ nl) ls') -> ls = ls'.
Proof.
  revert ls'. induction ls as [|l ls IH]; intros ls' H H' E; destruct ls' as [|l' ls']; [done| | |].
  - inversion H'; subst. cbn in E. destruct l'; done.
  - inversion H; subst. cbn in E. destruct l; done.
  - inversion H; subst. inversion H'; subst. cbn [map concat] in E. rewrite <- !app_assoc in E. apply app_inj_1 in E as [-> E]; [|congruence].
    cbn in E. injection E as E. f_equal. apply IH; done.
Qed.
Lemma decimal_unique t z z' : decimal t z -> decimal t z' -> z = z'.
Proof.
  intros (ds & -> & H1 & H2 & H3 & H4) (ds' & E & H1' & H2' & H3' & H4').
  assert (forall x l, Forall (fun b => (48 <= bN b <= 57)%N) (x :: l) -> x <> x2d) as Hm.
  { intros x l HF ->. inversion HF as [|? ? H]; subst. vm_compute in H. destruct H as [H _]. apply H. reflexivity. }
  destruct (Z.ltb_spec z 0); destruct (Z.ltb_spec z' 0); cbn in E.
  - injection E as ->. lia.
  - exfalso. destruct ds'; [done|]. cbn in E. injection E as <- _. eapply Hm; [exact H2'|done].
  - exfalso. destruct ds; [done|]. cbn in E. injection E as -> _. eapply Hm; [exact H2|done].
  - subst ds'. lia.
Qed.
Lemma decimal_no_nl t z : decimal t z -> Forall (fun c => c <> x0a) t.
Proof.
  intros (ds & -> & _ & H & _). apply Forall_app. split; [destruct (z <? 0)%Z; repeat constructor; done|].
  eapply Forall_impl; [exact H|]. intros c Hc ->. vm_compute in Hc. destruct Hc as [Hc _]. apply Hc. reflexivity.
Qed.
Lemma C117_tells_lemma n S n' S' t : prints n S t -> prints n' S' t -> n = n' /\ forall x, S x <-> S' x.
Proof.
  intros (num & ls & E & H1 & H2 & H3 & H4 & H5) (num' & ls' & E' & H1' & H2' & H3' & H4' & H5'). rewrite E in E'. clear E t.
  apply app_inv_head in E'. apply nl_digits_eq in E' as [<- E']; [|eapply decimal_no_nl; eassumption..].
  assert (forall l : list (list byte), (forall k x, l !! k = Some x -> length x = 64) -> Forall (fun x => length x = 64) l) as HF by (intros l Hl; apply Forall_lookup; done).
  apply lines_eq in E' as <-; [|apply HF; done..]. split; [eapply decimal_unique; eassumption|].
  assert (forall n T, (0 <= n)%Z -> (forall x, T x -> (Z.of_N x < n)%Z) -> Z.of_nat (length ls) = ((n + 63) / 64)%Z -> forall x, T x -> exists l, ls !! N.to_nat (x / 64)%N = Some l) as Hin.
  { intros m T Hm HT Hlen x Hx. apply HT in Hx. apply lookup_lt_is_Some_2. apply Nat2Z.inj_lt. rewrite Hlen. 
    assert (Z.of_nat (N.to_nat (x / 64)) = (Z.of_N x / 64)%Z) as -> by (rewrite N_nat_Z, N2Z.inj_div; done). lia. }
  assert (forall m T, (forall x, T x -> (Z.of_N x < m)%Z) -> forall x, T x -> (0 <= m)%Z) as Hnn by (intros m T HT x Hx; apply HT in Hx; lia).
  intros x. assert (N.of_nat (64 * N.to_nat (x / 64)%N + N.to_nat (x mod 64)%N) = x) as Ex by (pose proof (N.div_mod x 64); lia).
  assert (N.to_nat (x mod 64) < 64) as Hj by (pose proof (N.mod_lt x 64); lia).
  split; intros Hx.
  - destruct (Hin n S (Hnn n S H5 x Hx) H5 H2 x Hx) as (l & El).
    destruct (H4 _ _ _ El Hj) as [[A _]|[_ A]]; try rewrite Ex in *; [|done]. destruct (H4' _ _ _ El Hj) as [[_ B]|[B _]]; try rewrite Ex in *; [done|]. rewrite A in B. done.
  - destruct (Hin n' S' (Hnn n' S' H5' x Hx) H5' H2' x Hx) as (l & El).
    destruct (H4' _ _ _ El Hj) as [[A _]|[_ A]]; try rewrite Ex in *; [|done]. destruct (H4 _ _ _ El Hj) as [[_ B]|[B _]]; try rewrite Ex in *; [done|]. rewrite A in B. done.
Qed.
