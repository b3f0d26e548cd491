(** Proofs about message handling. *)
From Verif Require Export ServerSpec CatalogueReach CatalogueDownload MessagesProofs HashProofs TransferProofs.
From Coq Require Import ZifyBool ZifyNat ZifyN.
Ltac Zify.zify_post_hook ::= Z.div_mod_to_equations.

(** ** Addresses *)
Lemma to4_spec ip r : slice_wf ip -> to4 ip = Some r -> ipv4_of (slice_bytes ip) (slice_bytes r) /\ slen r = 4 /\ 4 <= length (arr r).
Proof.
  unfold to4, slice_wf, slice_bytes. intros Hw.
  destruct (decide (slen ip = 4)) as [E|E].
  - intros [= <-]. rewrite E in *. split; [|lia]. split; [rewrite take_length; lia|]. left. done.
  - destruct (decide _) as [[E16 Ht]|_]; [|done]. intros [= <-]. cbn [slen arr]. rewrite drop_length. split; [|lia].
    split; [rewrite take_length, drop_length; lia|]. right. rewrite E16 in *.
    change (replicate 10 x00 ++ [xff; xff] ++ ?x) with ((replicate 10 x00 ++ [xff; xff]) ++ x).
    rewrite <- Ht.
    apply list_eq. intros i. destruct (decide (i < 12)) as [Hi|Hi].
    + rewrite lookup_take by lia. rewrite lookup_app_l by (rewrite take_length; lia). rewrite lookup_take by lia. done.
    + rewrite lookup_app_r by (rewrite take_length; lia). rewrite take_length. destruct (decide (i < 16)) as [Hj|Hj].
      * rewrite !lookup_take by lia. rewrite lookup_drop. f_equal. lia.
      * rewrite !lookup_take_ge by lia. done.
Qed.

Lemma to4_none ip : slice_wf ip -> to4 ip = None <-> forall a, ~ ipv4_of (slice_bytes ip) a.
Proof.
  intros Hw. split.
  - unfold to4, slice_wf, slice_bytes in *. intros H a (Hl & [E|E]).
    + destruct (decide (slen ip = 4)) as [E4|E4]; [done|]. apply (f_equal length) in E. rewrite take_length in E. lia.
    + destruct (decide (slen ip = 4)) as [E4|E4]; [done|].
      destruct (decide _) as [_|Hn]; [done|]. apply Hn.
      pose proof (f_equal length E) as El. rewrite take_length, !app_length, replicate_length in El. cbn [length] in El.
      split; [lia|]. apply (f_equal (take 12)) in E. rewrite take_take in E.
      replace (12 `min` slen ip) with 12 in E by lia. rewrite E.
      change (replicate 10 x00 ++ [xff; xff] ++ a) with ((replicate 10 x00 ++ [xff; xff]) ++ a).
      rewrite take_app_le by done. done.
  - intros H. destruct (to4 ip) as [r|] eqn:E; [|done]. destruct (to4_spec _ _ Hw E) as [H1 _]. exfalso. apply (H _ H1).
Qed.
Lemma ipv4_of_inj ip a b : ipv4_of ip a -> ipv4_of ip b -> a = b.
Proof.
  intros (Ha & Hx) (Hb & Hy). destruct Hx as [-> | ->], Hy as [Hy|Hy].
  - done.
  - apply (f_equal length) in Hy. rewrite !app_length, replicate_length in Hy. cbn [length] in Hy. lia.
  - apply (f_equal length) in Hy. rewrite !app_length, replicate_length in Hy. cbn [length] in Hy. lia.
  - apply app_inv_head in Hy. apply app_inv_head in Hy. done.
Qed.
Lemma sl_range_exact l a b : a <= b -> b <= length l -> sl_range (exact_slice l) a b = Ok (take (b - a) (drop a l)).
Proof. intros H1 H2. unfold sl_range, exact_slice. cbn [arr]. rewrite decide_True by lia. done. Qed.

(** *** C66 *)
Lemma new_ipv4_exact l a : ipv4_of l a -> new_ipv4 (exact_slice l) = Ok a.
Proof.
  intros H. assert (slice_wf (exact_slice l)) as Hw by (unfold slice_wf, exact_slice; cbn; lia).
  assert (slice_bytes (exact_slice l) = l) as Hb by (unfold slice_bytes, exact_slice; cbn; apply take_ge; lia).
  unfold new_ipv4. destruct (to4 (exact_slice l)) as [r|] eqn:E.
  2:{ rewrite (to4_none _ Hw), Hb in E. exfalso. apply (E a H). }
  cbn [exact_slice arr]. destruct H as (Ha & [-> | ->]).
  - rewrite decide_True by done. rewrite sl_range_exact by lia. rewrite drop_0, take_ge by lia. done.
  - assert (length (replicate 10 x00 ++ [xff; xff] ++ a) = 16) as Hl.
    { rewrite !app_length, replicate_length, Ha. done. }
    rewrite decide_False by lia. rewrite decide_True by lia. rewrite sl_range_exact by lia.
    rewrite app_assoc, drop_app_alt by done. rewrite take_ge by lia. done.
Qed.
Lemma C66_lemma l :
  (forall a, ipv4_of l a -> new_ipv4 (exact_slice l) = Ok a)
  /\ ((forall a, ~ ipv4_of l a) -> is_err (new_ipv4 (exact_slice l))).
Proof.
  split; [intros a; apply new_ipv4_exact|]. intros H.
  assert (slice_wf (exact_slice l)) as Hw by (unfold slice_wf, exact_slice; cbn; lia).
  assert (slice_bytes (exact_slice l) = l) as Hb by (unfold slice_bytes, exact_slice; cbn; apply take_ge; lia).
  unfold new_ipv4. assert (to4 (exact_slice l) = None) as ->; [|by eexists].
  rewrite (to4_none _ Hw), Hb. done.
Qed.
(** what happens to a slice with spare capacity *)
Lemma C66_capacity_lemma s : slice_wf s ->
  (is_err (new_ipv4 s) <-> forall a, ~ ipv4_of (slice_bytes s) a)
  /\ (is_panic (new_ipv4 s) <-> (exists a, ipv4_of (slice_bytes s) a) /\ length (arr s) <> 4 /\ length (arr s) <> 16)
  /\ (forall a b, ipv4_of (slice_bytes s) a -> new_ipv4 s = Ok b ->
        (b = a \/ slen s = 4 /\ length (arr s) = 16 /\ b = drop 12 (arr s))).
Proof.
  intros Hw. destruct (to4 s) as [r|] eqn:E.
  - destruct (to4_spec _ _ Hw E) as (H1 & H2 & H3). unfold new_ipv4. rewrite E.
    assert (slen s = 4 \/ slen s = 16) as Hsl.
    { destruct H1 as (Hl & [Hx|Hx]); apply (f_equal length) in Hx; unfold slice_bytes at 1 in Hx; unfold slice_wf in Hw;
      rewrite take_length in Hx; rewrite ?app_length, ?replicate_length, Hl in Hx; cbn [length] in Hx; lia. }
    split_and!.
    + split; [|intros Hn; exfalso; apply (Hn _ H1)].
      intros [w Hx]. unfold sl_range in Hx. repeat case_decide; done.
    + split.
      * intros [w Hx]. split; [eauto|]. unfold slice_wf in Hw. unfold sl_range in Hx.
        destruct (decide (length (arr s) = 4)); [rewrite decide_True in Hx by lia; done|].
        destruct (decide (length (arr s) = 16)); [rewrite decide_True in Hx by lia; done|]. done.
      * intros (_ & Hx & Hy). rewrite !decide_False by done. by eexists.
    + intros a b Ha. unfold sl_range. unfold slice_wf in Hw.
      destruct (decide (length (arr s) = 4)) as [E4|E4].
      * rewrite decide_True by lia. intros [= <-]. left. rewrite drop_0. apply (ipv4_of_inj (slice_bytes s)); [|done].
        split; [rewrite take_length; lia|]. left. unfold slice_bytes. f_equal. lia.
      * destruct (decide (length (arr s) = 16)) as [E16|E16]; [|done]. rewrite decide_True by lia. intros [= <-].
        rewrite take_ge by (rewrite drop_length; lia). destruct Hsl as [Hs|Hs]; [right; done|]. left.
        apply (ipv4_of_inj (slice_bytes s)); [|done]. unfold to4 in E. rewrite decide_False in E by lia.
        destruct (decide _) as [[_ Ht]|]; [|done]. split; [rewrite drop_length; lia|]. right.
        rewrite app_assoc. change (replicate 10 x00 ++ [xff; xff]) with (replicate 10 x00 ++ [xff; xff]) in Ht.
        rewrite <- Ht, take_drop. unfold slice_bytes. rewrite Hs. apply take_ge. lia.
  - unfold new_ipv4. rewrite E. pose proof (proj1 (to4_none s Hw) E) as Hn. split_and!.
    + split; [done|]. intros _. by eexists.
    + split; [intros [w Hx]; done|]. intros ((a & Ha) & _). exfalso. apply (Hn a Ha).
    + intros a b Ha. exfalso. apply (Hn a Ha).
Qed.

(** LocalIP *)
Lemma loopback_ipv4 ip a : slice_wf ip -> ipv4_of (slice_bytes ip) a -> is_loopback ip = bool_decide (a !! 0 = Some (Nb 127)).
Proof.
  intros Hw Ha. unfold is_loopback. destruct (to4 ip) as [r|] eqn:E.
  2:{ exfalso. apply (proj1 (to4_none ip Hw) E a Ha). }
  destruct (to4_spec _ _ Hw E) as (H1 & H2 & H3). pose proof (ipv4_of_inj _ _ _ H1 Ha) as <-.
  unfold slice_bytes. rewrite lookup_take by lia. destruct (arr r !! 0) as [b|] eqn:Eb.
  - apply bool_decide_ext. naive_solver.
  - apply lookup_ge_None in Eb. lia.
Qed.
Lemma first_ipv4_spec ifs : Forall if_wf ifs ->
  match first_ipv4 ifs with
  | Some r => own_address ifs (slice_bytes r) /\ slen r = 4 /\ 4 <= length (arr r) /\ exists ip, IfNet ip ∈ ifs /\ to4 ip = Some r
  | None => Forall (fun j => forall b, ~ candidate j b) ifs
  end.
Proof.
  induction 1 as [|i ifs Hi _ IH]; [constructor|]. cbn [first_ipv4].
  assert ((forall b, ~ candidate i b) -> first_ipv4 (i :: ifs) = first_ipv4 ifs ->
     match first_ipv4 ifs with
  | Some r => own_address (i :: ifs) (slice_bytes r) /\ slen r = 4 /\ 4 <= length (arr r) /\ exists ip, IfNet ip ∈ i :: ifs /\ to4 ip = Some r
  | None => Forall (fun j => forall b, ~ candidate j b) (i :: ifs)
  end) as Hskip.
  { intros Hn _. destruct (first_ipv4 ifs) as [r|].
    - destruct IH as ((pre & j & post & -> & Hc & Hpre) & H1 & H2 & ip & H3 & H4). split.
      + exists (i :: pre), j, post. split; [done|]. split; [done|]. constructor; done.
      + split; [done|]. split; [done|]. exists ip. split; [set_solver|done].
    - constructor; done. }
  destruct i as [ip|].
  - cbn [if_wf] in Hi. destruct (to4 ip) as [r|] eqn:E.
    + destruct (to4_spec _ _ Hi E) as (H1 & H2 & H3). pose proof (loopback_ipv4 ip _ Hi H1) as Hlo.
      rewrite Hlo. case_bool_decide as Hb.
      * apply Hskip; [|cbn [first_ipv4]; rewrite Hlo; done].
        intros b (ip' & [= <-] & Hip & Hne). pose proof (ipv4_of_inj _ _ _ H1 Hip) as <-. done.
      * split; [|split; [done|split; [done|exists ip; split; [set_solver|done]]]].
        exists [], (IfNet ip), ifs. split; [done|]. split; [|constructor]. exists ip. done.
    + assert (forall b, ~ candidate (IfNet ip) b) as Hn.
      { intros b (ip' & [= <-] & Hip & _). apply (proj1 (to4_none ip Hi) E b Hip). }
      destruct (is_loopback ip) eqn:El; apply Hskip; try done; cbn [first_ipv4]; rewrite El; [done|rewrite E; done].
  - apply Hskip; [|done]. intros b (ip' & H1 & _). done.
Qed.
Lemma own_address_unique ifs a b : own_address ifs a -> own_address ifs b -> a = b.
Proof.
  intros (pre & i & post & -> & Hi & Hp). revert Hp. induction pre as [|j pre IH]; intros Hp (pre' & i' & post' & E & Hi' & Hp').
  - destruct pre' as [|k pre']; cbn in E; simplify_eq.
    + destruct Hi as (ip & -> & H1 & _), Hi' as (ip' & [= <-] & H2 & _). apply (ipv4_of_inj _ _ _ H1 H2).
    + inversion Hp' as [|? ? Hk _]; subst. exfalso. apply (Hk a Hi).
  - inversion Hp as [|? ? Hj Hp2]; subst. destruct pre' as [|k pre']; cbn in E; simplify_eq.
    + exfalso. apply (Hj b Hi').
    + inversion Hp' as [|? ? Hk Hp3]; subst. apply IH; [done|]. exists pre', i', post'. done.
Qed.
Lemma own_first ifs a : Forall if_wf ifs -> own_address ifs a ->
  exists r, first_ipv4 ifs = Some r /\ slice_bytes r = a /\ slen r = 4 /\ 4 <= length (arr r).
Proof.
  intros Hw Ha. pose proof (first_ipv4_spec ifs Hw) as H. destruct (first_ipv4 ifs) as [r|].
  - destruct H as (H1 & H2 & H3 & _). exists r. split; [done|]. split; [|done]. apply (own_address_unique ifs); done.
  - destruct Ha as (pre & i & post & -> & Hc & _). apply Forall_app in H as [_ H]. inversion H as [|? ? Hx _]; subst. exfalso. apply (Hx _ Hc).
Qed.
Lemma index_four r : slen r = 4 -> 4 <= length (arr r) ->
  (let! a := sl_index r 0 in let! b := sl_index r 1 in let! c := sl_index r 2 in let! d := sl_index r 3 in Ok [a; b; c; d])
  = Ok (slice_bytes r).
Proof.
  intros Hl Hc. unfold slice_bytes, sl_index. rewrite Hl. destruct (arr r) as [|a [|b [|c [|d l]]]]; cbn [length] in Hc; try lia. reflexivity.
Qed.
(** the daemon's own address, as StartDownload extracts it *)
Lemma C66_own_lemma ifs a : Forall (fun i => match i with IfNet ip => length (arr ip) = slen ip | IfOther => True end) ifs ->
  own_address ifs a -> exists r, local_ip (Some ifs) = Ok (Some r) /\ new_ipv4 r = Ok a.
Proof.
  intros Hx Ha. assert (Forall if_wf ifs) as Hw.
  { eapply Forall_impl; [exact Hx|]. intros [ip|]; [|done]. cbn. unfold slice_wf. lia. }
  pose proof (first_ipv4_spec ifs Hw) as H. destruct (own_first ifs a Hw Ha) as (r & Hr & Hb & H1 & H2).
  exists r. cbn [local_ip]. rewrite Hr in *. split; [done|]. destruct H as (_ & _ & _ & ip & Hin & Ht).
  rewrite Forall_forall in Hx. specialize (Hx _ Hin). cbn in Hx.
  assert (r = exact_slice a) as ->.
  { assert (length (arr r) = 4) as H4.
    { unfold to4 in Ht. destruct (decide (slen ip = 4)); [simplify_eq; lia|]. destruct (decide _) as [[E _]|]; [|done].
      simplify_eq. cbn [arr]. rewrite drop_length. lia. }
    destruct r as [ar n]. cbn [slen arr] in *. unfold slice_bytes in Hb. cbn [slen arr] in Hb. subst n.
    rewrite take_ge in Hb by lia. subst ar. unfold exact_slice. rewrite H4. done. }
  apply new_ipv4_exact. split; [|left; done]. unfold exact_slice in H1. done.
Qed.
