(** Bitsets with their backing arrays (aliasing view), for Copy (C13).
    A heap maps addresses to backing arrays ([]uint64 storage up to capacity); a
    Go slice is (address, length) with offset 0 and capacity the array length.
    Only the part of Bitset that touches b.data is re-modelled here. *)
From Verif Require Export BitsetProofs3.
From Coq Require Import ZifyBool ZifyNat ZifyN.
Ltac Zify.zify_post_hook ::= Z.div_mod_to_equations.

Notation heap := (gmap nat (list N)).
(** bitset.go:16-19: data (a slice header) and size. A nil slice is length 0,
    capacity 0: modelled as a fresh empty array. *)
Record hbitset := mkH { hptr : nat; hlen : nat; hsize : Z }.

Definition harr (h : heap) (b : hbitset) : list N := default [] (h !! hptr b).
(** The value the slice denotes. *)
Definition hview (h : heap) (b : hbitset) : bitset := mkBitset (take (hlen b) (harr h b)) (hsize b).

(** Go's append(data, zeros...): in place when the capacity suffices, otherwise
    a new array whose capacity is chosen by the runtime ([newcap], any function
    returning at least the needed length). *)
Definition happend_zeros (newcap : nat -> nat) (h : heap) (b : hbitset) (diff : nat) : heap * hbitset :=
  let need := hlen b + diff in
  let a := harr h b in
  if (need <=? length a)
  then (<[hptr b := take (hlen b) a ++ replicate diff 0%N ++ drop need a]> h, mkH (hptr b) need (hsize b))
  else let p := fresh (dom h) in
       (<[p := take (hlen b) a ++ replicate diff 0%N ++ replicate (Nat.max (newcap need) need - need) 0%N]> h,
        mkH p need (hsize b)).

(** writing one word through the slice *)
Definition hwrite (h : heap) (b : hbitset) (i : nat) (v : N) : heap :=
  <[hptr b := <[i := v]> (harr h b)]> h.

(** bitset.go:67-76 Set on the heap *)
Definition hset (newcap : nat -> nat) (h : heap) (b : hbitset) (x : N) : res (heap * hbitset) :=
  let offset := Z.quot (int_of_u64 x) 64 in
  let len := Z.of_nat (hlen b) in
  let '(h1, b1) := if (len - 1 <? offset)%Z
                   then happend_zeros newcap h b (Z.to_nat (offset - (len - 1)))
                   else (h, b) in
  match nth_N (take (hlen b1) (harr h1 b1)) (x / 64) with
  | Some w => Ok (hwrite h1 b1 (N.to_nat (x / 64)) (N.lor w (N.shiftl 1 (x mod 64))),
                  mkH (hptr b1) (hlen b1) (Z.max (hsize b) (wrap64 (int_of_u64 x + 1))))
  | None => Panic "index out of range"
  end.

(** bitset.go:113-120 Unset on the heap *)
Definition hunset (h : heap) (b : hbitset) (x : N) : res (heap * hbitset) :=
  let offset := Z.quot (int_of_u64 x) 64 in
  if (Z.of_nat (hlen b) <=? offset)%Z then Ok (h, b)
  else match nth_Z (take (hlen b) (harr h b)) offset with
       | Some w => Ok (hwrite h b (Z.to_nat offset) ((w + p64 - N.shiftl 1 (x mod 64)) mod p64)%N, b)
       | None => Panic "index out of range"
       end.

(** bitset.go:79-92 Fill on the heap: writes words of the slice in place. *)
Definition hfill (h : heap) (b : hbitset) : res (heap * hbitset) :=
  let! b' := bfill (hview h b) in
  Ok (<[hptr b := bdata b' ++ drop (hlen b) (harr h b)]> h, b).

(** bitset.go:275-280 Copy: make([]uint64, len, cap) then copy. *)
Definition hcopy (h : heap) (b : hbitset) : heap * hbitset :=
  let a := harr h b in
  let p := fresh (dom h) in
  (<[p := take (hlen b) a ++ replicate (length a - hlen b) 0%N]> h, mkH p (hlen b) (hsize b)).

(** A copy that shares the backing array (what Copy would be without the copy
    call); used to show that the isolation theorem is not trivial. *)
Definition hshallow (h : heap) (b : hbitset) : heap * hbitset := (h, b).

(** Operations on one of two bitsets (false = first, true = second). *)
Definition hop (newcap : nat -> nat) (o : bop) (h : heap) (b : hbitset) : res (heap * hbitset) :=
  match o with BSet x => hset newcap h b x | BUnset x => hunset h b x | BFill => hfill h b end.
Fixpoint hrun (newcap : nat -> nat) (os : list (bool * bop)) (h : heap) (a b : hbitset)
  : res (heap * hbitset * hbitset) :=
  match os with
  | [] => Ok (h, a, b)
  | (false, o) :: os' => let! r := hop newcap o h a in hrun newcap os' r.1 r.2 b
  | (true, o) :: os' => let! r := hop newcap o h b in hrun newcap os' r.1 a r.2
  end.

Definition ops_of (side : bool) (os : list (bool * bop)) : list bop :=
  map snd (filter (fun p => p.1 = side) os).

(** ** Proofs *)
(** A slice is valid: its array exists and has room for its length. *)
Definition hvalid (h : heap) (b : hbitset) : Prop :=
  exists a, h !! hptr b = Some a /\ hlen b <= length a.

Lemma hop_step newcap o h b c :
  hvalid h b -> hvalid h c -> hptr b <> hptr c ->
  match hop newcap o h b with
  | Ok (h', b') => run_op o (hview h b) = Ok (hview h' b') /\ hvalid h' b' /\ hvalid h' c /\
                   hptr b' <> hptr c /\ hview h' c = hview h c
  | Err e => run_op o (hview h b) = Err e
  | Panic p => run_op o (hview h b) = Panic p
  end.
Proof.
  intros (a & Ha & Hlen) (ac & Hac & Hlenc) Hne.
  assert (harr h b = a) as Harr by (unfold harr; rewrite Ha; done).
  assert (length (bdata (hview h b)) = hlen b) as Hvl.
  { cbn. rewrite Harr, take_length. lia. }
  assert (forall h' z, h' = <[hptr b := z]> h -> hvalid h' c /\ hview h' c = hview h c) as Hframe.
  { intros h' z ->. split.
    - exists ac. rewrite lookup_insert_ne by done. done.
    - unfold hview, harr. rewrite lookup_insert_ne by done. done. }
  destruct o as [x|x|]; cbn [hop run_op].
  - (* Set *)
    unfold hset, bset.
    rewrite Hvl. cbn [bsize hview].
    set (off := Z.quot (int_of_u64 x) 64).
    destruct (Z.ltb_spec (Z.of_nat (hlen b) - 1) off) as [Hgrow|Hno].
    + set (diff := Z.to_nat (off - (Z.of_nat (hlen b) - 1))).
      unfold happend_zeros. rewrite Harr. cbn [bdata hview].
      destruct (Nat.leb_spec (hlen b + diff) (length a)) as [Hin|Hout].
      * (* in place *)
        cbn [hlen hptr hsize]. unfold harr. cbn [hptr]. rewrite lookup_insert, Ha. cbn [from_option id].
        assert (take (hlen b + diff) (take (hlen b) a ++ replicate diff 0%N ++ drop (hlen b + diff) a)
                = take (hlen b) a ++ replicate diff 0%N) as Ht.
        { rewrite app_assoc. rewrite take_app_alt; [done|]. rewrite app_length, take_length, replicate_length. lia. }
        rewrite Ht.
        destruct (nth_N _ (x / 64)) as [w|] eqn:En; [|done].
        unfold hwrite, harr. cbn [hptr hlen hsize]. rewrite !lookup_insert. cbn [from_option id].
        rewrite insert_insert.
        assert (N.to_nat (x / 64) < hlen b + diff) as Hix.
        { rewrite nth_N_lookup in En. apply lookup_lt_Some in En.
          rewrite app_length, take_length, replicate_length in En. lia. }
        split_and!.
        -- unfold hview, harr. cbn [hptr hlen hsize]. rewrite lookup_insert. cbn [from_option id].
           do 2 f_equal.
           rewrite app_assoc, (insert_app_l (take (hlen b) a ++ replicate diff 0%N)) by (rewrite app_length, take_length, replicate_length; lia).
           rewrite take_app_alt; [done|]. rewrite insert_length, app_length, take_length, replicate_length. lia.
        -- eexists. cbn [hptr hlen]. rewrite lookup_insert. split; [done|].
           rewrite insert_length, !app_length, take_length, replicate_length, drop_length. lia.
        -- eapply Hframe; done.
        -- done.
        -- eapply Hframe; done.
      * (* reallocate *)
        set (p := fresh (dom h)).
        assert (p ∉ dom h) as Hp by apply is_fresh.
        assert (p <> hptr c) as Hpc. { intros ->. apply Hp. apply elem_of_dom. rewrite Hac. eauto. }
        set (need := hlen b + diff) in *.
        set (extra := replicate (Nat.max (newcap need) need - need) 0%N).
        cbn [hlen hptr hsize]. unfold harr. cbn [hptr]. rewrite lookup_insert, Ha. cbn [from_option id].
        assert (take need (take (hlen b) a ++ replicate diff 0%N ++ extra)
                = take (hlen b) a ++ replicate diff 0%N) as Ht.
        { rewrite app_assoc. rewrite take_app_alt; [done|]. rewrite app_length, take_length, replicate_length. lia. }
        rewrite Ht.
        destruct (nth_N _ (x / 64)) as [w|] eqn:En; [|done].
        unfold hwrite, harr. cbn [hptr hlen hsize]. rewrite !lookup_insert. cbn [from_option id].
        rewrite insert_insert.
        assert (N.to_nat (x / 64) < need) as Hix.
        { rewrite nth_N_lookup in En. apply lookup_lt_Some in En.
          rewrite app_length, take_length, replicate_length in En. lia. }
        split_and!.
        -- unfold hview, harr. cbn [hptr hlen hsize]. rewrite lookup_insert. cbn [from_option id].
           do 2 f_equal.
           rewrite app_assoc, (insert_app_l (take (hlen b) a ++ replicate diff 0%N)) by (rewrite app_length, take_length, replicate_length; lia).
           rewrite take_app_alt; [done|]. rewrite insert_length, app_length, take_length, replicate_length. lia.
        -- eexists. cbn [hptr hlen]. rewrite lookup_insert. split; [done|].
           rewrite insert_length, !app_length, take_length, replicate_length. lia.
        -- exists ac. rewrite lookup_insert_ne by done. done.
        -- done.
        -- unfold hview, harr. rewrite lookup_insert_ne by done. done.
    + cbn [bdata hview]. destruct (nth_N (take (hlen b) (harr h b)) (x / 64)) as [w|] eqn:En; [|done].
      unfold hwrite. rewrite Harr.
      split_and!.
      * unfold hview, harr. cbn [hptr hlen hsize]. rewrite lookup_insert. cbn [from_option id].
        do 2 f_equal. rewrite nth_N_lookup in En. apply lookup_lt_Some in En.
        rewrite Harr, take_length in En.
        rewrite <- (take_drop (hlen b) a) at 2. rewrite insert_app_l by (rewrite take_length; lia).
        rewrite take_app_alt; [done|]. rewrite insert_length, take_length. lia.
      * eexists. cbn [hptr hlen]. rewrite lookup_insert. split; [done|]. rewrite insert_length. done.
      * eapply Hframe; done.
      * done.
      * eapply Hframe; done.
  - (* Unset *)
    unfold hunset, bunset. rewrite Hvl. cbn [bdata bsize hview].
    set (off := Z.quot (int_of_u64 x) 64).
    destruct (Z.leb_spec (Z.of_nat (hlen b)) off) as [Hge|Hlt].
    + split_and!; [done|exists a; done|exists ac; done|done|done].
    + destruct (nth_Z _ off) as [w|] eqn:En; [|done].
      unfold hwrite. rewrite Harr in *. split_and!.
      * unfold hview, harr. rewrite lookup_insert. cbn [from_option id]. do 2 f_equal.
        unfold nth_Z in En. destruct (Z.ltb_spec off 0); [done|]. rewrite nth_N_lookup in En.
        apply lookup_lt_Some in En. rewrite take_length in En.
        rewrite <- (take_drop (hlen b) a) at 2. rewrite insert_app_l by (rewrite take_length; lia).
        rewrite take_app_alt; [done|]. rewrite insert_length, take_length. lia.
      * eexists. rewrite lookup_insert. split; [done|]. rewrite insert_length. done.
      * eapply Hframe; done.
      * done.
      * eapply Hframe; done.
  - (* Fill *)
    unfold hfill. destruct (bfill (hview h b)) as [b'| |] eqn:Ef; cbn [rbind]; [|done|done].
    assert (length (bdata b') = hlen b /\ bsize b' = hsize b) as [Hl' Hs'].
    { rewrite <- Hvl. clear -Ef. unfold bfill in Ef. destruct (_ =? _)%Z; [injection Ef as <-; done|].
      destruct (for_list _ _ _) as [d| |] eqn:E1; cbn [rbind] in Ef; [|done|done].
      destruct (last_mask _) as [m| |]; cbn [rbind] in Ef; [|done|done].
      unfold upd_Z in Ef at 1. destruct (nth_Z d _); cbn [rbind] in Ef; [|done]. injection Ef as <-.
      cbn [bdata bsize]. rewrite insert_length. split; [|done].
      revert d E1. generalize (bdata (hview h b)) at 1 2 as d0. generalize (seqZ 0 (Z.quot (bsize (hview h b) - 1) 64)) as l.
      induction l as [|i l IH]; intros d0 d E1; cbn [for_list] in E1; [congruence|].
      unfold upd_Z in E1 at 1. destruct (nth_Z d0 i); cbn [rbind] in E1; [|done].
      apply IH in E1. rewrite insert_length in E1. done. }
    rewrite Harr. split_and!.
    + unfold hview, harr. rewrite lookup_insert. cbn [from_option id].
      rewrite take_app_alt by done. destruct b'; cbn in *. subst. done.
    + eexists. rewrite lookup_insert. split; [done|]. rewrite app_length, drop_length. lia.
    + eapply Hframe; done.
    + done.
    + eapply Hframe; done.
Qed.

Lemma hrun_isolated newcap os : forall h a b h' a' b',
  hvalid h a -> hvalid h b -> hptr a <> hptr b ->
  hrun newcap os h a b = Ok (h', a', b') ->
  run_ops (ops_of false os) (hview h a) = Ok (hview h' a') /\
  run_ops (ops_of true os) (hview h b) = Ok (hview h' b').
Proof.
  induction os as [|[side o] os IH]; intros h a b h' a' b' Hva Hvb Hne E.
  - cbn in E. injection E as <- <- <-. done.
  - destruct side; cbn [hrun] in E.
    + pose proof (hop_step newcap o h b a Hvb Hva ltac:(done)) as Hs.
      destruct (hop newcap o h b) as [[h1 b1]| |]; cbn [rbind fst snd] in E; [|done|done].
      destruct Hs as (Hr & Hv1 & Hv2 & Hne1 & Hview).
      destruct (IH h1 a b1 h' a' b' Hv2 Hv1 ltac:(done) E) as [H1 H2]. rewrite Hview in H1.
      unfold ops_of in *. rewrite !filter_cons. cbn [fst].
      rewrite decide_False by done. rewrite decide_True by done. cbn [map snd run_ops].
      rewrite Hr. cbn [rbind]. done.
    + pose proof (hop_step newcap o h a b Hva Hvb ltac:(done)) as Hs.
      destruct (hop newcap o h a) as [[h1 a1]| |]; cbn [rbind fst snd] in E; [|done|done].
      destruct Hs as (Hr & Hv1 & Hv2 & Hne1 & Hview).
      destruct (IH h1 a1 b h' a' b' Hv1 Hv2 ltac:(done) E) as [H1 H2]. rewrite Hview in H2.
      unfold ops_of in *. rewrite !filter_cons. cbn [fst].
      rewrite decide_True by done. rewrite decide_False by done. cbn [map snd run_ops].
      rewrite Hr. cbn [rbind]. done.
Qed.

Lemma C13_lemma newcap os h a h1 c h' a' c' :
  hvalid h a -> hcopy h a = (h1, c) -> hrun newcap os h1 a c = Ok (h', a', c') ->
  hview h1 a = hview h a /\
  run_ops (ops_of false os) (hview h a) = Ok (hview h' a') /\
  run_ops (ops_of true os) (hview h a) = Ok (hview h' c').
Proof.
  intros Hv Hc Hr. unfold hcopy in Hc. injection Hc as <- <-.
  destruct Hv as (arr & Ha & Hl).
  assert (harr h a = arr) as Harr by (unfold harr; rewrite Ha; done).
  set (p := fresh (dom h)) in *. assert (p ∉ dom h) as Hp by apply is_fresh.
  assert (p <> hptr a) as Hpa. { intros E. apply Hp. rewrite E. apply elem_of_dom. rewrite Ha. eauto. }
  rewrite Harr in *.
  set (h1 := <[p := take (hlen a) arr ++ replicate (length arr - hlen a) 0%N]> h) in *.
  assert (hview h1 a = hview h a) as Hva.
  { unfold hview, harr, h1. rewrite lookup_insert_ne by done. done. }
  assert (hview h1 (mkH p (hlen a) (hsize a)) = hview h a) as Hvc.
  { unfold hview, harr, h1. cbn [hptr hlen hsize]. rewrite lookup_insert, Ha. cbn [from_option id]. f_equal.
    rewrite take_app_alt; [done|]. rewrite take_length. lia. }
  split; [done|]. rewrite <- Hva at 1. rewrite <- Hvc.
  eapply (hrun_isolated newcap os); [| | |exact Hr].
  - exists arr. unfold h1. rewrite lookup_insert_ne by done. done.
  - eexists. unfold h1. cbn [hptr hlen]. rewrite lookup_insert. split; [done|].
    rewrite app_length, take_length, replicate_length. lia.
  - cbn [hptr]. done.
Qed.

(** If each side's own operations are legal, no interleaving panics. *)
Lemma hrun_total newcap os : forall h a b ra rb,
  hvalid h a -> hvalid h b -> hptr a <> hptr b ->
  run_ops (ops_of false os) (hview h a) = Ok ra ->
  run_ops (ops_of true os) (hview h b) = Ok rb ->
  exists h' a' b', hrun newcap os h a b = Ok (h', a', b').
Proof.
  induction os as [|[side o] os IH]; intros h a b ra rb Hva Hvb Hne Ea Eb.
  - eauto.
  - unfold ops_of in *. rewrite !filter_cons in Ea, Eb. cbn [fst] in Ea, Eb. destruct side; cbn [hrun].
    + rewrite decide_False in Ea by done. rewrite decide_True in Eb by done. cbn [map snd run_ops] in Eb.
      pose proof (hop_step newcap o h b a Hvb Hva ltac:(done)) as Hs.
      destruct (hop newcap o h b) as [[h1 b1]| |]; cbn [rbind fst snd].
      * destruct Hs as (Hr & Hv1 & Hv2 & Hne1 & Hview). rewrite Hr in Eb. cbn [rbind] in Eb.
        rewrite <- Hview in Ea. apply (IH h1 a b1 ra rb); done.
      * rewrite Hs in Eb. done.
      * rewrite Hs in Eb. done.
    + rewrite decide_True in Ea by done. rewrite decide_False in Eb by done. cbn [map snd run_ops] in Ea.
      pose proof (hop_step newcap o h a b Hva Hvb ltac:(done)) as Hs.
      destruct (hop newcap o h a) as [[h1 a1]| |]; cbn [rbind fst snd].
      * destruct Hs as (Hr & Hv1 & Hv2 & Hne1 & Hview). rewrite Hr in Ea. cbn [rbind] in Ea.
        rewrite <- Hview in Eb. apply (IH h1 a1 b ra rb); done.
      * rewrite Hs in Ea. done.
      * rewrite Hs in Ea. done.
Qed.
