(** Proofs about readers and chunks (C23-C25, C73). *)
From Verif Require Export ChunkSpec.
From Verif Require Import HashProofs.
From Coq Require Import ZifyBool ZifyNat ZifyN.
Ltac Zify.zify_post_hook ::= Z.div_mod_to_equations.

(** A section over chunk [i] of [l] standing at position [pos]. *)
Definition sec_at (cs i : nat) (pos : nat) : section :=
  mkSection (Z.of_nat (i * cs)) (Z.of_nat (i * cs + pos)) (Z.of_nat (i * cs + cs)).

Lemma chunk_drop l cs i pos n : pos <= cs ->
  take (Nat.min n (cs - pos)) (drop (i * cs + pos) l) = take (Nat.min n (cs - pos)) (drop pos (chunk_bytes l cs i)).
Proof.
  intros H. unfold chunk_bytes. rewrite skipn_firstn_comm, drop_drop, take_take.
  f_equal. lia.
Qed.
Lemma sec_read_at l cs i pos n : pos <= cs ->
  sec_read (FRegular l) (sec_at cs i pos) n =
  let d := take (Nat.min n (cs - pos)) (drop pos (chunk_bytes l cs i)) in
  ((d, if (cs <=? pos)%nat || (length d <? Nat.min n (cs - pos))%nat then Some EOF else None),
   sec_at cs i (pos + length d)).
Proof.
  intros Hp. unfold sec_read, sec_at. cbn [s_limit s_off s_base].
  destruct (Nat.leb_spec cs pos) as [H|H].
  - rewrite (proj2 (Z.leb_le _ _)) by lia. cbn zeta.
    assert (cs - pos = 0) as -> by lia. rewrite Nat.min_0_r. cbn [take length]. rewrite Nat.add_0_r. done.
  - rewrite (proj2 (Z.leb_gt _ _)) by lia.
    set (m := if (_ <? _)%Z then _ else _).
    assert (m = Nat.min n (cs - pos)) as ->.
    { subst m. destruct (Z.ltb_spec (Z.of_nat (i * cs + cs) - Z.of_nat (i * cs + pos)) (Z.of_nat n)); lia. }
    unfold read_at. rewrite (proj2 (Z.ltb_ge _ _)) by lia.
    rewrite Nat2Z.id. rewrite chunk_drop by lia. cbn zeta. cbn [orb].
    f_equal. f_equal. lia.
Qed.
Lemma d_len l cs i pos n : pos <= length (chunk_bytes l cs i) ->
  length (take (Nat.min n (cs - pos)) (drop pos (chunk_bytes l cs i))) =
  Nat.min n (length (chunk_bytes l cs i) - pos) /\ length (chunk_bytes l cs i) <= cs.
Proof.
  intros H. assert (length (chunk_bytes l cs i) <= cs) by (unfold chunk_bytes; rewrite take_length; lia).
  rewrite take_length, drop_length. lia.
Qed.

Lemma cr_read_at l cs i pos n h sz : pos <= length (chunk_bytes l cs i) ->
  (Z.of_nat cs < 4294967296)%Z ->
  cr_read (FRegular l) (mkReader (sec_at cs i pos) h sz) n =
  let d := take (Nat.min n (cs - pos)) (drop pos (chunk_bytes l cs i)) in
  Ok ((d, N.of_nat pos, if (cs <=? pos)%nat || (length d <? Nat.min n (cs - pos))%nat then Some EOF else None),
      mkReader (sec_at cs i (pos + length d)) h sz).
Proof.
  intros Hp Hcs. destruct (d_len l cs i pos n Hp) as [_ Hlen].
  unfold cr_read, cr_offset. cbn [cr_sec sec_at s_off s_base cr_hash cr_size].
  replace (Z.of_nat (i * cs + pos) - Z.of_nat (i * cs))%Z with (Z.of_nat pos) by lia.
  rewrite (proj2 (Z.ltb_ge _ _)) by lia. cbn [rbind].
  rewrite sec_read_at by lia. cbn zeta.
  unfold u32_of_int. rewrite Z.mod_small by lia.
  replace (Z.to_N (Z.of_nat pos)) with (N.of_nat pos) by lia. done.
Qed.
Lemma read_all_at l cs i h sz ns : (Z.of_nat cs < 4294967296)%Z -> forall pos, pos <= length (chunk_bytes l cs i) ->
  read_all (FRegular l) (mkReader (sec_at cs i pos) h sz) ns = Ok (expected_reads (chunk_bytes l cs i) cs pos ns).
Proof.
  intros Hcs. induction ns as [|n ns IH]; intros pos Hp; [done|].
  cbn [read_all expected_reads]. rewrite cr_read_at by done. cbn zeta. cbn [rbind].
  destruct (d_len l cs i pos n Hp) as [Hd Hlen].
  rewrite IH by lia. done.
Qed.

Lemma ncr_loop_at l cs i fuel : forall pos acc, pos <= length (chunk_bytes l cs i) ->
  length (chunk_bytes l cs i) - pos < fuel ->
  exists s, ncr_loop fuel (FRegular l) (sec_at cs i pos) acc = Some (acc ++ drop pos (chunk_bytes l cs i), s)
    /\ s_base s = Z.of_nat (i * cs) /\ s_limit s = Z.of_nat (i * cs + cs).
Proof.
  induction fuel as [|fuel IH]; intros pos acc Hp Hf; [lia|].
  destruct (d_len l cs i pos 4096 Hp) as [Hd Hlen].
  cbn [ncr_loop]. rewrite sec_read_at by lia. cbn zeta.
  set (d := take (Nat.min 4096 (cs - pos)) (drop pos (chunk_bytes l cs i))) in *.
  destruct ((cs <=? pos)%nat || (length d <? Nat.min 4096 (cs - pos))%nat) eqn:E.
  - rewrite decide_True by done. exists (sec_at cs i (pos + length d)). split; [|by split]. f_equal. f_equal. f_equal.
    subst d. apply orb_true_iff in E. apply take_ge. rewrite drop_length.
    destruct E as [E|E]; lia.
  - rewrite decide_False by done. apply orb_false_iff in E as [E1 E2].
    destruct (IH (pos + length d) (acc ++ d)) as (s & Hs & H1 & H2); [lia|lia|].
    exists s. split; [|done]. rewrite Hs. f_equal. f_equal. rewrite <- app_assoc. f_equal.
    rewrite <- drop_drop. subst d.
    set (m := Nat.min 4096 (cs - pos)). rewrite take_length.
    destruct (decide (m <= length (drop pos (chunk_bytes l cs i)))).
    + rewrite Nat.min_l by done. rewrite take_drop. done.
    + rewrite Nat.min_r by lia. rewrite (take_ge _ m) by lia. rewrite (drop_ge (drop pos _)) by lia. rewrite app_nil_r. done.
Qed.

Lemma chunk_section_at cs i : (Z.of_nat i * Z.of_nat cs + Z.of_nat cs < 9223372036854775808)%Z ->
  chunk_section (Z.of_nat i) (Z.of_nat cs) = sec_at cs i 0.
Proof.
  intros H. unfold chunk_section, new_section, sec_at.
  rewrite (wrap64_small (Z.of_nat i * Z.of_nat cs)) by lia.
  rewrite wrap64_small by lia. f_equal; lia.
Qed.

Lemma C23_lemma contents cs i fuel :
  (Z.of_nat cs < 4294967296)%Z -> (Z.of_nat i < 65536)%Z ->
  length (chunk_bytes contents cs i) < fuel ->
  exists c, new_chunk_reader fuel (FRegular contents) (chunk_section (Z.of_nat i) (Z.of_nat cs)) = Some c
    /\ cr_size c = Z.of_nat (length (chunk_bytes contents cs i))
    /\ cr_hash c = sha1 (chunk_bytes contents cs i)
    /\ forall ns, read_all (FRegular contents) c ns = Ok (expected_reads (chunk_bytes contents cs i) cs 0 ns).
Proof.
  intros Hcs Hi Hf. rewrite chunk_section_at by nia.
  unfold new_chunk_reader.
  destruct (ncr_loop_at contents cs i fuel 0 []) as (s & Hs & Hb & Hl); [lia|lia|].
  rewrite Hs. cbn [app]. rewrite drop_0. eexists. split; [reflexivity|].
  cbn [cr_size cr_hash]. split; [done|]. split.
  - unfold from_slice. apply gocopy_full. rewrite sha1_length. done.
  - intros ns.
    assert (sec_rewind s = sec_at cs i 0) as ->.
    { unfold sec_rewind, sec_at. rewrite Hb, Hl. f_equal; lia. }
    apply read_all_at; [done|lia].
Qed.

(** consequences of [expected_reads] *)
Lemma expected_concat bytes cs ns : length bytes <= cs -> forall pos, pos <= length bytes ->
  concat (map (fun r => r.1.1) (expected_reads bytes cs pos ns)) =
  take (foldr Nat.add 0 ns) (drop pos bytes).
Proof.
  intros Hb. induction ns as [|n ns IH]; intros pos Hp; [done|].
  cbn [expected_reads map concat foldr fst]. 
  assert (take (Nat.min n (cs - pos)) (drop pos bytes) = take n (drop pos bytes)) as ->.
  { destruct (decide (n <= cs - pos)); [f_equal; lia|].
    rewrite !take_ge; [done| |]; rewrite drop_length; lia. }
  rewrite IH by (rewrite take_length, drop_length; lia).
  rewrite <- drop_drop, take_length.
  set (r := drop pos bytes). destruct (decide (n <= length r)).
  - rewrite Nat.min_l by done. rewrite <- (take_drop n r) at 3.
    rewrite take_app_ge by (rewrite take_length; lia). f_equal. rewrite take_length.
    f_equal. lia.
  - rewrite (take_ge r n) by lia. rewrite Nat.min_r by lia. rewrite (drop_ge r) by lia.
    rewrite take_nil, app_nil_r. rewrite take_ge by lia. done.
Qed.
Lemma C23_concat_lemma contents cs i ns : (Z.of_nat cs < 4294967296)%Z -> (Z.of_nat i < 65536)%Z ->
  forall fuel c, new_chunk_reader fuel (FRegular contents) (chunk_section (Z.of_nat i) (Z.of_nat cs)) = Some c ->
  exists rs, read_all (FRegular contents) c ns = Ok rs
    /\ concat (map (fun r => r.1.1) rs) = take (foldr Nat.add 0 ns) (chunk_bytes contents cs i).
Proof.
  intros Hcs Hi fuel c Hc.
  assert (Hmono : forall f1 f2 f s acc r, f1 <= f2 -> ncr_loop f1 f s acc = Some r -> ncr_loop f2 f s acc = Some r).
  { induction f1 as [|f1 IH]; intros f2 f s acc r Hle; [done|].
    destruct f2 as [|f2]; [lia|]. cbn [ncr_loop]. destruct (sec_read f s 4096) as [[d e] s'].
    destruct (decide (e = Some EOF)); [done|]. apply IH; lia. }
  set (F := fuel + S (length (chunk_bytes contents cs i))).
  destruct (C23_lemma contents cs i F Hcs Hi) as (c' & Hc' & _ & _ & Hr); [lia|].
  assert (c' = c) as ->.
  { unfold new_chunk_reader in *.
    destruct (ncr_loop fuel _ _ _) as [[a s]|] eqn:E; [|done].
    rewrite (Hmono fuel F _ _ _ _ ltac:(lia) E) in Hc'. congruence. }
  eexists. split; [apply Hr|]. rewrite expected_concat; [|unfold chunk_bytes; rewrite take_length; lia|lia]. done.
Qed.

(** *** C73: the hashing loop never ends on a file whose reads fail *)
Lemma ncr_broken fuel s acc : (s_off s < s_limit s)%Z -> (0 <= s_off s)%Z -> ncr_loop fuel FBroken s acc = None.
Proof.
  revert acc. induction fuel as [|fuel IH]; intros acc Hl H0; [done|].
  cbn [ncr_loop]. unfold sec_read. rewrite (proj2 (Z.leb_gt _ _)) by lia.
  set (m := if (_ <? _)%Z then _ else _).
  assert (m <> 0) as Hm by (subst m; destruct (Z.ltb_spec (s_limit s - s_off s) (Z.of_nat 4096)); lia).
  unfold read_at. rewrite (proj2 (Z.ltb_ge _ _)) by lia.
  rewrite (proj2 (Nat.eqb_neq _ _)) by done.
  rewrite decide_False by done. cbn [length]. rewrite Z.add_0_r.
  destruct s as [b o l]. cbn [s_base s_off s_limit] in *. apply IH; done.
Qed.
Lemma C73_lemma cs i fuel : 0 < cs -> (Z.of_nat cs < 4294967296)%Z -> (Z.of_nat i < 65536)%Z ->
  new_chunk_reader fuel FBroken (chunk_section (Z.of_nat i) (Z.of_nat cs)) = None.
Proof.
  intros H0 Hcs Hi. rewrite chunk_section_at by nia. unfold new_chunk_reader.
  rewrite ncr_broken; [done|unfold sec_at; cbn [s_off s_limit]; lia|unfold sec_at; cbn [s_off]; lia].
Qed.

(** *** C24 *)
Lemma chunk_count_ceil size cs : (0 <= size)%Z -> (0 < cs)%Z ->
  chunk_count size cs = Ok ((size + cs - 1) / cs)%Z.
Proof.
  intros Hs Hc. unfold chunk_count. rewrite (proj2 (Z.eqb_neq _ _)) by lia.
  rewrite Z.quot_div_nonneg, Z.rem_mod_nonneg by lia. f_equal.
  destruct (Z.eqb_spec (size mod cs) 0) as [E|E].
  - apply Z.div_unique with (r := (cs - 1)%Z); [lia|].
    pose proof (Z.div_mod size cs ltac:(lia)). lia.
  - pose proof (Z.mod_pos_bound size cs ltac:(lia)).
    apply Z.div_unique with (r := (size mod cs - 1)%Z); [lia|].
    pose proof (Z.div_mod size cs ltac:(lia)). lia.
Qed.
Lemma concat_chunks cs l : 0 < cs -> forall n k, length l <= (k + n) * cs ->
  concat (map (chunk_bytes l cs) (seq k n)) = drop (k * cs) l.
Proof.
  intros Hc. induction n as [|n IH]; intros k Hl.
  - simpl. symmetry. apply drop_ge. lia.
  - cbn [seq map concat]. rewrite IH by nia. unfold chunk_bytes.
    replace (S k * cs) with (k * cs + cs) by lia. rewrite <- drop_drop, take_drop. done.
Qed.
Lemma C24_lemma contents cs : 0 < cs ->
  exists n, chunk_count (Z.of_nat (length contents)) (Z.of_nat cs) = Ok (Z.of_nat n)
    /\ n = (length contents + cs - 1) / cs
    /\ concat (map (chunk_bytes contents cs) (seq 0 n)) = contents
    /\ (forall i, i < n -> chunk_bytes contents cs i <> [])
    /\ (forall i, S i < n -> length (chunk_bytes contents cs i) = cs)
    /\ (forall i, n <= i -> chunk_bytes contents cs i = []).
Proof.
  intros Hc. set (n := (length contents + cs - 1) / cs). exists n.
  assert (length contents <= n * cs /\ (n = 0 \/ (n - 1) * cs < length contents)) as [H1 H2].
  { subst n. pose proof (Nat.div_mod (length contents + cs - 1) cs ltac:(lia)) as E.
    pose proof (Nat.mod_upper_bound (length contents + cs - 1) cs ltac:(lia)).
    set (q := (length contents + cs - 1) / cs) in *. split; [nia|]. destruct q; [left; done|right]. nia. }
  split; [|split; [done|split; [|split; [|split]]]].
  - rewrite chunk_count_ceil by lia. f_equal. subst n.
    rewrite Nat2Z.inj_div. f_equal. lia.
  - rewrite concat_chunks by (simpl; lia). done.
  - intros i Hi E. apply (f_equal length) in E. unfold chunk_bytes in E.
    rewrite take_length, drop_length in E. cbn [length] in E.
    assert (i * cs < length contents) by nia. lia.
  - intros i Hi. unfold chunk_bytes. rewrite take_length, drop_length.
    assert (i * cs + cs <= (n - 1) * cs) by nia. lia.
  - intros i Hi. unfold chunk_bytes. rewrite drop_ge by nia. apply take_nil.
Qed.

(** *** C25 *)
Lemma hash_loop_ok ks : forall rest acc, length rest <= length ks ->
  hash_loop ks rest acc = Some (acc ++ rest).
Proof.
  induction ks as [|k ks IH]; intros rest acc Hl.
  - destruct rest; [|simpl in Hl; lia]. cbn. rewrite app_nil_r. done.
  - destruct rest as [|b rest]; [cbn; rewrite app_nil_r; done|].
    cbn [hash_loop]. set (r := b :: rest) in *.
    set (n := Nat.min 4096 (Nat.min (length r) (Nat.max 1 k))).
    rewrite IH.
    + rewrite <- app_assoc, take_drop. done.
    + rewrite drop_length. assert (1 <= n) by (subst n r; cbn [length]; lia). cbn [length] in *. lia.
Qed.
Lemma hash_loop_done ks : forall rest acc r, hash_loop ks rest acc = Some r -> r = acc ++ rest.
Proof.
  induction ks as [|k ks IH]; intros rest acc r.
  - destruct rest; cbn; [|done]. rewrite app_nil_r. congruence.
  - destruct rest as [|b rest]; [cbn; rewrite app_nil_r; congruence|].
    cbn [hash_loop]. intros H. apply IH in H. rewrite <- app_assoc, take_drop in H. done.
Qed.
Lemma C25_lemma ks contents r : hash_file ks (FRegular contents) = Some r -> r = Ok (sha1 contents).
Proof.
  unfold hash_file. destruct (hash_loop ks contents []) as [acc|] eqn:E; [|done].
  apply hash_loop_done in E. cbn [app] in E. subst acc. intros [= <-].
  unfold from_slice. rewrite gocopy_full; [done|]. rewrite sha1_length. done.
Qed.
Lemma C25_term_lemma ks contents : length contents <= length ks ->
  hash_file ks (FRegular contents) = Some (Ok (sha1 contents)).
Proof.
  intros H. unfold hash_file. rewrite hash_loop_ok by done. cbn [app].
  unfold from_slice. rewrite gocopy_full; [done|]. rewrite sha1_length. done.
Qed.
Lemma C73_ok_lemma contents cs i : (Z.of_nat cs < 4294967296)%Z -> (Z.of_nat i < 65536)%Z ->
  exists fuel c, new_chunk_reader fuel (FRegular contents) (chunk_section (Z.of_nat i) (Z.of_nat cs)) = Some c.
Proof.
  intros Hcs Hi. exists (S (length (chunk_bytes contents cs i))).
  destruct (C23_lemma contents cs i _ Hcs Hi (Nat.lt_succ_diag_r _)) as (c & Hc & _). exists c. exact Hc.
Qed.
