(** Proofs about the catalogue, part 7: downloads (C36-C38, C40-C42, C74). *)
From Verif Require Export CatalogueFaults.
From Coq Require Import ZifyBool ZifyNat ZifyN.
Ltac Zify.zify_post_hook ::= Z.div_mod_to_equations.

(** ** Reassembly *)
(** what a file looks like after the chunks in [S] have been saved over [old] *)
Definition holds_chunks (content old cur : list byte) (cs : nat) (S : nat -> Prop) : Prop :=
  (forall k, k < length content -> S (k / cs) -> cur !! k = content !! k)
  /\ (forall k, length content <= k -> cur !! k = old !! k).
Lemma holds_start content old cs : holds_chunks content old old cs (fun _ => False).
Proof. split; [done|done]. Qed.
Lemma holds_step content old cur new cs i S : 0 < cs -> holds_chunks content old cur cs S ->
  overlay cur (i * cs) (chunk_bytes content cs i) new ->
  holds_chunks content old new cs (fun j => j = i \/ S j).
Proof.
  intros Hcs [H1 H2] Ho.
  assert (length (chunk_bytes content cs i) = Nat.min cs (length content - i * cs)) as Hl
    by (unfold chunk_bytes; rewrite take_length, drop_length; done).
  split.
  - intros k Hk Hj. rewrite (Ho k). destruct (decide (i * cs <= k < i * cs + length (chunk_bytes content cs i))) as [Hin|Hin].
    + unfold chunk_bytes. rewrite lookup_take by lia. rewrite lookup_drop. f_equal. lia.
    + assert (k / cs <> i) as Hne.
      { intros <-. apply Hin. pose proof (Nat.div_mod_eq k cs). pose proof (Nat.mod_upper_bound k cs ltac:(lia)). lia. }
      destruct Hj as [?|Hj]; [done|]. specialize (H1 k Hk Hj).
      destruct (lookup_lt_is_Some_2 content k Hk) as [x Hx]. rewrite Hx in H1.
      rewrite decide_True by (eapply lookup_lt_Some; done). rewrite Hx. done.
  - intros k Hk. rewrite (Ho k). rewrite decide_False by lia.
    destruct (decide (k < length cur)) as [Hlt|Hge]; [apply H2; done|].
    rewrite <- (H2 k Hk). rewrite (lookup_ge_None_2 cur k) by lia.
    destruct (decide (chunk_bytes content cs i = [])) as [He|Hne].
    + rewrite decide_False by naive_solver. done.
    + assert (length (chunk_bytes content cs i) <> 0) by (destruct (chunk_bytes content cs i); done).
      rewrite decide_False by lia. done.
Qed.
Lemma holds_all content old cur cs (S : nat -> Prop) : 0 < cs ->
  (forall i, i < (length content + cs - 1) / cs -> S i) -> holds_chunks content old cur cs S ->
  cur = content ++ drop (length content) old.
Proof.
  intros Hcs Hall [H1 H2]. apply list_eq. intros k. destruct (decide (k < length content)) as [Hk|Hk].
  - rewrite lookup_app_l by done. apply H1; [done|]. apply Hall.
    apply Nat.div_lt_upper_bound; [lia|]. pose proof (Nat.div_mod_eq (length content + cs - 1) cs).
    pose proof (Nat.mod_upper_bound (length content + cs - 1) cs ltac:(lia)). lia.
  - rewrite lookup_app_r by lia. rewrite lookup_drop. rewrite H2 by lia. f_equal. lia.
Qed.

Lemma parent_clean p : clean_abs p -> clean_abs (parent p).
Proof.
  intros (cs & Hcs & ->). destruct cs as [|c0 cs0] eqn:E.
  - exists []. done.
  - destruct (exists_last (l := c0 :: cs0)) as (l & c & El); [done|]. rewrite El in *.
    apply Forall_app in Hcs as [Hl Hc]. inversion Hc; subst. rewrite parent_render by done. exists l. done.
Qed.
Lemma parent_ne p : clean_abs p -> p <> [slash] -> parent p <> p.
Proof.
  intros (cs & Hcs & ->) Hne E. destruct cs as [|c0 cs0] eqn:Ec; [done|].
  destruct (exists_last (l := c0 :: cs0)) as (l & c & El); [done|]. rewrite El in *.
  apply Forall_app in Hcs as [Hl Hc]. inversion Hc; subst. rewrite parent_render in E by done.
  apply render_inj in E; [|done|apply Forall_app; done]. apply (f_equal length) in E. rewrite app_length in E. cbn in E. lia.
Qed.
Lemma synced_entry_clean c f A h a : synced c f A -> A !! h = Some a -> clean_abs (a_path a).
Proof.
  intros H Ha. pose proof (sy_ent _ _ _ H h) as He. rewrite Ha in He. destruct (c_index c !! h); [|done]. apply He.
Qed.
(** a directory outside the catalogue directory is not below it *)
Lemma sy_dir_outside c f A d : synced c f A -> clean_abs d -> f !! d = Some NDir -> d <> c_dir c -> parent d <> c_dir c.
Proof.
  intros H Hd Hf Hne Hp. destruct (child_name (c_dir c) d (sy_dir _ _ _ H) Hd Hp Hne) as (n & Hn & ->).
  apply (sy_nodir _ _ _ H n Hn). done.
Qed.

Lemma saves_ok cwd dir dl h cs content : 0 < cs -> forall is A c f a (S : nat -> Prop) old,
  reached cwd dir dl A c f -> A !! h = Some a -> a_chunk a = Z.of_nat cs ->
  can_write f (a_path a) -> parent (a_path a) <> dir ->
  Forall (fun i => (N.of_nat i < 65536)%N) is ->
  holds_chunks content old (default [] (file_at f (a_path a))) cs S ->
  exists c' f' A', saves cwd c f h cs content is = Some (c', f') /\ reached cwd dir dl A' c' f'
    /\ A' !! h = Some (foldl hold a (map N.of_nat is))
    /\ can_write f' (a_path a)
    /\ (is <> [] -> exists new, file_at f' (a_path a) = Some new)
    /\ holds_chunks content old (default [] (file_at f' (a_path a))) cs (fun j => j ∈ is \/ S j).
Proof.
  intros Hcs. induction is as [|i is IH]; intros A c f a S old H Ha Hc Hw Hpar Hi Hh; cbn [saves map foldl].
  - exists c, f, A. split_and!; try done. destruct Hh as [H1 H2]. split; [|done].
    intros k Hk [?|?]; [set_solver|auto].
  - inversion Hi as [|? ? Hi1 Hi2]; subst.
    pose proof (reached_synced _ _ _ _ _ _ H) as (Hcwd & Hs & Hd & Hdl).
    pose proof (synced_entry_clean _ _ _ _ _ Hs Ha) as Hcl.
    assert (allowed cwd dir dl A f (CSave h (N.of_nat i) (chunk_bytes content cs i))) as Hal.
    { split; [done|]. exists a. done. }
    destruct (reached_call _ _ _ _ _ _ _ H Hal) as (c1 & f1 & A1 & ans & Hrun & Hspec & Hre).
    rewrite Hrun. cbn [aspec] in Hspec. rewrite Ha in Hspec.
    destruct Hspec as [(_ & -> & -> & new & Hov & Hsu)|(Hnw & _)]; [|done].
    replace (N.to_nat (N.of_nat i) * Z.to_nat (a_chunk a)) with (i * cs) in Hov by (rewrite Hc; lia).
    assert (file_at f1 (a_path a) = Some new) as Hfa.
    { unfold file_at. rewrite Hsu by done. rewrite lookup_insert. done. }
    assert (a_path a <> [slash]) as Hroot.
    { intros E. destruct Hw as [Hw1 Hw2]. rewrite E in *. apply Hw2. exact Hw1. }
    assert (can_write f1 (a_path a)) as Hw1.
    { split.
      - rewrite Hsu.
        + rewrite lookup_insert_ne by (apply not_eq_sym, parent_ne; done). apply Hw.
        + subst dir. apply (sy_dir_outside c f A); [done|apply parent_clean; done|apply Hw|done].
      - rewrite Hsu by done. rewrite lookup_insert. done. }
    destruct (IH (<[h := hold a (N.of_nat i)]> A) c1 f1 (hold a (N.of_nat i)) (fun j => j = i \/ S j) old) as (c' & f' & A' & E1 & E2 & E3 & E4 & E5 & E6).
    + done.
    + apply lookup_insert.
    + done.
    + done.
    + done.
    + done.
    + cbn [hold a_path]. rewrite Hfa. cbn [default]. apply (holds_step content old (default [] (file_at f (a_path a)))); done.
    + cbn [hold a_path] in *. exists c', f', A'. split; [done|]. split; [done|]. split; [done|]. split; [done|]. split.
      * intros _. destruct is as [|i2 is2]; [|apply E5; done]. cbn [saves] in E1. simplify_eq. eauto.
      * destruct E6 as [G1 G2]. split; [|done]. intros k Hk Hj. apply G1; [done|]. set_solver.
Qed.
Lemma foldl_hold_held is a : a_held (foldl hold a is) = list_to_set is ∪ a_held a.
Proof. revert a; induction is as [|i is IH]; intros a; cbn [foldl list_to_set]; [set_solver|]. rewrite IH. cbn [hold a_held]. set_solver. Qed.
Lemma foldl_hold_count is a : Forall (fun i => (Z.of_N i < a_count a)%Z) is -> a_count (foldl hold a is) = a_count a.
Proof.
  revert a; induction is as [|i is IH]; intros a H; cbn [foldl]; [done|]. inversion H; subst.
  assert (a_count (hold a i) = a_count a) as E by (cbn [hold a_count]; lia).
  rewrite IH; [done|]. rewrite E. done.
Qed.

Lemma C36_lemma cwd dir dl A c f h a cs content is : reached cwd dir dl A c f -> A !! h = Some a ->
  0 < cs -> a_chunk a = Z.of_nat cs -> a_held a = ∅ ->
  a_count a = Z.of_nat ((length content + cs - 1) / cs) -> (a_count a <= 65536)%Z ->
  can_write f (a_path a) -> parent (a_path a) <> dir ->
  Forall (fun i => i < (length content + cs - 1) / cs) is ->
  exists c' f', saves cwd c f h cs content is = Some (c', f')
    /\ (exists c2, crun cwd c' f' (CComplete h) =
         Some (c2, f', ABool (bool_decide (Forall (fun i => i ∈ is) (seq 0 ((length content + cs - 1) / cs))))))
    /\ (content <> [] -> Forall (fun i => i ∈ is) (seq 0 ((length content + cs - 1) / cs)) ->
        file_at f' (a_path a) = Some (content ++ drop (length content) (default [] (file_at f (a_path a))))).
Proof.
  intros H Ha Hcs Hc Hheld Hn Hmax Hw Hpar Hi.
  set (n := (length content + cs - 1) / cs) in *.
  destruct (saves_ok cwd dir dl h cs content Hcs is A c f a (fun _ => False) (default [] (file_at f (a_path a))) H Ha Hc Hw Hpar)
    as (c' & f' & A' & E1 & E2 & E3 & E4 & E5 & E6).
  { eapply Forall_impl; [exact Hi|]. intros i Hlt. cbn beta in *. lia. }
  { apply holds_start. }
  exists c', f'. split; [done|]. split.
  - destruct (reached_call cwd dir dl A' c' f' (CComplete h) E2) as (c2 & f2 & A2 & ans & Hr & Hs & _).
    { cbn [allowed]. rewrite E3. done. }
    exists c2. pose proof Hs as Hs0. cbn [aspec] in Hs. rewrite E3 in Hs. destruct Hs as (_ & _ & ->).
    assert (f2 = f') as ->.
    { cbn [crun] in Hr. pose proof (reached_synced _ _ _ _ _ _ E2) as (_ & Hsy & _).
      destruct (file_complete_ok c' f' A' h _ Hsy E3) as (c3 & Hfc & _). rewrite Hfc in Hr. cbn in Hr. simplify_eq. done. }
    rewrite Hr. do 3 f_equal. apply bool_decide_ext.
    rewrite foldl_hold_count.
    2:{ apply Forall_fmap. eapply Forall_impl; [exact Hi|]. intros i Hlt. cbn beta in Hlt. unfold compose. rewrite Hn. lia. }
    rewrite foldl_hold_held, Hheld, Hn. rewrite Forall_forall. split.
    + intros Hsub i Hin. apply elem_of_seq in Hin.
      assert (N.of_nat i ∈ (list_to_set (map N.of_nat is) ∪ ∅ : gset N)) as Hx.
      { apply Hsub, elem_of_all_below. lia. }
      rewrite union_empty_r_L in Hx. apply elem_of_list_to_set, elem_of_list_fmap in Hx as (j & Ej & Hj).
      assert (i = j) as -> by lia. done.
    + intros Hall x Hx. apply elem_of_all_below in Hx. rewrite union_empty_r_L. apply elem_of_list_to_set, elem_of_list_fmap.
      exists (N.to_nat x). split; [lia|]. apply Hall. apply elem_of_seq. lia.
  - intros Hne Hall. destruct E5 as (new & Hnew).
    { intros ->. rewrite Forall_forall in Hall. assert (0 ∈ seq 0 n) as H0.
      { apply elem_of_seq. assert (0 < length content) by (destruct content; [done|cbn; lia]).
        assert (0 < n); [|lia]. unfold n. apply Nat.div_str_pos. lia. }
      apply Hall in H0. set_solver. }
    rewrite Hnew in *. cbn [default] in E6. f_equal. apply (holds_all content _ new cs (fun j => j ∈ is \/ False) Hcs).
    + intros i Hlt. left. rewrite Forall_forall in Hall. apply Hall. apply elem_of_seq. unfold n. lia.
    + exact E6.
Qed.

(** *** C38 *)
Lemma missing_chunks_ok c f A h a m : synced c f A -> A !! h = Some a -> (a_count a <= 65536)%Z ->
  exists c' ps, run f (missing_chunks c h m) = (f, Done (c', map (fun p => mkRange p.1 p.2) ps))
    /\ separated 0 ps /\ (forall x, covered ps x <-> (Z.of_N x < a_count a)%Z /\ x ∉ a_held a) /\ synced c' f A.
Proof.
  intros H Ha Hmax. destruct (get_record_ok c f A h a H Ha) as (r & b & Hrun & Hp & Hrel & (Hi & Hn & Hb) & Hs & Hm & Hfile).
  cbn [fst snd] in *. unfold missing_chunks. rewrite run_bind, Hrun. cbn [snd p_bits].
  destruct (bunfilled_ranges_spec b Hi ltac:(lia)) as (ps & H1 & H2 & H3). rewrite H1. eexists _, ps. split; [done|].
  split; [done|]. split; [|done]. intros x. rewrite H3, Hn, Hb. destruct (bits b x); naive_solver.
Qed.
Lemma separated_lowest ps s e : separated 0 ((s, e) :: ps) -> forall x, covered ((s, e) :: ps) x -> (s <= x)%N.
Proof.
  assert (forall ps lo x, separated lo ps -> covered ps x -> (lo <= x)%N) as Hgen.
  { clear. induction ps as [|[s e] ps IH]; intros lo x Hs (s' & e' & Hin & Hx); [set_solver|].
    cbn [separated] in Hs. destruct Hs as (H1 & H2 & H3). apply elem_of_cons in Hin as [Hin|Hin]; [simplify_eq; lia|].
    specialize (IH (e + 2)%N x H3 ltac:(exists s', e'; done)). lia. }
  cbn [separated]. intros (H1 & H2 & H3) x (s' & e' & Hin & Hx). apply elem_of_cons in Hin as [Hin|Hin]; [simplify_eq; lia|].
  specialize (Hgen ps (e + 2)%N x H3 ltac:(exists s', e'; done)). lia.
Qed.
Lemma C38_lemma cwd dir dl A c f h a m : reached cwd dir dl A c f -> A !! h = Some a -> (a_count a <= 65536)%Z ->
  exists c1 c2 b rs, run f (file_complete c h) = (f, Done (c1, b)) /\ run f (missing_chunks c h m) = (f, Done (c2, rs))
    /\ (b = true <-> rs = [])
    /\ (b = true <-> forall i, (Z.of_N i < a_count a)%Z -> i ∈ a_held a)
    /\ (forall r0 rs', rs = r0 :: rs' -> (Z.of_N (r_start r0) < a_count a)%Z /\ r_start r0 ∉ a_held a
          /\ forall i, (i < r_start r0)%N -> i ∈ a_held a).
Proof.
  intros H Ha Hmax. pose proof (reached_synced _ _ _ _ _ _ H) as (_ & Hs & _).
  destruct (file_complete_ok c f A h a Hs Ha) as (c1 & H1 & _).
  destruct (missing_chunks_ok c f A h a m Hs Ha Hmax) as (c2 & ps & H2 & H3 & H4 & _).
  eexists c1, c2, _, _. split; [exact H1|]. split; [exact H2|].
  assert (all_below (a_count a) ⊆ a_held a <-> forall i, (Z.of_N i < a_count a)%Z -> i ∈ a_held a) as Hsub.
  { split; intros Hx i Hi; apply Hx; apply elem_of_all_below; done. }
  rewrite bool_decide_eq_true, Hsub. split_and!.
  - split.
    + intros Hall. destruct ps as [|[s e] ps]; [done|]. exfalso.
      assert (covered ((s, e) :: ps) s) as Hc.
      { exists s, e. split; [set_solver|]. cbn [separated] in H3. lia. }
      apply H4 in Hc as [Hc1 Hc2]. auto.
    + destruct ps as [|p ps]; [|done]. intros _ i Hi. destruct (decide (i ∈ a_held a)) as [?|Hn]; [done|].
      exfalso. assert (covered [] i) as (? & ? & Hx & _) by (apply H4; done). set_solver.
  - done.
  - intros r0 rs' E. destruct ps as [|[s e] ps]; [done|]. cbn [map] in E. simplify_eq. cbn [r_start fst].
    assert (covered ((s, e) :: ps) s) as Hc.
    { exists s, e. split; [set_solver|]. cbn [separated] in H3. lia. }
    apply H4 in Hc as [Hc1 Hc2]. split; [done|]. split; [done|]. intros i Hi.
    destruct (decide (i ∈ a_held a)) as [?|Hn]; [done|]. exfalso.
    assert (covered ((s, e) :: ps) i) as Hci by (apply H4; split; [lia|done]).
    apply (separated_lowest _ _ _ H3) in Hci. lia.
Qed.

(** files of any size *)
Lemma unfilled_mod b : binv b ->
  exists ps, bunfilled_ranges b = Ok (map (fun p => mkRange (p.1 mod 65536) (p.2 mod 65536))%N ps) /\
    separated 0 ps /\ (forall x, covered ps x <-> (Z.of_N x < bsize b)%Z /\ bits b x = false).
Proof.
  intros [Hw Hs Hl Hb]. rewrite unfilled_ranges_runs by lia.
  destruct (runs_spec (fun i => negb (zbits b i)) 0 (bsize b)) as [Hsep Hc]; [lia|].
  exists (map toN2 (runs (fun i => negb (zbits b i)) 0 (bsize b))). split_and!.
  - f_equal. rewrite map_map. apply map_ext_in. intros [s e] Hin.
    apply elem_of_list_In in Hin. pose proof (sepZ_bounds _ _ Hsep _ _ Hin). unfold u16_of_int. cbn [toN2 fst snd].
    f_equal; rewrite Z2N.inj_mod by lia; done.
  - apply (sepZ_separated _ 0); [lia|done].
  - intros x. rewrite (covZ_covered _ 0) by (done || lia). rewrite Hc. unfold zbits. rewrite N2Z.id.
    rewrite negb_true_iff. split; intros [? ?]; (split; [lia|done]).
Qed.
Lemma C38_all_lemma cwd dir dl A c f h a m : reached cwd dir dl A c f -> A !! h = Some a ->
  exists c1 c2 b rs, run f (file_complete c h) = (f, Done (c1, b)) /\ run f (missing_chunks c h m) = (f, Done (c2, rs))
    /\ (b = true <-> rs = [])
    /\ (b = true <-> forall i, (Z.of_N i < a_count a)%Z -> i ∈ a_held a)
    /\ (forall r0 rs', rs = r0 :: rs' -> exists k, r_start r0 = (k mod 65536)%N /\ (Z.of_N k < a_count a)%Z /\ k ∉ a_held a
          /\ forall i, (i < k)%N -> i ∈ a_held a).
Proof.
  intros H Ha. pose proof (reached_synced _ _ _ _ _ _ H) as (_ & Hs & _).
  destruct (file_complete_ok c f A h a Hs Ha) as (c1 & H1 & _).
  destruct (get_record_ok c f A h a Hs Ha) as (r & b & Hrun & Hp & Hrel & (Hi & Hn & Hb) & Hs' & Hm & Hfile).
  cbn [fst snd] in *.
  destruct (unfilled_mod b Hi) as (ps & H2 & H3 & H4').
  assert (forall x, covered ps x <-> (Z.of_N x < a_count a)%Z /\ x ∉ a_held a) as H4.
  { intros x. rewrite H4', Hn, Hb. destruct (bits b x); naive_solver. }
  eexists c1, _, _, _. split; [exact H1|]. split.
  { unfold missing_chunks. rewrite run_bind, Hrun. cbn [snd p_bits]. rewrite H2. reflexivity. }
  assert (all_below (a_count a) ⊆ a_held a <-> forall i, (Z.of_N i < a_count a)%Z -> i ∈ a_held a) as Hsub.
  { split; intros Hx i Hii; apply Hx; apply elem_of_all_below; done. }
  rewrite bool_decide_eq_true, Hsub. split_and!.
  - split.
    + intros Hall. destruct ps as [|[s e] ps]; [done|]. exfalso.
      assert (covered ((s, e) :: ps) s) as Hc.
      { exists s, e. split; [set_solver|]. cbn [separated] in H3. lia. }
      apply H4 in Hc as [Hc1 Hc2]. auto.
    + destruct ps as [|p ps]; [|done]. intros _ i Hii. destruct (decide (i ∈ a_held a)) as [?|Hne]; [done|].
      exfalso. assert (covered [] i) as (? & ? & Hx & _) by (apply H4; done). set_solver.
  - done.
  - intros r0 rs' E. destruct ps as [|[s e] ps]; [done|]. cbn [map] in E. simplify_eq. cbn [r_start fst].
    exists s. split; [done|].
    assert (covered ((s, e) :: ps) s) as Hc.
    { exists s, e. split; [set_solver|]. cbn [separated] in H3. lia. }
    apply H4 in Hc as [Hc1 Hc2]. split; [done|]. split; [done|]. intros i Hii.
    destruct (decide (i ∈ a_held a)) as [?|Hne]; [done|]. exfalso.
    assert (covered ((s, e) :: ps) i) as Hci by (apply H4; split; [lia|done]).
    apply (separated_lowest _ _ _ H3) in Hci. lia.
Qed.

(** *** C40 *)
Lemma join_slash_snoc name cs c0 : join_slash ((c0 :: cs) ++ [name]) = join_slash (c0 :: cs) ++ slash :: name.
Proof.
  revert c0. induction cs as [|c1 cs IH]; intros c0; [done|].
  change (join_slash ((c0 :: c1 :: cs) ++ [name])) with (c0 ++ slash :: join_slash ((c1 :: cs) ++ [name])).
  change (join_slash (c0 :: c1 :: cs)) with (c0 ++ slash :: join_slash (c1 :: cs)).
  rewrite IH. rewrite <- app_assoc. done.
Qed.
Lemma inside_normal dl name : clean_abs dl -> normal_name name -> inside dl (join2 dl name) /\ parent (join2 dl name) = dl.
Proof.
  intros Hd Hn. split; [|apply parent_join2; done]. pose proof Hd as (cs & Hcs & ->). exists name. split; [apply Hn|].
  rewrite join2_normal by done. unfold render. destruct cs as [|c0 cs0] eqn:E.
  - cbn [app join_slash]. rewrite decide_True by done. done.
  - rewrite decide_False.
    + rewrite join_slash_snoc. done.
    + intros Hx. inversion Hcs as [|? ? (Hc & _) _]; subst. destruct c0 as [|x c0]; [done|].
      destruct cs0; cbn [join_slash] in Hx; done.
Qed.
(** any name: the destination is the name resolved against the directory *)
Lemma register_path c size count chunk h name f f' c' x : 
  execs f (register_download c size count chunk h name) f' (Done (c', Ok x)) -> x_path x = join2 (c_dl c) name
    /\ exists r, c_index c' !! h = Some r /\ r_path r = join2 (c_dl c) name.
Proof.
  intros H. unfold register_download in H. apply execs_bind_done in H as (f1 & [c1 e] & H1 & H).
  apply add_record_runs in H1. cbn [r_hash] in H1.
  destruct H1 as [(_ & -> & -> & w & ->)|(Hnone & -> & [(-> & Hw & ->)|[[w ->] _]])];
    [apply execs_ret in H as [_ ?]; simplify_eq| |apply execs_ret in H as [_ ?]; simplify_eq].
  cbn [on_ok] in H. destruct (new_progress _ _) as [pr|w|w]; [|apply execs_ret in H as [_ ?]; simplify_eq|apply execs_die in H as [_ ?]; simplify_eq].
  apply execs_bind_done in H as (f2 & e & H2 & H). apply execs_ret in H as [-> E]. simplify_eq. split; [done|].
  cbn [set_index c_index]. rewrite lookup_insert. eexists. split; [done|]. done.
Qed.

(** *** C41 *)
(** the chunk count computed from peer data goes negative *)
Definition bad_metadata (size chunk : N) : Prop :=
  chunk = 0%N \/ (9223372036854775808 <= size)%N /\
    ((18446744073709551616 - size = chunk)%N \/ (2 * chunk <= 18446744073709551616 - size)%N).
Lemma new_progress_panic r d size chunk : r_size r = int_of_u64 size -> r_chunk r = Z.of_N chunk ->
  (size < 18446744073709551616)%N -> (chunk < 4294967296)%N ->
  (bad_metadata size chunk -> is_panic (new_progress r d)) /\
  (~ bad_metadata size chunk -> exists p, new_progress r d = Ok p).
Proof.
  intros Hs Hc Hb Hcb. unfold new_progress. rewrite Hs, Hc. unfold chunk_count. split.
  - intros [->|[Hge Hm]]; [eexists; done|].
    destruct (Z.eqb_spec (Z.of_N chunk) 0) as [E|E]; [eexists; done|].
    assert (int_of_u64 size = - (18446744073709551616 - Z.of_N size))%Z as ->.
    { unfold int_of_u64. destruct (N.ltb_spec size p63) as [Hx|Hx]; [change p63 with 9223372036854775808%N in Hx; lia|].
      change (Z.of_N p64) with 18446744073709551616%Z. lia. }
    rewrite Z.quot_opp_l, Z.rem_opp_l by lia.
    rewrite Z.quot_div_nonneg, Z.rem_mod_nonneg by lia. cbn [rbind].
    set (m := (18446744073709551616 - Z.of_N size)%Z) in *. set (k := Z.of_N chunk) in *.
    assert (forall z, (z < 0)%Z -> is_panic (let! b := new_bitset z in Ok (mkProg b (prog_path d (r_hash r))))) as Hneg.
    { intros z Hz. destruct (new_bitset_neg z Hz) as [w Hw]. rewrite Hw. eexists; done. }
    assert (m = k \/ 2 * k <= m)%Z as Hm' by lia. assert (0 < k)%Z as Hk by lia. clearbody m k. clear -Hm' Hk Hneg.
    destruct (Z.eqb_spec (- (m mod k)) 0) as [E0|E0]; apply Hneg.
    + assert (1 <= m / k)%Z by (apply Z.div_le_lower_bound; lia). lia.
    + destruct Hm' as [->|Hm']; [rewrite Z.mod_same in E0 by lia; lia|].
      assert (2 <= m / k)%Z by (apply Z.div_le_lower_bound; lia). lia.
  - intros Hnb. assert (chunk <> 0)%N as H0 by (intros ->; apply Hnb; left; done).
    destruct (Z.eqb_spec (Z.of_N chunk) 0) as [E|_]; [lia|]. cbn [rbind].
    assert (forall z, (0 <= z < 9223372036854775808)%Z -> exists p, (let! b := new_bitset z in Ok (mkProg b (prog_path d (r_hash r)))) = Ok p) as Hpos.
    { intros z Hz. destruct (new_bitset_ok z Hz) as (b & Hw & _). rewrite Hw. eexists; done. }
    destruct (decide (size < 9223372036854775808)%N) as [Hlt|Hge].
    + rewrite int_of_u64_small by (change p63 with 9223372036854775808%N; lia).
      rewrite Z.quot_div_nonneg, Z.rem_mod_nonneg by lia. cbn [rbind].
      apply Hpos. assert (0 <= Z.of_N size / Z.of_N chunk)%Z by (apply Z.div_pos; lia).
      assert (Z.of_N size / Z.of_N chunk <= Z.of_N size)%Z by (apply Z.div_le_upper_bound; nia).
      destruct (Z.eqb_spec (Z.of_N size mod Z.of_N chunk) 0) as [E0|E0]; [lia|].
      assert (Z.of_N chunk <> 1)%Z by (intros E1; rewrite E1, Z.mod_1_r in E0; done).
      assert (Z.of_N size / Z.of_N chunk < 9223372036854775807)%Z; [|lia].
      apply Z.div_lt_upper_bound; lia.
    + assert (int_of_u64 size = - (18446744073709551616 - Z.of_N size))%Z as ->.
      { unfold int_of_u64. destruct (N.ltb_spec size p63) as [Hx|Hx]; [change p63 with 9223372036854775808%N in Hx; lia|].
        change (Z.of_N p64) with 18446744073709551616%Z. lia. }
      rewrite Z.quot_opp_l, Z.rem_opp_l by lia.
      rewrite Z.quot_div_nonneg, Z.rem_mod_nonneg by lia. cbn [rbind].
      set (m := (18446744073709551616 - Z.of_N size)%Z) in *. set (k := Z.of_N chunk) in *.
      assert (m < 2 * k /\ m <> k)%Z as [Hm1 Hm2].
      { split.
        - destruct (Z.lt_ge_cases m (2 * k)) as [?|Hx]; [done|]. exfalso. apply Hnb. right. split; [lia|]. right. lia.
        - intros Hx. apply Hnb. right. split; [lia|]. left. lia. }
      assert (0 < k)%Z as Hk by lia. assert (0 < m)%Z as Hm0 by lia. clearbody m k. clear -Hm0 Hm1 Hm2 Hk Hpos.
      apply Hpos. pose proof (Z.div_mod m k ltac:(lia)). pose proof (Z.mod_pos_bound m k Hk).
      assert (m / k < 2)%Z by (apply Z.div_lt_upper_bound; lia). assert (0 <= m / k)%Z by (apply Z.div_pos; lia).
      destruct (Z.eqb_spec (- (m mod k)) 0) as [E0|E0]; [|lia].
      assert (m / k = 0 \/ m / k = 1)%Z as [E|E] by lia; rewrite E in *; lia.
Qed.
Lemma add_record_outcome c r f f' out : execs f (add_record c r) f' out ->
  exists c1 e, out = Done (c1, e) /\ c_dir c1 = c_dir c /\ ~ is_panic e.
Proof.
  intros H. unfold add_record in H. destruct (c_index c !! r_hash r).
  - apply execs_ret in H as [-> ->]. eexists _, _. split; [done|]. split; [done|]. intros [? ?]; done.
  - unfold save_index in H. cbn [bind] in H. apply execs_do in H as (rep & f2 & _ & H). apply execs_ret in H as [-> ->].
    eexists _, _. split; [done|]. split; [done|]. destruct rep; intros [? ?]; done.
Qed.
Lemma C41_ok_lemma c size count chunk h name f f' out : (size < 18446744073709551616)%N -> (chunk < 4294967296)%N ->
  ~ bad_metadata size chunk ->
  execs f (register_download c size count chunk h name) f' out -> exists r, out = Done r.
Proof.
  intros Hs Hc Hnb H. unfold register_download in H.
  set (r := mkRec _ _ _ _ _) in H.
  destruct (new_progress_panic r (c_dir c) size chunk eq_refl eq_refl Hs Hc) as [_ Hok].
  destruct (Hok Hnb) as [pr Hpr].
  apply execs_bind in H as [(f1 & [c1 e] & H1 & H)|[(w & H & ->)|[H ->]]].
  - apply add_record_outcome in H1 as (x & e' & Hx & Hd & Hp). simplify_eq. destruct e' as [u|w|w]; cbn [on_ok] in H.
    + rewrite Hd, Hpr in H. unfold save_prog in H. cbn [bind] in H. apply execs_do in H as (rep & f2 & _ & H).
      apply execs_ret in H as [-> ->]. eauto.
    + apply execs_ret in H as [-> ->]. eauto.
    + exfalso. apply Hp. eexists; done.
  - apply add_record_outcome in H as (x & e' & Hx & _). done.
  - apply add_record_outcome in H as (x & e' & Hx & _). done.
Qed.
(** fault-free: dies exactly on bad metadata (for a new file, writable index) *)
Lemma C41_dies_lemma cwd dir dl A c f size count chunk h name : reached cwd dir dl A c f -> A !! h = None ->
  (size < 18446744073709551616)%N -> (chunk < 4294967296)%N -> bad_metadata size chunk ->
  exists f' w, run f (register_download c size count chunk h name) = (f', Died w).
Proof.
  intros H Hn Hs Hc Hb. pose proof (reached_synced _ _ _ _ _ _ H) as (_ & Hsy & _).
  unfold register_download. set (r := mkRec _ _ _ _ _).
  destruct (new_progress_panic r (c_dir c) size chunk eq_refl eq_refl Hs Hc) as [Hp _].
  destruct (Hp Hb) as [w Hw].
  rewrite run_bind. unfold add_record.
  assert (c_index c !! r_hash r = None) as ->.
  { pose proof (sy_ent _ _ _ Hsy h) as He. rewrite Hn in He. cbn [r r_hash]. destruct (c_index c !! h); done. }
  set (c1 := set_index c (<[r_hash r := r]> (c_index c))).
  rewrite run_bind.
  rewrite save_index_run by (change (c_inddir c1) with (c_inddir c); rewrite (sy_ind _ _ _ Hsy); apply (sy_writable _ _ _ _ Hsy), index_normal).
  cbn [run on_ok]. change (c_dir c1) with (c_dir c). rewrite Hw. eexists _, _. done.
Qed.

(** *** C42 *)
(** a failing progress save is not reported *)
Lemma C42_refuted_lemma cwd dir dl A c f size count chunk h name : reached cwd dir dl A c f -> A !! h = None ->
  hash_wf h -> (size < 9223372036854775808)%N -> (0 < chunk < 4294967296)%N ->
  f !! prog_path dir h = None ->
  exists f' c' x, execs f (register_download c size count chunk h name) f' (Done (c', Ok x))
    /\ f' !! prog_path dir h = None.
Proof.
  intros H Hn Hwf Hs Hc Hno. pose proof (reached_synced _ _ _ _ _ _ H) as (_ & Hsy & Hd & _).
  unfold register_download. set (r := mkRec _ _ _ _ _).
  destruct (new_progress_panic r (c_dir c) size chunk eq_refl eq_refl ltac:(lia) ltac:(lia)) as [_ Hp].
  destruct Hp as [pr Hpr]; [intros [?|[? ?]]; lia|].
  set (c1 := set_index c (<[r_hash r := r]> (c_index c))).
  exists (<[join2 (c_dir c) index_name := NFile (marshal c1)]> f).
  exists (set_index c1 (<[h := set_prog r pr]> (c_index c1))), (export_of r pr).
  split.
  - unfold add_record.
    assert (c_index c !! r_hash r = None) as ->.
    { pose proof (sy_ent _ _ _ Hsy h) as He. rewrite Hn in He. cbn [r r_hash]. destruct (c_index c !! h); done. }
    fold c1. unfold save_index. cbn [bind]. eapply ru_do.
    + apply os_ok. change (c_inddir c1) with (c_inddir c). rewrite (sy_ind _ _ _ Hsy). cbn [do_op].
      rewrite (sy_writable _ _ _ _ Hsy index_normal). done.
    + cbn [ok_or bind on_ok]. change (c_dir c1) with (c_dir c). rewrite Hpr. unfold save_prog. cbn [bind].
      eapply ru_do; [apply os_fault, pa_none|]. cbn [ok_or bind]. constructor.
  - rewrite lookup_insert_ne; [subst dir; done|]. subst dir. apply not_eq_sym, prog_path_ne_index; [apply Hsy|done].
Qed.
(** an index save that fails is reported *)
Lemma C42_index_lemma c size count chunk h name f f' c' x :
  execs f (register_download c size count chunk h name) f' (Done (c', Ok x)) ->
  exists r pr f1, c_index c !! h = None /\ c' = set_index c (<[h := set_prog r pr]> (c_index c)) /\ x = export_of r pr
    /\ f1 = <[join2 (c_inddir c) index_name := NFile (marshal c')]> f
    /\ (f' = <[join1 (prog_path (c_dir c) h) := NFile (bserialize (p_bits pr))]> f1
        \/ forall q, q <> join1 (prog_path (c_dir c) h) -> f' !! q = f1 !! q).
Proof.
  intros H. unfold register_download in H. set (r := mkRec _ _ _ _ _) in H.
  apply execs_bind_done in H as (f1 & [c1 e] & H1 & H). apply add_record_runs in H1. change (r_hash r) with h in H1.
  destruct H1 as [(_ & -> & -> & w & ->)|(Hnone & -> & [(-> & Hw & ->)|[[w ->] _]])];
    [apply execs_ret in H as [_ ?]; simplify_eq| |apply execs_ret in H as [_ ?]; simplify_eq].
  cbn [on_ok set_index c_dir] in H.
  destruct (new_progress r (c_dir c)) as [pr|w|w] eqn:Hpr; [|apply execs_ret in H as [_ ?]; simplify_eq|apply execs_die in H as [_ ?]; simplify_eq].
  assert (p_file pr = prog_path (c_dir c) h) as Hpf.
  { unfold new_progress in Hpr. destruct (chunk_count _ _); [|done|done]. cbn [rbind] in Hpr.
    destruct (new_bitset _); [|done|done]. cbn [rbind] in Hpr. simplify_eq. done. }
  apply execs_bind_done in H as (f2 & e & H2 & H). apply execs_ret in H as [-> E]. simplify_eq.
  exists r, pr, (<[join2 (c_inddir c) index_name := NFile (marshal (set_index c (<[h := r]> (c_index c))))]> f).
  split; [done|]. split.
  { unfold set_index. cbn [c_index c_dir c_dl c_pid c_touched c_inddir]. rewrite insert_insert. done. }
  split; [done|]. split.
  { do 2 f_equal. apply marshal_ext; [done..|]. cbn [set_index c_index]. rewrite !fmap_insert, ?insert_insert. done. }
  apply save_prog_runs in H2. rewrite Hpf in H2. destruct H2 as [(_ & _ & ->)|[_ H2]]; [left; done|right; exact H2].
Qed.

(** *** C74 *)
Lemma C74_lemma cwd dir dl A c f size count chunk h name i data :
  reached cwd dir dl A c f -> f !! dl = None -> parent dl <> dir -> A !! h = None ->
  allowed cwd dir dl A f (CRegister size count chunk h name) -> (i < 65536)%N ->
  exists c1 f1 x c2 f2, crun cwd c f (CRegister size count chunk h name) = Some (c1, f1, AExport x)
    /\ crun cwd c1 f1 (CSave h i data) = Some (c2, f2, AErr) /\ f2 !! dl = None.
Proof.
  intros H Hdl Hpar Hn Hal Hi. pose proof (reached_synced _ _ _ _ _ _ H) as (_ & Hsy & Hd & Hdl').
  destruct (reached_call _ _ _ _ _ _ _ H Hal) as (c1 & f1 & A1 & ans & Hr & Hs & Hre).
  cbn [aspec] in Hs. rewrite Hn in Hs. destruct Hs as (Hsu & -> & x & -> & Hsh).
  destruct Hal as (_ & _ & Hwf & Hname). pose proof (sy_dl _ _ _ Hsy) as Hcl. rewrite Hdl' in Hcl.
  destruct (inside_normal dl name Hcl Hname) as [_ Hpj].
  set (a := new_entry (join2 dl name) (Z.of_N size) (Z.of_N chunk)) in *.
  assert (parent (a_path a) = dl) as Hpa by done.
  assert (dl <> dir) as Hne by (intros E; rewrite <- Hd, <- Hdl' in E; exact (sy_ne _ _ _ Hsy E)).
  destruct (reached_call cwd dir dl (<[h:=a]> A) c1 f1 (CSave h i data) Hre) as (c2 & f2 & A2 & ans2 & Hr2 & Hs2 & Hre2).
  { split; [done|]. exists a. rewrite lookup_insert. split; [done|]. rewrite Hpa. done. }
  cbn [aspec] in Hs2. rewrite lookup_insert in Hs2.
  assert (~ can_write f1 (a_path a)) as Hnw.
  { intros [Hw _]. rewrite Hpa, Hsu, Hdl in Hw by done. done. }
  destruct Hs2 as [(? & _)|(_ & -> & -> & Hsu2)]; [done|].
  exists c1, f1, x, c2, f2. split; [done|]. split; [done|]. rewrite Hsu2, Hsu by done. done.
Qed.
