(** Proofs about downloads that are interrupted by a kill (C106). *)
From Verif Require Export DownloadProofs4 ResumeSpec Wedge.
From Coq Require Import ZifyBool ZifyNat ZifyN.
Ltac Zify.zify_post_hook ::= Z.div_mod_to_equations.

(** ** Bitsets whose last words are missing *)
Definition pad (b : bitset) (z : nat) : bitset := mkBitset (bdata b ++ replicate z 0%N) (bsize b).
Definition short (b : bitset) : Prop := exists z, 0 < z /\ binv (pad b z).
Lemma bits_pad b z y : bits (pad b z) y = bits b y.
Proof.
  unfold bits, pad. cbn [bdata]. destruct (bdata b !! N.to_nat (y / 64)) as [w|] eqn:E.
  - rewrite lookup_app_l by (by eapply lookup_lt_Some). by rewrite E.
  - apply lookup_ge_None in E. rewrite lookup_app_r by done.
    destruct (replicate z 0%N !! (N.to_nat (y / 64) - length (bdata b))) as [w|] eqn:E2; [|done].
    apply lookup_replicate in E2 as [-> _]. apply N.bits_0.
Qed.
Lemma short_cut b j : binv b -> j < length (bdata b) -> short (mkBitset (take j (bdata b)) (bsize b)).
Proof.
  intros [Hw Hs Hl Hb] Hj. exists (length (bdata b) - j). split; [lia|]. unfold pad. cbn [bdata bsize].
  assert (length (take j (bdata b)) = j) as Hlj by (rewrite take_length; lia).
  split; cbn [bdata bsize].
  - apply Forall_app. split; [by apply Forall_take|]. apply Forall_replicate. unfold p64. lia.
  - done.
  - rewrite app_length, replicate_length, Hlj. lia.
  - intros x Hx. apply Hb. pose proof (bits_pad (mkBitset (take j (bdata b)) (bsize b)) (length (bdata b) - j) x) as E.
    unfold pad in E. cbn [bdata bsize] in E. rewrite Hx in E. symmetry in E. revert E. unfold bits. cbn [bdata].
    destruct (take j (bdata b) !! N.to_nat (x / 64)) as [w|] eqn:E; [|done]. apply lookup_take_Some in E as [-> _]. done.
Qed.
Lemma take_words j l : take (8 * j) (concat (map (be 8) l)) = concat (map (be 8) (take j l)).
Proof.
  revert j. induction l as [|w l IH]; intros j.
  - cbn [map concat]. by rewrite !take_nil.
  - destruct j as [|j]; [done|]. cbn [map concat take]. replace (8 * S j) with (length (be 8 w) + 8 * j).
    + rewrite take_app_ge by lia. replace (length (be 8 w) + 8 * j - length (be 8 w)) with (8 * j) by lia. by rewrite IH.
    + rewrite be_length. lia.
Qed.
Lemma cut_loads b k b' : binv b -> k < length (bserialize b) -> bdeserialize (take k (bserialize b)) = Ok b' -> short b'.
Proof.
  intros Hb Hk H. pose proof (bserialize_length b) as Hl.
  assert (exists j, k = 8 + 8 * j) as [j ->].
  { unfold bdeserialize in H. rewrite drop_length, take_length in H.
    destruct (Nat.ltb_spec (k `min` length (bserialize b)) 8) as [?|?]; [done|].
    destruct (Nat.eqb_spec ((k `min` length (bserialize b) - 8) `mod` 8) 0) as [E|?]; [|done].
    exists ((k - 8) / 8). replace (k `min` length (bserialize b)) with k in * by lia.
    pose proof (Nat.div_mod_eq (k - 8) 8). lia. }
  assert (take (8 + 8 * j) (bserialize b) = bserialize (mkBitset (take j (bdata b)) (bsize b))) as E.
  { unfold bserialize. cbn [bdata bsize]. rewrite <- take_words.
    replace (8 + 8 * j) with (length (be 8 (u64_of_int (bsize b))) + 8 * j) by (rewrite be_length; lia).
    rewrite take_app_ge by lia. do 2 f_equal. lia. }
  rewrite E in H. destruct Hb as [Hw Hs Hlen Hbits] eqn:EHb. rewrite bdeserialize_serialize in H; cbn [bdata bsize]; [|by apply Forall_take|lia].
  injection H as <-. apply short_cut; [done|lia].
Qed.
Lemma all_max_false l data : all_max l data = Ok false -> exists j w, data !! j = Some w /\ w <> max_u64.
Proof.
  induction l as [|i l IH]; cbn [all_max]; [done|]. destruct (nth_Z data i) as [w|] eqn:E; [|done].
  destruct (N.eqb_spec w max_u64) as [?|Hne]; [exact IH|]. intros _. unfold nth_Z, nth_N in E. repeat case_match; try done. eauto.
Qed.
Lemma not_max w : (w < p64)%N -> w <> max_u64 -> exists k, (k < 64)%N /\ N.testbit w k = false.
Proof.
  intros Hw Hne. destruct (decide (Forall (fun k => N.testbit w (N.of_nat k) = true) (seq 0 64))) as [H|H].
  - exfalso. apply Hne. change max_u64 with (N.ones 64). apply N.bits_inj. intros k. destruct (N.ltb_spec k 64) as [Hk|Hk].
    + rewrite N.ones_spec_low by done. rewrite Forall_forall in H. specialize (H (N.to_nat k)). rewrite N2Nat.id in H. apply H.
      apply elem_of_seq. lia.
    + rewrite N.ones_spec_high by done. destruct (decide (w = 0)%N) as [->|H0]; [apply N.bits_0|]. apply N.bits_above_log2.
      apply N.lt_le_trans with 64%N; [|done]. apply N.log2_lt_pow2; [lia|]. exact Hw.
  - apply not_Forall_Exists in H; [|intros ?; apply _]. apply Exists_exists in H as (k & Hk & Hf). apply elem_of_seq in Hk.
    exists (N.of_nat k). split; [lia|]. apply not_true_is_false. exact Hf.
Qed.
Lemma short_full b : short b -> (exists w, bfull b = Panic w)
  \/ bfull b = Ok false /\ exists y, bits b y = false /\ (Z.of_N y < 64 * Z.of_nat (length (bdata b)))%Z.
Proof.
  intros (z & Hz & [Hw Hs Hl Hb]). unfold pad in *. cbn [bdata bsize] in *. rewrite app_length, replicate_length in Hl.
  unfold bfull. destruct (Z.eqb_spec (bsize b) 0) as [E0|E0]; [exfalso; rewrite E0 in Hl; lia|].
  rewrite Z.quot_div_nonneg by lia. set (n := ((bsize b - 1) / 64)%Z).
  destruct (all_max (seqZ 0 n) (bdata b)) as [[]|w|w] eqn:E; cbn [rbind].
  - left. unfold nth_Z. assert (Z.of_nat (length (bdata b)) <= n)%Z by lia.
    destruct (Z.ltb_spec n 0) as [?|?]; [by eexists|]. unfold nth_N. rewrite (proj2 (N.ltb_ge _ _)) by lia. by eexists.
  - right. split; [done|]. apply all_max_false in E as (j & w & Hj & Hne).
    apply Forall_app in Hw as [Hw _]. destruct (not_max w) as (k & Hk & Ht); [exact (Forall_lookup_1 _ _ _ _ Hw Hj)|done|].
    exists (N.of_nat j * 64 + k)%N. split.
    + unfold bits. replace ((N.of_nat j * 64 + k) / 64)%N with (N.of_nat j) by lia.
      replace ((N.of_nat j * 64 + k) mod 64)%N with k by lia. rewrite Nat2N.id, Hj. done.
    + apply lookup_lt_Some in Hj. lia.
  - exfalso. clear -E. revert E. generalize (seqZ 0 n). induction l as [|i l IH]; cbn [all_max]; [done|].
    destruct (nth_Z _ _) as [w'|]; [|done]. destruct (_ =? _)%N; done.
  - left. by eexists.
Qed.
Lemma short_set b x : short b -> (Z.of_N x < 64 * Z.of_nat (length (bdata b)))%Z ->
  exists b', bset b x = Ok b' /\ short b' /\ length (bdata b') = length (bdata b).
Proof.
  intros (z & Hz & Hb) Hx. destruct (bset_inv _ x Hb) as (b1 & E & Hb1 & Hsz & _).
  { destruct Hb as [_ Hs Hl _]. unfold pad in *. cbn [bdata bsize] in *. rewrite app_length, replicate_length in Hl. unfold p63. lia. }
  assert (bsize b1 = bsize b) as Hsz'.
  { rewrite Hsz. destruct Hb as [_ Hs Hl _]. unfold pad in *. cbn [bdata bsize] in *. rewrite app_length, replicate_length in Hl. lia. }
  unfold bset in *. unfold pad in E at 1 2 3 4. cbn [bdata bsize] in E.
  assert (int_of_u64 x = Z.of_N x) as Hix.
  { destruct Hb as [_ Hs Hl _]. unfold pad in *. cbn [bdata bsize] in *. rewrite app_length, replicate_length in Hl. apply int_of_u64_small. unfold p63. lia. }
  rewrite Hix in *. rewrite Z.quot_div_nonneg in * by lia.
  destruct (Z.ltb_spec (Z.of_nat (length (bdata b)) - 1) (Z.of_N x / 64)) as [?|_]; [lia|].
  destruct (Z.ltb_spec (Z.of_nat (length (bdata b ++ replicate z 0%N)) - 1) (Z.of_N x / 64)) as [H1|_];
    [rewrite app_length in H1; lia|].
  assert (N.to_nat (x / 64) < length (bdata b)) as Hlt by lia.
  assert (nth_N (bdata b ++ replicate z 0%N) (x / 64) = nth_N (bdata b) (x / 64)) as En2.
  { unfold nth_N. rewrite app_length. rewrite !(proj2 (N.ltb_lt _ _)) by lia. by apply lookup_app_l. }
  rewrite En2 in E. destruct (nth_N (bdata b) (x / 64)) as [w|] eqn:En; [|done].
  eexists. split; [reflexivity|]. cbn [bdata]. split; [|by rewrite insert_length].
  exists z. split; [done|]. injection E as E. unfold pad. cbn [bdata bsize]. rewrite <- insert_app_l by done.
  rewrite <- E in Hb1. rewrite (proj2 (Z.ltb_ge _ _)) in Hb1 by (rewrite app_length; lia). exact Hb1.
Qed.
Lemma runs_ext g g' s n : (forall i, g i = g' i) -> runs g s n = runs g' s n.
Proof.
  intros H. unfold runs. f_equal. generalize ([] : list (Z * Z), s, (s - 1)%Z). generalize (seqZ s n).
  induction l as [|i l IH]; intros st; cbn [foldl]; [done|]. rewrite IH. f_equal. destruct st as [[ps rs] re].
  unfold run_step. by rewrite H.
Qed.
Lemma short_missing b r rs : short b -> bunfilled_ranges b = Ok (r :: rs) ->
  forall y, (Z.of_N y < bsize b)%Z -> bits b y = false -> (r_start r <= y)%N.
Proof.
  intros (z & Hz & Hb) E y Hy Hf. assert (bunfilled_ranges b = bunfilled_ranges (pad b z)) as E2.
  { pose proof (binv_size _ Hb) as Hs. unfold pad in Hs. cbn [bsize] in Hs.
    rewrite !unfilled_ranges_runs by (unfold pad; cbn [bsize]; lia). f_equal. f_equal. unfold pad at 2. cbn [bsize].
    apply runs_ext. intros i. unfold zbits. by rewrite bits_pad. }
  rewrite E2 in E. destruct (unfilled_mod _ Hb) as (ps & E3 & Hsep & Hcov). rewrite E in E3.
  destruct ps as [|[s e] ps]; [done|]. cbn [map] in E3. injection E3 as -> _. cbn [r_start fst].
  assert (covered ((s, e) :: ps) y) as Hc by (apply Hcov; rewrite bits_pad; done).
  apply (separated_lowest _ _ _ Hsep) in Hc. etransitivity; [|exact Hc]. apply N.mod_le. lia.
Qed.

(** progress files whose end is missing *)
Definition cut (l : list byte) : Prop := exists b k, binv b /\ k < length (bserialize b) /\ l = take k (bserialize b).
Lemma cut_load l b : cut l -> bdeserialize l = Ok b -> short b.
Proof. intros (b0 & k & Hb & Hk & ->). by apply cut_loads. Qed.
Lemma cut_take l k : cut l -> cut (take k l).
Proof.
  intros (b & j & Hb & Hj & ->). exists b, (k `min` j). split; [done|]. split; [lia|]. by rewrite take_take.
Qed.
Lemma cut_short b : short b -> cut (bserialize b).
Proof.
  intros (z & Hz & Hb). exists (pad b z), (length (bserialize b)). split; [done|].
  assert (bserialize (pad b z) = bserialize b ++ concat (map (be 8) (replicate z 0%N))) as E.
  { unfold bserialize, pad. cbn [bdata bsize]. by rewrite map_app, concat_app, app_assoc. }
  split; [|by rewrite E, take_app]. rewrite !bserialize_length. unfold pad. cbn [bdata]. rewrite app_length, replicate_length. lia.
Qed.

(** ** A download whose progress file was cut never ends *)
Section torn_loop.
  Context (cwd dir dl : path) (h : hash) (pa : path) (c0 : cat).
  Context (Hcwd : is_rooted cwd = true) (Hdir : clean_abs dir) (Hdl : clean_abs dl) (Hw : hash_wf h) (Hpar : parent pa <> dir).
  Context (Hc0 : cat_ints c0) (Hr0 : exists r0, c_index c0 !! h = Some r0 /\ r_hash r0 = h /\ sanitize (r_path r0) = pa).
  Notation prog := (prog_path dir h).
  Notation index := (join2 dir index_name).

  Definition dt (f : fs) : Prop := f !! dir = Some NDir /\ f !! index = Some (NFile (marshal c0))
    /\ exists l, f !! prog = Some (NFile l) /\ cut l.
  Definition mt (c : cat) : Prop := c_dir c = dir /\ exists r, c_index c !! h = Some r /\ r_hash r = h /\ r_path r = pa
    /\ forall p, r_prog r = Some p -> exists b, p = mkProg b prog /\ short b.
  Definition loaded (c : cat) (P : bitset -> Prop) : Prop :=
    exists r b, c_index c !! h = Some r /\ r_prog r = Some (mkProg b prog) /\ P b.
  Definition below (x : N) (b : bitset) : Prop := (Z.of_N x < 64 * Z.of_nat (length (bdata b)))%Z.

  Lemma torn_get c f f' c' e : mt c -> dt f -> execs f (get_record c h) f' (Done (c', e)) ->
    f' = f /\ mt c' /\ ((exists w, e = Err w) \/ exists r b, e = Ok (r, mkProg b prog) /\ short b /\ c_index c' !! h = Some r
      /\ r_prog r = Some (mkProg b prog) /\ r_path r = pa /\ r_hash r = h /\ forall P, loaded c P -> P b).
  Proof.
    intros (Hd & r & Hr & Hrh & Hrp & Hrg) (_ & _ & l & Hl & Hcut) H. pose proof (get_record_frame _ _ _ _ _ H) as ->.
    split; [done|]. unfold get_record in H. rewrite Hr in H. unfold fill in H. destruct (r_prog r) as [p|] eqn:Ep.
    - apply execs_ret in H as [_ [= -> ->]]. split; [split; [done|]; exists r; by rewrite Ep|]. right.
      destruct (Hrg p eq_refl) as (b & -> & Hb). exists r, b. split_and!; try done.
      intros P (r2 & b2 & Hr2 & Hp2 & HP). rewrite Hr in Hr2. by simplify_eq.
    - apply execs_bind_done in H as (f1 & g & Hg & H). unfold load_prog in Hg. rewrite Hd, Hrh in Hg.
      apply execs_do in Hg as (rep & f2 & Hs & Hg). apply ostep_read_only in Hs as [-> Hs]; [|done].
      assert (forall w, g = Err w -> mt c' /\ exists w, e = Err w) as Herr.
      { intros w ->. apply execs_ret in H as [_ [= -> ->]]. split; [|by eexists]. split; [done|]. exists r. rewrite Ep. done. }
      destruct Hs as [Hs| ->].
      2:{ apply execs_ret in Hg as [_ [= Hg]]. destruct (Herr _ Hg). eauto. }
      cbn [do_op] in Hs. rewrite Hl in Hs. simplify_eq. destruct (bdeserialize l) as [b|w|w] eqn:Eb; cbn [rbind lift] in Hg.
      + apply execs_ret in Hg as [_ [= ->]]. apply execs_ret in H as [_ [= -> ->]].
        apply (cut_load _ _ Hcut) in Eb. split.
        * split; [done|]. cbn [set_index c_index]. rewrite lookup_insert. eexists. split; [done|]. split_and!; [done..|].
          cbn [set_prog r_prog]. intros p [= <-]. eauto.
        * right. eexists _, b. split; [done|]. split; [done|]. split; [cbn [set_index c_index]; apply lookup_insert|].
          split_and!; [done..|]. intros P (r2 & b2 & Hr2 & Hp2 & HP). rewrite Hr in Hr2. simplify_eq.
      + apply execs_ret in Hg as [_ [= Hg]]. destruct (Herr _ Hg). eauto.
      + apply execs_die in Hg as [_ ?]. done.
  Qed.
  Lemma dt_data f f2 : dt f -> (forall q, q <> pa \/ f !! q = Some NDir -> f2 !! q = f !! q) -> dt f2.
  Proof.
    intros (H1 & H2 & l & H3 & H4) Hq. split_and!.
    - rewrite Hq; [done|by right].
    - rewrite Hq; [done|]. left. intros E. apply Hpar. rewrite <- E. apply parent_index. done.
    - exists l. split; [|done]. rewrite Hq; [done|]. left. intros E. apply Hpar. rewrite <- E. apply parent_prog; done.
  Qed.
  Lemma dt_torn f b f2 : dt f -> short b -> torn f prog (bserialize b) f2 -> dt f2.
  Proof.
    intros Hf Hb Ht. pose proof Hf as (H1 & H2 & l & H3 & H4). destruct Ht as [->|[k ->]]; [done|].
    split_and!.
    - rewrite lookup_insert_ne; [done|]. apply dir_not_child; [done|apply hash_normal; done].
    - rewrite lookup_insert_ne; [done|]. apply prog_path_ne_index; done.
    - rewrite lookup_insert. eexists. split; [done|]. by apply cut_take, cut_short.
  Qed.
  Lemma killed_data r i data f f2 : r_path r = pa -> killed f (save_chunk_data r i data) f2 ->
    forall q, q <> pa \/ f !! q = Some NDir -> f2 !! q = f !! q.
  Proof.
    intros Hp Hx q Hq1. unfold save_chunk_data in Hx. rewrite Hp in Hx.
    inversion Hx as [|? ? ? ? Hpa|? ? ? rr f3 ? Hs Hkk]; subst; [done| |].
    - destruct Hq1 as [Hq1|Hq1]; [apply (partial_frame _ _ _ _ Hpa); done|].
      inversion Hpa as [|?|? ? ? k Hw'|]; subst; [done|]. apply lookup_insert_ne. intros E0. rewrite E0 in Hw'. apply writable_dir in Hw'. done.
    - apply killed_ret in Hkk as ->. destruct Hq1 as [Hq1|Hq1]; [apply (ostep_frame _ _ _ _ _ Hs); done|].
      destruct Hs as [rr f3 E|f3 Hpa].
      + cbn [do_op] in E. destruct (writable f (r_path r)) eqn:Hw'; [|simplify_eq; done].
        destruct (decide (q = r_path r)) as [->|Hne]; [apply writable_dir in Hw'; done|].
        repeat case_match; simplify_eq; apply lookup_insert_ne; done.
      + inversion Hpa as [|?|? ? ? k Hw'|]; subst; [done|]. apply lookup_insert_ne. intros E0. rewrite E0 in Hw'. apply writable_dir in Hw'. done.
  Qed.
  Lemma torn_save_killed c f i data f' : mt c -> dt f -> loaded c (below i) -> killed f (save_chunk c h i data) f' -> dt f'.
  Proof.
    intros Hm Hf Hl Hk. unfold save_chunk in Hk. apply killed_bind in Hk as [Hk|(f1 & [c1 g] & H1 & Hk)].
    - apply killed_pure in Hk as ->; [done|apply pure_get_record].
    - destruct (torn_get _ _ _ _ _ Hm Hf H1) as (-> & Hm1 & [[w ->]|(r & b & -> & Hb & Hr & Hp & Hrp & Hrh & HP)]);
        [by apply killed_die in Hk as ->|].
      specialize (HP _ Hl). apply killed_bind in Hk as [Hk|(f2 & e & H2 & Hk)].
      + eapply dt_data; [exact Hf|]. eapply killed_data; done.
      + apply execs_killed in H2. pose proof (dt_data _ _ Hf (killed_data _ _ _ _ _ Hrp H2)) as Hf2.
        apply killed_on_ok in Hk as [->|([] & -> & Hk)]; [done|]. cbn [p_bits p_file] in Hk.
        destruct (short_set b i Hb HP) as (b2 & E & Hb2 & Hl2). rewrite E in Hk.
        apply killed_bind in Hk as [Hk|(f3 & e & H3 & Hk)].
        * apply (killed_save_prog _ dir h b2) in Hk; [|done|done]. eapply dt_torn; done.
        * apply execs_killed, (killed_save_prog _ dir h b2) in H3; [|done|done]. apply killed_ret in Hk as ->. eapply dt_torn; done.
  Qed.
  Lemma torn_save c f i data f' c' e : mt c -> dt f -> loaded c (below i) -> execs f (save_chunk c h i data) f' (Done (c', e)) ->
    mt c' /\ loaded c' (below i).
  Proof.
    intros Hm Hf Hl H. unfold save_chunk in H. apply execs_bind_done in H as (f1 & [c1 g] & H1 & H).
    destruct (torn_get _ _ _ _ _ Hm Hf H1) as (-> & Hm1 & [[w ->]|(r & b & -> & Hb & Hr & Hp & Hrp & Hrh & HP)]);
      [apply execs_die in H as [_ ?]; done|].
    specialize (HP _ Hl). apply execs_bind_done in H as (f2 & e2 & H2 & H).
    destruct e2 as [[]|w|w]; cbn [on_ok] in H.
    - cbn [p_bits p_file] in H. destruct (short_set b i Hb HP) as (b2 & E & Hb2 & Hl2). rewrite E in H.
      apply execs_bind_done in H as (f3 & e3 & H3 & H). apply execs_ret in H as [-> [= -> ->]]. split.
      + split; [apply Hm1|]. cbn [set_index c_index]. rewrite lookup_insert. eexists. split; [done|]. split_and!; [done..|].
        cbn [set_prog r_prog]. intros p [= <-]. eauto.
      + eexists _, b2. cbn [set_index c_index]. rewrite lookup_insert. split; [done|]. split; [done|]. unfold below in *. rewrite Hl2. done.
    - apply execs_ret in H as [-> [= -> ->]]. split; [done|]. exists r, b. done.
    - apply execs_die in H as [_ ?]. done.
  Qed.

  Definition tinv (w : lworld) : Prop := mt (l_cat w) /\ dt (l_fs w) /\
    match l_pc w with
    | LCheck => True
    | LMissing => loaded (l_cat w) (fun b => exists y, bits b y = false /\ below y b)
    | LHosts i | LChunk i _ => loaded (l_cat w) (below i)
    | LDone => False
    end.
  Lemma tinv_killed own resps dg w f' : tinv w -> killed (l_fs w) (loop_step own h resps dg (l_pc w) (l_cat w) (l_active w)) f' -> dt f'.
  Proof.
    destruct w as [pc c f D]. intros (Hm & Hf & Hpc) Hk. cbn [l_pc l_cat l_fs l_active] in *.
    destruct pc as [| |i|i [|r hs]|]; cbn [loop_step] in Hk.
    - apply killed_pure in Hk as ->; [done|]. apply pure_bind; [|intros [? ?]; exact I]. apply pure_bind; [apply pure_get_record|].
      intros [c1 [rp|w|w]]; try exact I. destruct (bfull (p_bits rp.2)); exact I.
    - apply killed_pure in Hk as ->; [done|]. apply pure_bind; [|intros [? [|? ?]]; exact I]. apply pure_bind; [apply pure_get_record|].
      intros [c1 [rp|w|w]]; try exact I. destruct (bunfilled_ranges (p_bits rp.2)); exact I.
    - apply killed_pure in Hk as ->; [done|]. destruct (good_hosts own resps); exact I.
    - by apply killed_ret in Hk as ->.
    - destruct (decide ((h, h_addr r) ∈ D)) as [Hin|Hin]; [by apply killed_ret in Hk as ->|].
      apply killed_bind in Hk as [Hk|(f1 & c1 & H1 & Hk)].
      + unfold download_chunk in Hk. destruct dg as [ds|]; [|by apply killed_die in Hk as ->].
        destruct (recv_datagrams ds) as [[st|buf v]|w|w]; [by apply killed_ret in Hk as ->| |by apply killed_die in Hk as ->..].
        apply killed_bind in Hk as [Hk|(f1 & [c1 e] & H1 & Hk)]; [eapply torn_save_killed; done|].
        apply execs_killed in H1. assert (f' = f1) as -> by (destruct e; [by apply killed_ret in Hk|by apply killed_die in Hk..]).
        eapply torn_save_killed; done.
      + apply killed_ret in Hk as ->. apply execs_killed in H1. unfold download_chunk in H1. destruct dg as [ds|]; [|by apply killed_die in H1 as ->].
        destruct (recv_datagrams ds) as [[st|buf v]|w|w]; [by apply killed_ret in H1 as ->| |by apply killed_die in H1 as ->..].
        apply killed_bind in H1 as [Hk|(f2 & [c2 e] & H1 & Hk)]; [eapply torn_save_killed; done|].
        apply execs_killed in H1. assert (f1 = f2) as -> by (destruct e; [by apply killed_ret in Hk|by apply killed_die in Hk..]).
        eapply torn_save_killed; done.
    - done.
  Qed.
  Lemma tinv_step own resps dg w w' out : tinv w -> lstep own h resps dg w = Some (w', out) -> tinv w'.
  Proof.
    intros Ht H. unfold lstep in H. destruct (run _ _) as [f' [[[[c' D'] pc'] out']|?|]] eqn:E; simplify_eq.
    apply run_execs in E. pose proof (tinv_killed _ _ _ _ _ Ht (execs_killed _ _ _ _ E)) as Hf'.
    destruct w as [pc c f D]. destruct Ht as (Hm & Hf & Hpc). cbn [l_pc l_cat l_fs l_active] in *.
    assert (mt c' /\ match pc' with LCheck => True | LMissing => loaded c' (fun b => exists y, bits b y = false /\ below y b)
       | LHosts i | LChunk i _ => loaded c' (below i) | LDone => False end) as [G1 G2]; [|done].
    destruct pc as [| |i|i [|r hs]|]; cbn [loop_step] in E.
    - apply execs_bind_done in E as (f1 & [c1 b] & H1 & E). unfold file_complete in H1. apply execs_bind_done in H1 as (f2 & [c2 g] & H2 & H1).
      destruct (torn_get _ _ _ _ _ Hm Hf H2) as (-> & Hm1 & [[w ->]|(r & bb & -> & Hb & Hr & Hp & Hrp & Hrh & HP)]);
        [apply execs_die in H1 as [_ ?]; done|]. cbn [snd p_bits] in H1.
      destruct (short_full _ Hb) as [[w Ew]|(Ew & y & Hy1 & Hy2)]; rewrite Ew in H1; [apply execs_die in H1 as [_ ?]; done|].
      apply execs_ret in H1 as [-> [= -> ->]]. apply execs_ret in E as [-> [= -> -> -> ->]]. split; [done|].
      exists r, bb. split; [done|]. split; [done|]. exists y. done.
    - apply execs_bind_done in E as (f1 & [c1 rs] & H1 & E). unfold missing_chunks in H1. apply execs_bind_done in H1 as (f2 & [c2 g] & H2 & H1).
      destruct (torn_get _ _ _ _ _ Hm Hf H2) as (-> & Hm1 & [[w ->]|(r & bb & -> & Hb & Hr & Hp & Hrp & Hrh & HP)]);
        [apply execs_die in H1 as [_ ?]; done|]. cbn [snd p_bits] in H1.
      apply HP in Hpc as (y & Hy1 & Hy2).
      destruct (bunfilled_ranges bb) as [rs'|w|w] eqn:Eb; [|apply execs_die in H1 as [_ ?]; done..].
      apply execs_ret in H1 as [-> [= -> ->]]. destruct rs' as [|r0 rs']; [apply execs_die in E as [_ ?]; done|].
      apply execs_ret in E as [-> [= -> -> -> ->]]. split; [done|].
      exists r, bb. split; [done|]. split; [done|]. unfold below in *.
      assert (r_start r0 <= y)%N as Hle; [|lia]. apply (short_missing _ _ _ Hb Eb); [|done].
      destruct Hb as (z & Hz & [_ Hs Hl _]). unfold pad in *. cbn [bdata bsize] in *. rewrite app_length, replicate_length in Hl. lia.
    - destruct (good_hosts own resps); [|apply execs_die in E as [_ ?]; done..]. apply execs_ret in E as [-> [= -> -> -> ->]]. done.
    - apply execs_ret in E as [-> [= -> -> -> ->]]. done.
    - destruct (decide ((h, h_addr r) ∈ D)) as [Hin|Hin]; [apply execs_ret in E as [-> [= -> -> -> ->]]; done|].
      apply execs_bind_done in E as (f1 & c1 & H1 & E). apply execs_ret in E as [-> [= -> -> -> ->]].
      unfold download_chunk in H1. destruct dg as [ds|]; [|apply execs_die in H1 as [_ ?]; done].
      destruct (recv_datagrams ds) as [[st|buf v]|w|w]; [apply execs_ret in H1 as [-> [= ->]]; done| |apply execs_die in H1 as [_ ?]; done..].
      apply execs_bind_done in H1 as (f2 & [c2 e] & H2 & H1). destruct e; [|apply execs_die in H1 as [_ ?]; done..].
      apply execs_ret in H1 as [-> [= ->]]. exact (torn_save _ _ _ _ _ _ _ Hm Hf Hpc H2).
    - done.
  Qed.
  Lemma tinv_exec own net w n out w' : tinv w -> lexec own h net w n out w' -> tinv w'.
  Proof.
    intros H0. induction 1 as [a|a n out b resps dg out' c H IH Hnd Hnet Hst]; [done|]. eapply tinv_step; [by apply IH|done].
  Qed.
  Lemma torn_starts f c : dt f -> starts cwd dir dl f c -> mt c.
  Proof.
    intros (H1 & H2 & H3) Hst. pose proof (starts_whole cwd dir dl f c0 Hcwd Hdir Hdl H1 Hc0 H2) as Hst'.
    specialize (Hst 0%Z 0%Z). rewrite (Hst' 0%Z 0%Z) in Hst. injection Hst as <-. split; [done|].
    destruct Hr0 as (r0 & Hr & Hh & Hp). cbn [c_index]. rewrite lookup_fmap, Hr. eexists. split; [done|].
    unfold san_irec. cbn [r_hash r_path r_prog]. done.
  Qed.
  (** asking for the download again changes nothing *)
  Lemma torn_begin ifs c resps meta f f' : mt c -> dt f -> killed f (start_download ifs c h resps meta) f' ->
    dt f' /\ forall c' own, execs f (start_download ifs c h resps meta) f' (Done (c', Ok own)) -> mt c'.
  Proof.
    intros Hm Hf Hk.
    assert (forall f1 c1 g, execs f (contains c h) f1 (Done (c1, g)) -> f1 = f /\ mt c1) as Hcon.
    { intros f1 c1 g H. unfold contains in H. apply execs_bind_done in H as (f2 & [c2 g2] & H2 & H).
      destruct (torn_get _ _ _ _ _ Hm Hf H2) as (-> & Hm1 & _).
      destruct g2; cbn [on_ok] in H; [apply execs_ret in H as [-> [= -> ->]]..|apply execs_die in H as [_ ?]]; done. }
    assert (forall c1 size count chunk name, mt c1 ->
      register_download c1 size count chunk h name = Ret (c1, Err "identical file already shared")) as Hreg.
    { intros c1 size count chunk name (_ & r & Hr & _). unfold register_download, add_record. cbn [r_hash]. rewrite Hr. done. }
    assert (forall e, download_meta h meta = Ok e -> e_hash e = h) as Hmeta.
    { intros e He. unfold download_meta in He. destruct meta as [d|]; [|done]. repeat case_match; simplify_eq; done. }
    split.
    - unfold start_download in Hk. apply killed_bind in Hk as [Hk|(f1 & [c1 ext] & H1 & Hk)].
      + apply killed_pure in Hk as ->; [done|]. apply pure_bind; [apply pure_get_record|]. intros [c1 [rp|w|w]]; exact I.
      + destruct (Hcon _ _ _ H1) as [-> Hm1]. assert (f' = f) as ->; [|done].
        apply killed_pure in Hk; [done|]. destruct (local_ip ifs) as [[ip|]|w|w]; try exact I.
        destruct (new_ipv4 ip) as [own|w|w]; try exact I. destruct (good_hosts own resps) as [[|x l]|w|w]; try exact I.
        destruct ext as [x'|w|w]; [exact I|..]; (destruct (download_meta h meta) as [e|w'|w'] eqn:Ed; try exact I; 
          rewrite (Hmeta _ eq_refl), Hreg by done; exact I).
    - intros c' own H. unfold start_download in H. apply execs_bind_done in H as (f1 & [c1 ext] & H1 & H).
      destruct (Hcon _ _ _ H1) as [-> Hm1]. 
      destruct (local_ip ifs) as [[ip|]|w|w]; try (apply execs_die in H as [_ ?]; done).
      destruct (new_ipv4 ip) as [own'|w|w]; [|apply execs_ret in H as [_ [= -> ?]]; done|apply execs_die in H as [_ ?]; done].
      destruct (good_hosts own' resps) as [[|x l]|w|w]; [apply execs_ret in H as [_ [= -> ?]]; done| |apply execs_die in H as [_ ?]; done..].
      destruct ext as [x'|w|w]; [apply execs_ret in H as [_ [= -> ?]]; done|..];
        (destruct (download_meta h meta) as [e|w'|w'] eqn:Ed; [|apply execs_ret in H as [_ [= -> ?]]; done|apply execs_die in H as [_ ?]; done];
          rewrite (Hmeta _ eq_refl), Hreg in H by done; cbn [bind] in H; apply execs_ret in H as [_ [= -> ?]]; done).
  Qed.
  Lemma torn_disks f f' : dt f -> disks h cwd dir dl f f' -> dt f'.
  Proof.
    intros Hf. induction 1 as [|f1 c ifs resps meta f2 _ IH Hst Hk|f1 c own c2 f2 n out b resps dg f3 _ IH Hst (ifs & rs & meta & Hbe) Hex Hk]; [done| |].
    - apply (torn_begin _ _ _ _ _ _ (torn_starts _ _ IH Hst) IH Hk).
    - destruct (torn_begin _ _ _ _ _ _ (torn_starts _ _ IH Hst) IH (execs_killed _ _ _ _ Hbe)) as [Hf2 Hm2].
      specialize (Hm2 _ _ Hbe). eapply tinv_killed; [|exact Hk]. eapply tinv_exec; [|exact Hex]. done.
  Qed.
  Lemma torn_attempts f b : dt f -> attempts h cwd dir dl f b -> tinv b.
  Proof.
    intros Hf (f1 & c & own & c2 & f2 & n & out & Hdi & Hst & (ifs & resps & meta & Hbe) & Hex).
    pose proof (torn_disks _ _ Hf Hdi) as Hf1. eapply tinv_exec; [|exact Hex]. pose proof (torn_starts _ _ Hf1 Hst) as Hm.
    destruct (torn_begin _ _ _ _ _ _ Hm Hf1 (execs_killed _ _ _ _ Hbe)) as [Hf2 Hm2]. specialize (Hm2 _ _ Hbe). done.
  Qed.
End torn_loop.

(** ** What a kill leaves of a chunk being saved *)
Lemma synced_get c f A h a f' c' e : synced c f A -> A !! h = Some a -> execs f (get_record c h) f' (Done (c', e)) ->
  f' = f /\ ((exists w, e = Err w) \/ exists r b, e = Ok (r, mkProg b (prog_path (c_dir c) h)) /\ brel b (a_held a, a_count a)
    /\ r_path r = a_path a /\ r_chunk r = a_chunk a).
Proof.
  intros H Ha Hx. pose proof (get_record_frame _ _ _ _ _ Hx) as ->. split; [done|].
  pose proof (sy_ent _ _ _ H h) as He. rewrite Ha in He. destruct (c_index c !! h) as [r0|] eqn:Er; [|done].
  destruct He as (R1 & R2 & R3 & R4 & R5 & R6 & R7 & R8 & b & R9 & R10 & R11).
  unfold get_record in Hx. rewrite Er in Hx. unfold fill in Hx. destruct R11 as [R11|R11]; rewrite R11 in Hx.
  - apply execs_bind_done in Hx as (f1 & g & Hg & Hx). unfold load_prog in Hg. rewrite R1 in Hg.
    apply execs_do in Hg as (rep & f2 & Hs & Hg). apply ostep_read_only in Hs as [-> [Hs| ->]]; [| |done].
    2:{ apply execs_ret in Hg as [-> [= ->]]. apply execs_ret in Hx as [_ [= -> ->]]. eauto. }
    cbn [do_op] in Hs. rewrite R10 in Hs. simplify_eq.
    rewrite bdeserialize_serialize in Hg; [|apply R9|pose proof (binv_size _ (proj1 R9)); lia]. cbn [rbind lift] in Hg.
    apply execs_ret in Hg as [-> [= ->]]. apply execs_ret in Hx as [_ [= -> ->]]. right. eexists _, b. done.
  - apply execs_ret in Hx as [_ [= -> ->]]. right. exists r0, b. done.
Qed.
(** the data file while it is written *)
Definition part_written (f : fs) (p : path) (off : nat) (data : list byte) (f1 : fs) : Prop :=
  f1 = f \/ exists k, writable f p = true /\ f1 = <[p := NFile (write_at (default [] (file_at f p)) off (take k data))]> f.
Lemma killed_data_exact r i data f f2 : (i < 65536)%N -> (0 < r_chunk r < 4294967296)%Z ->
  killed f (save_chunk_data r (Z.of_N i) data) f2 -> part_written f (r_path r) (N.to_nat i * Z.to_nat (r_chunk r)) data f2.
Proof.
  intros Hi Hc Hx. unfold save_chunk_data in Hx. rewrite wrap64_small in Hx by nia. unfold part_written. rewrite <- contents_file_at.
  replace (N.to_nat i * Z.to_nat (r_chunk r)) with (Z.to_nat (Z.of_N i * r_chunk r)) by nia.
  inversion Hx as [|? ? ? ? Hpa|? ? ? rr f3 ? Hs Hkk]; subst; [by left| |].
  - inversion Hpa; subst; [by left|]. right. eauto.
  - apply killed_ret in Hkk as ->. destruct Hs as [rr f3 E|f3 Hpa].
    + cbn [do_op] in E. destruct (writable f (r_path r)) eqn:Hw; [|simplify_eq; by left].
      destruct (Z.ltb_spec (Z.of_N i * r_chunk r) 0) as [?|_]; [nia|]. simplify_eq. right. exists (length data). rewrite take_ge by lia. done.
    + inversion Hpa; subst; [by left|]. right. eauto.
Qed.
Lemma killed_save_exact c f A h a i data f' : synced c f A -> A !! h = Some a -> (i < 65536)%N ->
  killed f (save_chunk c h i data) f' ->
  exists f1, part_written f (a_path a) (N.to_nat i * Z.to_nat (a_chunk a)) data f1
    /\ (f' = f1 \/ exists b j, brel b (a_held (hold a i), a_count (hold a i)) /\ writable f (a_path a) = true
         /\ f1 = <[a_path a := NFile (write_at (default [] (file_at f (a_path a))) (N.to_nat i * Z.to_nat (a_chunk a)) data)]> f
         /\ f' = <[prog_path (c_dir c) h := NFile (take j (bserialize b))]> f1).
Proof.
  intros H Ha Hi Hk. pose proof (sy_dir _ _ _ H) as Hd. pose proof (proj1 (synced_facts _ _ _ _ _ H Ha)) as Hch.
  unfold save_chunk in Hk. apply killed_bind in Hk as [Hk|(f1 & [c1 g] & H1 & Hk)].
  { apply killed_pure in Hk as ->; [|apply pure_get_record]. exists f. split; by left. }
  destruct (synced_get _ _ _ _ _ _ _ _ H Ha H1) as (-> & [[w ->]|(r & b & -> & Hb & Hrp & Hrc)]).
  { apply killed_die in Hk as ->. exists f. split; by left. }
  apply killed_bind in Hk as [Hk|(f2 & e & H2 & Hk)].
  { exists f'. split; [|by left]. rewrite <- Hrp, <- Hrc. apply killed_data_exact; [done|congruence|done]. }
  exists f2. split.
  { apply execs_killed in H2. rewrite <- Hrp, <- Hrc. apply killed_data_exact; [done|congruence|done]. }
  apply killed_on_ok in Hk as [->|([] & -> & Hk)]; [by left|].
  assert (writable f (a_path a) = true /\ f2 = <[a_path a := NFile (write_at (default [] (file_at f (a_path a))) (N.to_nat i * Z.to_nat (a_chunk a)) data)]> f) as [Hwr Hf2].
  { unfold save_chunk_data in H2. apply execs_do in H2 as (rep & f3 & Hs & H2). apply execs_ret in H2 as [-> [= H2]].
    destruct rep; cbn [ok_or] in H2; try done. apply ostep_write_at_ok in Hs as (Hwr & _ & ->). rewrite Hrp, Hrc in *. split; [done|].
    rewrite wrap64_small by nia. rewrite contents_file_at. do 3 f_equal. nia. }
  destruct (bset_brel b _ _ i Hb Hi) as (b' & Hset & Hb'). cbn [p_bits p_file] in Hk. rewrite Hset in Hk.
  assert (torn f2 (prog_path (c_dir c) h) (bserialize b') f') as [->|[j ->]].
  { apply killed_bind in Hk as [Hk|(f3 & e & H3 & Hk)].
    - apply (killed_save_prog _ (c_dir c) h b') in Hk; done.
    - apply execs_killed, (killed_save_prog _ (c_dir c) h b') in H3; [|done|done]. by apply killed_ret in Hk as ->. }
  - by left.
  - right. exists b', j. done.
Qed.

(** ** Starting again *)
Lemma restart_starts c f A cwd : is_rooted cwd = true -> synced c f A -> valid_utf8 (c_dir c) -> paths_utf8 A ->
  exists c', starts cwd (c_dir c) (c_dl c) f c' /\ synced c' f A /\ c_dir c' = c_dir c /\ c_dl c' = c_dl c.
Proof.
  intros Hc H Hu Hp. destruct (restart_ok c f A 0 0 cwd Hc H Hu Hp) as (c' & Hr & G). exists c'. split; [|done].
  intros pid now. rewrite <- Hr. by rewrite !(restart_gen c f A).
Qed.
Lemma synced_data c f A p l : synced c f A -> parent p <> c_dir c -> writable f p = true -> synced c (<[p := NFile l]> f) A.
Proof.
  intros H Hpar Hw. apply (synced_user _ f); [done| |].
  - apply lookup_insert_ne. intros ->. apply writable_dir in Hw. apply Hw, H.
  - intros q Hq. apply lookup_insert_ne. intros ->. done.
Qed.
Lemma synced_hold c f A h a i b : synced c f A -> A !! h = Some a -> brel b (a_held (hold a i), a_count (hold a i)) ->
  exists c1, synced c1 (<[prog_path (c_dir c) h := NFile (bserialize b)]> f) (<[h := hold a i]> A) /\ c_dir c1 = c_dir c /\ c_dl c1 = c_dl c.
Proof.
  intros H Ha Hb. pose proof (sy_dir _ _ _ H) as Hd.
  destruct (get_record_ok c f A h a H Ha) as (r & b0 & Hrun & Hp & Hrel & Hb0 & Hs & Hm & Hfile).
  pose proof Hrel as (Hrh & Hw & Hrp & Hcl & Hrs & Hsz & Hrc & Hch & _).
  set (r2 := set_prog r (mkProg b (prog_path (c_dir c) h))). exists (set_index c (<[h:=r2]> (c_index c))). split; [|done].
  assert (<[prog_path (c_dir c) h:=NFile (bserialize b)]> f =
     <[prog_path (c_dir c) h:=NFile (bserialize b)]> (<[join2 (c_dir c) index_name := NFile (marshal (set_index c (<[h:=r2]> (c_index c))))]> f)) as ->.
  { f_equal. symmetry. apply insert_id. rewrite (sy_index _ _ _ H). do 2 f_equal.
    rewrite <- Hm. apply marshal_ext; [done..|]. cbn [set_index c_index]. rewrite !fmap_insert. done. }
  apply synced_put; [done|done| |done].
  unfold entry_rel, r2, hold. cbn [set_prog r_hash r_path r_size r_chunk r_prog a_path a_size a_chunk a_held a_count].
  split_and!; [done|done|done|done|done|lia|lia|done|lia|lia|].
  exists b. split; [exact Hb|]. rewrite lookup_insert. split; [done|]. right. done.
Qed.
Lemma whole_length (b : bitset) X n : brel b (X, n) -> Z.of_nat (length (bserialize b)) = (8 + 8 * ((n + 63) / 64))%Z.
Proof. intros (Hb & Hn & _). cbn [snd] in Hn. rewrite bserialize_length. pose proof (binv_len _ Hb) as Hl. rewrite Hn in Hl. lia. Qed.

(** what the loop keeps of the catalogue *)
Definition kept (dl : path) (c : cat) : Prop := c_dl c = dl /\ forall h r, c_index c !! h = Some r -> valid_utf8 (r_path r).
Lemma kept_get dl c h f f' c' e : kept dl c -> execs f (get_record c h) f' (Done (c', e)) ->
  kept dl c' /\ forall r p, e = Ok (r, p) -> c_index c' !! h = Some r.
Proof.
  intros [H1 H2] H. apply get_record_runs in H as [-> [(r & p & -> & -> & Hp & r0 & Hr0 & -> & _)|[[w ->] ->]]]; [|done].
  split.
  - split; [done|]. cbn [set_index c_index]. intros h' r' Hl. apply lookup_insert_Some in Hl as [[<- <-]|[_ Hl]]; [|by eapply H2].
    cbn [set_prog r_path]. by eapply H2.
  - intros r p' [= <- <-]. cbn [set_index c_index]. apply lookup_insert.
Qed.
Lemma kept_step dl own h resps dg w w' out : kept dl (l_cat w) -> lstep own h resps dg w = Some (w', out) -> kept dl (l_cat w').
Proof.
  intros Hk H. unfold lstep in H. destruct (run _ _) as [f' [[[[c' D'] pc'] out']|?|]] eqn:E; simplify_eq.
  apply run_execs in E. destruct w as [pc c f D]. cbn [l_pc l_cat l_fs l_active] in *.
  destruct pc as [| |i|i [|r hs]|]; cbn [loop_step] in E.
  - apply execs_bind_done in E as (f1 & [c1 b] & H1 & E). apply execs_ret in E as [-> [= -> -> -> ->]].
    unfold file_complete in H1. apply execs_bind_done in H1 as (f2 & [c2 g] & H2 & H1).
    apply (kept_get _ _ _ _ _ _ _ Hk) in H2 as [Hk2 _]. destruct g as [rp|?|?]; [|apply execs_die in H1 as [_ ?]; done..].
    destruct (bfull _); [|apply execs_die in H1 as [_ ?]; done..]. apply execs_ret in H1 as [-> [= -> ->]]. done.
  - apply execs_bind_done in E as (f1 & [c1 rs] & H1 & E).
    unfold missing_chunks in H1. apply execs_bind_done in H1 as (f2 & [c2 g] & H2 & H1).
    apply (kept_get _ _ _ _ _ _ _ Hk) in H2 as [Hk2 _]. destruct g as [rp|?|?]; [|apply execs_die in H1 as [_ ?]; done..].
    destruct (bunfilled_ranges _); [|apply execs_die in H1 as [_ ?]; done..]. apply execs_ret in H1 as [-> [= -> ->]].
    destruct a as [|r0 rs]; [apply execs_die in E as [_ ?]; done|]. apply execs_ret in E as [-> [= -> -> -> ->]]. done.
  - destruct (good_hosts own resps); [|apply execs_die in E as [_ ?]; done..]. apply execs_ret in E as [-> [= -> -> -> ->]]. done.
  - apply execs_ret in E as [-> [= -> -> -> ->]]. done.
  - destruct (decide ((h, h_addr r) ∈ D)) as [Hin|Hin]; [apply execs_ret in E as [-> [= -> -> -> ->]]; done|].
    apply execs_bind_done in E as (f1 & c1 & H1 & E). apply execs_ret in E as [-> [= -> -> -> ->]].
    unfold download_chunk in H1. destruct dg as [ds|]; [|apply execs_die in H1 as [_ ?]; done].
    destruct (recv_datagrams ds) as [[st|buf v]|w|w]; [apply execs_ret in H1 as [-> [= ->]]; done| |apply execs_die in H1 as [_ ?]; done..].
    apply execs_bind_done in H1 as (f2 & [c2 e] & H2 & H1). destruct e; [|apply execs_die in H1 as [_ ?]; done..].
    apply execs_ret in H1 as [-> [= ->]].
    unfold save_chunk in H2. apply execs_bind_done in H2 as (f3 & [c3 g] & H3 & H2).
    apply (kept_get _ _ _ _ _ _ _ Hk) in H3 as [Hk2 Hg]. destruct g as [[r3 p3]|?|?]; [|apply execs_die in H2 as [_ ?]; done..].
    specialize (Hg _ _ eq_refl). apply execs_bind_done in H2 as (f4 & e & H4 & H2).
    destruct e as [[]|?|?]; cbn [on_ok] in H2; [|apply execs_ret in H2 as [-> [= -> ?]]; done|apply execs_die in H2 as [_ ?]; done].
    destruct (bset _ _); [|apply execs_die in H2 as [_ ?]; done..]. apply execs_bind_done in H2 as (f5 & e & H5 & H2).
    apply execs_ret in H2 as [-> [= -> ?]]. split; [apply Hk2|]. cbn [set_index c_index].
    intros h' r' Hl. apply lookup_insert_Some in Hl as [[<- <-]|[_ Hl]]; [|by eapply Hk2]. cbn [set_prog r_path]. by eapply Hk2.
  - apply execs_ret in E as [-> [= -> -> -> ->]]. done.
Qed.
Lemma kept_exec dl own h net w n out w' : kept dl (l_cat w) -> lexec own h net w n out w' -> kept dl (l_cat w').
Proof.
  intros H0. induction 1 as [a|a n out b resps dg out' c H IH Hnd Hnet Hst]; [done|]. eapply kept_step; [by apply IH|done].
Qed.
Lemma kept_synced c f A : synced c f A -> (paths_utf8 A <-> kept (c_dl c) c).
Proof.
  intros H. split.
  - intros Hp. split; [done|]. intros h r Hr. pose proof (sy_ent _ _ _ H h) as He. rewrite Hr in He.
    destruct (A !! h) as [a|] eqn:Ea; [|done]. destruct He as (_ & _ & -> & _). by eapply Hp.
  - intros [_ Hp] h a Ha. pose proof (sy_ent _ _ _ H h) as He. rewrite Ha in He.
    destruct (c_index c !! h) as [r|] eqn:Er; [|done]. destruct He as (_ & _ & <- & _). by eapply Hp.
Qed.

(** ** The whole *)
Lemma holds_part content old cur new cs i k (S : nat -> Prop) : 0 < cs -> holds_chunks content old cur cs S ->
  overlay cur (i * cs) (take k (chunk_bytes content cs i)) new -> holds_chunks content old new cs S.
Proof.
  intros Hcs [H1 H2] Ho. set (d := take k (chunk_bytes content cs i)) in *.
  assert (length d = k `min` (cs `min` (length content - i * cs))) as Hl
    by (unfold d, chunk_bytes; rewrite !take_length, drop_length; lia).
  split.
  - intros j Hj HS. rewrite (Ho j). destruct (decide (i * cs <= j < i * cs + length d)) as [Hin|Hin].
    + unfold d, chunk_bytes. rewrite lookup_take by lia. rewrite lookup_take by lia. rewrite lookup_drop. f_equal. lia.
    + specialize (H1 j Hj HS). destruct (lookup_lt_is_Some_2 content j Hj) as [x Hx]. rewrite Hx in H1.
      rewrite decide_True by (eapply lookup_lt_Some; done). rewrite Hx. done.
  - intros j Hj. rewrite (Ho j). rewrite decide_False by lia.
    destruct (decide (j < length cur)) as [Hlt|Hge]; [apply H2; done|].
    rewrite <- (H2 j Hj). rewrite (lookup_ge_None_2 cur j) by lia.
    destruct (decide (d = [])) as [He|Hne].
    + rewrite decide_False by naive_solver. done.
    + assert (length d <> 0) by (destruct d; done). rewrite decide_False by lia. done.
Qed.
(** a disk from which the download goes on *)
Definition good_disk (dir dl : path) (h : hash) (content old : list byte) (cs : nat) (a : aentry) (rest : list N) (f : fs) : Prop :=
  exists c A a1, synced c f A /\ c_dir c = dir /\ c_dl c = dl /\ A !! h = Some a1 /\ a_path a1 = a_path a /\ a_chunk a1 = a_chunk a
    /\ a_count a1 = a_count a /\ todo a1 = rest /\ can_write f (a_path a) /\ paths_utf8 A
    /\ holds_chunks content old (default [] (file_at f (a_path a))) cs (fun j => N.of_nat j ∈ a_held a1).
Lemma good_continues cwd dir dl h content old cs a rest f : is_rooted cwd = true -> valid_utf8 dir ->
  0 < cs -> a_chunk a = Z.of_nat cs -> a_count a = Z.of_nat ((length content + cs - 1) / cs) -> (a_count a <= 65536)%Z ->
  parent (a_path a) <> dir ->
  (forall i, ~ ragged cs (chunk_bytes content cs i) \/ first_empty (chunk_bytes content cs i) <= 1024) ->
  good_disk dir dl h content old cs a rest f ->
  whole_progress dir h (a_count a) f /\ continues cwd dir dl h content cs (a_path a) old rest f.
Proof.
  intros Hcwd Hu Hcs Hc Hn Hmax Hpar Hfit (c & A & a1 & Hs & Hd & Hdl & Ha & Hp1 & Hc1 & Hn1 & Ht & Hw & Hpu & Hh). split.
  - destruct (get_record_ok c f A h a1 Hs Ha) as (r & b & _ & _ & _ & Hb & _ & _ & Hfile).
    exists (bserialize b). unfold file_at. rewrite <- Hd, Hfile. split; [done|]. rewrite <- Hn1. eapply whole_length. exact Hb.
  - destruct (restart_starts c f A cwd Hcwd Hs) as (c' & Hst & Hs' & Hd' & Hdl'); [rewrite Hd; done|done|].
    rewrite Hd, Hdl in *. exists c'. split; [done|]. intros ifs own resps0 r0 hs0 meta Hns Hown Hsel.
    destruct (start_known_synced A c' f h a1 ifs own resps0 r0 hs0 meta Hs' Ha Hns Hown Hsel) as (c2 & Hrun & Hs2 & Hd2).
    clear Hst. exists c2. split; [exact Hrun|]. clear Hrun.
    assert (forall host port, hinv dir h host port content cs a1 (default [] (file_at f (a_path a1))) 0 [] (mkL LCheck c2 f ∅)) as H0.
    { intros host port. apply (hinv_start dir h host port content cs a1 _ A c2 f); try done; try congruence.
      intros k Hk Hj. rewrite Hp1. by apply Hh. }
    assert (forall i, (Z.of_nat i < a_count a1)%Z ->
      ~ ragged cs (chunk_bytes content cs i) \/ first_empty (chunk_bytes content cs i) <= N.to_nat 1024) as Hfit' by (by apply fit_bounded).
    assert (drop (length content) (default [] (file_at f (a_path a))) = drop (length content) old) as Hdrop.
    { apply list_eq. intros k. rewrite !lookup_drop. apply Hh. lia. }
    rewrite <- Hn1, <- ?Hp1 in *. split.
    + intros host port n out b Hex.
      destruct (hinv_exec dir h own host port content cs a1 _ Hcs Hn Hmax Hpar Hfit' _ n out b (H0 host port) Hex) as (sent & -> & Hb).
      destruct (hinv_bound _ _ _ _ _ _ _ _ Hcs Hn Hfit' n sent b Hb) as [H1 _]. rewrite Ht in H1. split; [done|]. split.
      * intros resps dg Hnd Hnet.
        destruct (hinv_step dir h own host port content cs a1 _ Hcs Hn Hmax Hpar Hfit' n sent b resps dg Hb Hnd Hnet) as (c3 & out2 & E & _).
        rewrite E. done.
      * intros E. destruct (hinv_done _ _ _ _ _ _ _ _ Hcs Hn Hfit' n sent b Hb E) as [-> ->]. rewrite Ht, Hdrop. done.
    + intros host port Hho.
      exact (hinv_completes dir h own host port content cs a1 _ Hcs Hn Hmax Hpar Hfit' _ Hho (H0 host port)).
Qed.
Lemma kill_disk dir dl h own host port content cs a0 old n sent b f' :
  0 < cs -> a_chunk a0 = Z.of_nat cs -> a_count a0 = Z.of_nat ((length content + cs - 1) / cs) -> (a_count a0 <= 65536)%Z ->
  parent (a_path a0) <> dir ->
  (forall i, ~ ragged cs (chunk_bytes content cs i) \/ first_empty (chunk_bytes content cs i) <= 1024) ->
  hinv dir h host port content cs a0 old n sent b -> kept dl (l_cat b) ->
  stopped own h (honest own host port content cs) b f' ->
  exists rest, todo a0 = sent ++ rest /\
   ((exists rest', (rest' = rest \/ exists i, rest = i :: rest') /\ good_disk dir dl h content old cs a0 rest' f')
    \/ ~ whole_progress dir h (a_count a0) f' /\ dt dir h (l_cat b) f' /\ clean_abs dir /\ clean_abs dl /\ hash_wf h /\ cat_ints (l_cat b)
       /\ exists r0, c_index (l_cat b) !! h = Some r0 /\ r_hash r0 = h /\ sanitize (r_path r0) = a_path a0).
Proof.
  intros Hcs Hc0 Hcount Hmax Hpar Hfit (A & a & Hs & Hd & Ha & Hp & Hc & Hn & Ht & Hw & Hh & Hact & Hpc) Hk (resps & dg & Hnet & Hkl).
  exists (todo a). split; [done|].
  assert (paths_utf8 A) as Hpu by (apply (kept_synced _ _ _ Hs); split; [done|apply Hk]).
  assert (f' = l_fs b -> (exists rest', (rest' = todo a \/ exists i, todo a = i :: rest') /\ good_disk dir dl h content old cs a0 rest' f')) as Hsame.
  { intros ->. exists (todo a). split; [by left|]. exists (l_cat b), A, a. split_and!; try done; [apply Hk|congruence]. }
  destruct b as [pc c f D]. cbn [l_pc l_cat l_fs l_active] in *. subst D.
  destruct pc as [| |i|i [|r [|r2 hs]]|]; cbn [loop_step] in Hkl.
  - left. apply Hsame. apply killed_pure in Hkl; [done|]. apply pure_bind; [|intros [? ?]; exact I]. apply pure_bind; [apply pure_get_record|].
    intros [c1 [rp|w|w]]; try exact I. destruct (bfull (p_bits rp.2)); exact I.
  - left. apply Hsame. apply killed_pure in Hkl; [done|]. apply pure_bind; [|intros [? [|? ?]]; exact I]. apply pure_bind; [apply pure_get_record|].
    intros [c1 [rp|w|w]]; try exact I. destruct (bunfilled_ranges (p_bits rp.2)); exact I.
  - left. apply Hsame. apply killed_pure in Hkl; [done|]. destruct (good_hosts own resps); exact I.
  - left. apply Hsame. by apply killed_ret in Hkl.
  - destruct Hpc as (_ & Hf & _ & _). pose proof Hf as (Hi1 & Hi2 & Hi3). destruct Hnet as (ds & -> & Hdel).
    rewrite decide_False in Hkl by set_solver. unfold download_chunk in Hkl.
    pose proof (synced_facts _ _ _ _ _ Hs Ha) as [Hch Hpos].
    rewrite (delivered_saves content cs (N.to_nat i)) in Hkl; [|lia|lia| | |done].
    2:{ apply chunk_nonempty; [done|]. rewrite Hn, Hcount in Hi1. lia. }
    2:{ apply (fit_bounded _ _ (a_count a) Hfit). lia. }
    assert (killed f (save_chunk c h i (chunk_bytes content cs (N.to_nat i))) f') as Hks.
    { apply killed_bind in Hkl as [Hkl|(f1 & c1 & H1 & Hkl)].
      - apply killed_bind in Hkl as [Hkl|(f1 & [c1 e] & H1 & Hkl)]; [done|].
        assert (f' = f1) as -> by (destruct e; [by apply killed_ret in Hkl|by apply killed_die in Hkl..]). by eapply execs_killed.
      - apply killed_ret in Hkl as ->. apply execs_killed in H1. apply killed_bind in H1 as [Hkl|(f2 & [c2 e] & H1 & Hkl)]; [done|].
        assert (f1 = f2) as -> by (destruct e; [by apply killed_ret in Hkl|by apply killed_die in Hkl..]). by eapply execs_killed. }
    assert (i < 65536)%N as Hi4 by (clear -Hi1 Hn Hmax; lia).
    destruct (killed_save_exact _ _ _ _ _ _ _ _ Hs Ha Hi4 Hks) as (f1 & Hpart & Hcase).
    replace (N.to_nat i * Z.to_nat (a_chunk a)) with (N.to_nat i * cs) in * by (rewrite Hc; lia).
    rewrite Hp in *. subst dir.
    destruct Hcase as [->|(b2 & j & Hb2 & Hwr & -> & ->)].
    + left. destruct Hpart as [->|(k & Hwr & ->)]; [by apply Hsame|]. exists (todo a). split; [by left|].
      exists c, A, a. split; [apply synced_data; done|]. split_and!; try done; [apply Hk|congruence| |].
      * rewrite <- Hp. eapply synced_write_again; [exact Hs|exact Ha|rewrite Hp; done|rewrite Hp; done|]. rewrite Hp. apply same_user_refl.
      * unfold file_at at 1. rewrite lookup_insert. cbn [default]. eapply holds_part; [done|exact Hh|]. apply write_at_overlay.
    + pose proof (sy_dir _ _ _ Hs) as Hcd. clear Hpart.
      assert (hash_wf h) as Hwf by (apply (entries_wf _ _ _ _ _ (sy_ent _ _ _ Hs)); rewrite Ha; done).
      set (new := write_at (default [] (file_at f (a_path a0))) (N.to_nat i * cs) (chunk_bytes content cs (N.to_nat i))) in *.
      assert (synced c (<[a_path a0 := NFile new]> f) A) as Hs1 by (apply synced_data; done).
      assert (a_count (hold a i) = a_count a) as Hhc by (cbn [hold a_count]; lia).
      pose proof (whole_length _ _ _ Hb2) as Hwl. rewrite Hhc in Hwl.
      destruct (decide (j < length (bserialize b2))) as [Hj|Hj].
      * right. split; [|split; [|split; [|split; [|split; [|split]]]]].
        -- intros (l & Hl & Hll). unfold file_at in Hl. rewrite lookup_insert in Hl. injection Hl as <-.
           rewrite take_length in Hll. rewrite <- Hn in Hll. lia.
        -- split_and!.
           ++ rewrite lookup_insert_ne; [apply Hs1|]. apply dir_not_child; [done|apply hash_normal; done].
           ++ rewrite lookup_insert_ne by (apply prog_path_ne_index; done). apply Hs1.
           ++ rewrite lookup_insert. eexists. split; [done|]. exists b2, j. split; [apply Hb2|]. done.
        -- done.
        -- destruct Hk as [<- _]. apply Hs.
        -- done.
        -- apply (synced_ints _ _ _ Hs).
        -- pose proof (sy_ent _ _ _ Hs h) as He. rewrite Ha in He. destruct (c_index c !! h) as [r0|] eqn:Er; [|done].
           destruct He as (R1 & R2 & R3 & _). exists r0. split; [done|]. split; [done|]. rewrite R3, <- Hp. apply sanitize_id_iff. by eapply Hpu.
      * left. rewrite take_ge by lia.
        exists (todo (hold a i)). split; [right; exists i; by apply todo_first|].
        destruct (synced_hold _ _ _ _ _ i b2 Hs1 Ha Hb2) as (c1 & Hs2 & Hd2 & Hdl2).
        exists c1, (<[h := hold a i]> A), (hold a i). split; [done|]. split; [done|]. split; [rewrite Hdl2; apply Hk|].
        split; [apply lookup_insert|]. split; [done|]. split; [cbn [hold a_chunk]; congruence|]. split; [congruence|]. split; [done|].
        split; [|split].
        -- rewrite <- Hp. eapply synced_write_again; [exact Hs|exact Ha|rewrite Hp; done|rewrite Hp; done|]. rewrite Hp.
           apply same_user_insert, parent_prog; done.
        -- intros h' a' Hl. apply lookup_insert_Some in Hl as [[<- <-]|[_ Hl]]; [cbn [hold a_path]; by eapply Hpu|by eapply Hpu].
        -- unfold file_at at 1. rewrite lookup_insert_ne.
           2:{ intros E. apply Hpar. rewrite <- E. apply parent_prog; done. }
           rewrite lookup_insert. cbn [default].
           destruct (holds_step content old _ new cs (N.to_nat i) _ Hcs Hh (write_at_overlay _ _ _)) as [G1 G2].
           split; [|done]. intros k Hkk Hjj. apply G1; [done|]. cbn [hold a_held] in Hjj. apply elem_of_union in Hjj as [Hjj|Hjj]; [|by right].
           left. apply elem_of_singleton in Hjj. lia.
  - done.
  - left. apply Hsame. by apply killed_ret in Hkl.
Qed.
Lemma C106_lemma cwd dir dl A c f h a cs content own host port n out b f' :
  reached cwd dir dl A c f -> A !! h = Some a ->
  0 < cs -> a_chunk a = Z.of_nat cs -> a_count a = Z.of_nat ((length content + cs - 1) / cs) -> (a_count a <= 65536)%Z ->
  can_write f (a_path a) -> parent (a_path a) <> dir -> right_so_far content cs f a ->
  (forall i, ~ ragged cs (chunk_bytes content cs i) \/ first_empty (chunk_bytes content cs i) <= 1024) ->
  valid_utf8 dir -> (forall h' a', A !! h' = Some a' -> valid_utf8 (a_path a')) ->
  lexec own h (honest own host port content cs) (mkL LCheck c f ∅) n out b ->
  stopped own h (honest own host port content cs) b f' ->
  exists sent rest, todo a = sent ++ rest /\ out = map (request host port h) sent /\
   ((whole_progress dir h (a_count a) f' /\ exists rest', (rest' = rest \/ exists i, rest = i :: rest')
       /\ continues cwd dir dl h content cs (a_path a) (default [] (file_at f (a_path a))) rest' f')
    \/ (~ whole_progress dir h (a_count a) f' /\ forall w, attempts h cwd dir dl f' w -> l_pc w <> LDone)).
Proof.
  intros H Ha Hcs Hc Hn Hmax Hw Hpar Hr Hfit Hu Hpu Hex Hst.
  pose proof (reached_synced _ _ _ _ _ _ H) as (Hcwd & Hs & Hd & Hdl).
  pose proof (hinv_start dir h host port content cs a (default [] (file_at f (a_path a))) A c f Hs Hd Ha Hc Hw Hr eq_refl) as H0.
  destruct (hinv_exec dir h own host port content cs a _ Hcs Hn Hmax Hpar (fit_bounded _ _ _ Hfit) _ n out b H0 Hex) as (sent & -> & Hb).
  assert (kept dl (l_cat b)) as Hk.
  { eapply kept_exec; [|exact Hex]. cbn [l_cat]. rewrite <- Hdl. by apply (kept_synced _ _ _ Hs). }
  destruct (kill_disk _ _ _ _ _ _ _ _ _ _ _ _ _ _ Hcs Hc Hn Hmax Hpar Hfit Hb Hk Hst) as (rest & Ht & Hcase).
  exists sent, rest. split; [done|]. split; [done|]. destruct Hcase as [(rest' & Hrest & Hg)|(Hnw & Hdt & H1 & H2 & H3 & H4 & H5)].
  - left. destruct (good_continues cwd _ _ _ _ _ _ _ _ _ Hcwd Hu Hcs Hc Hn Hmax Hpar Hfit Hg) as [G1 G2]. eauto.
  - right. split; [done|]. intros w Hat E.
    pose proof (torn_attempts cwd dir dl h (a_path a) (l_cat b) Hcwd H1 H2 H3 Hpar H4 H5 f' w Hdt Hat) as (_ & _ & Hpc).
    rewrite E in Hpc. done.
Qed.

(** ** Killed in the write of the progress file *)
Lemma hinv_three dir h own host port content cs a0 old w0 :
  0 < cs -> a_count a0 = Z.of_nat ((length content + cs - 1) / cs) -> (a_count a0 <= 65536)%Z -> parent (a_path a0) <> dir ->
  (forall i, ~ ragged cs (chunk_bytes content cs i) \/ first_empty (chunk_bytes content cs i) <= 1024) ->
  host <> own -> todo a0 <> [] -> hinv dir h host port content cs a0 old 0 [] w0 ->
  forall m, m <= 3 -> exists out b, lexec own h (honest own host port content cs) w0 m out b.
Proof.
  intros Hcs Hn Hmax Hpar Hfit Hho Hne H0. induction m as [|m IH]; intros Hm; [exists [], w0; constructor|].
  destruct IH as (out & b & Hex); [lia|].
  destruct (hinv_exec dir h own host port content cs a0 _ Hcs Hn Hmax Hpar (fit_bounded _ _ _ Hfit) _ m out b H0 Hex) as (sent & -> & Hb).
  destruct (hinv_possible dir h own host port content cs a0 _ Hcs Hn Hmax (fit_bounded _ _ _ Hfit) m sent b Hho Hb) as (resps & dg & Hnet).
  assert (l_pc b <> LDone) as Hnd.
  { intros E. destruct Hb as (A & a & Hs & Hd & Ha & Hp & Hc & Hn' & Ht & Hw & Hh & Hact & Hpc). rewrite E in Hpc.
    destruct Hpc as [-> Hnil]. destruct sent; [|cbn [length] in Hm; lia]. rewrite Hnil in Ht. done. }
  destruct (hinv_step dir h own host port content cs a0 _ Hcs Hn Hmax Hpar (fit_bounded _ _ _ Hfit) m sent b resps dg Hb Hnd Hnet) as (c2 & out2 & E & _).
  eexists _, c2. eapply le_step; done.
Qed.
Lemma C106_torn_lemma cwd dir dl A c f h a cs content own host port :
  reached cwd dir dl A c f -> A !! h = Some a -> todo a <> [] ->
  0 < cs -> a_chunk a = Z.of_nat cs -> a_count a = Z.of_nat ((length content + cs - 1) / cs) -> (a_count a <= 65536)%Z ->
  can_write f (a_path a) -> parent (a_path a) <> dir -> right_so_far content cs f a ->
  (forall i, ~ ragged cs (chunk_bytes content cs i) \/ first_empty (chunk_bytes content cs i) <= 1024) ->
  valid_utf8 dir -> host <> own ->
  exists n out b f', lexec own h (honest own host port content cs) (mkL LCheck c f ∅) n out b
    /\ stopped own h (honest own host port content cs) b f' /\ ~ whole_progress dir h (a_count a) f' /\ stuck cwd dir dl h f'.
Proof.
  intros H Ha0 Hne Hcs Hc0 Hn0 Hmax Hw0 Hpar Hr Hfit Hu Hho.
  pose proof (reached_synced _ _ _ _ _ _ H) as (Hcwd & Hs0 & Hd0 & Hdl0).
  pose proof (hinv_start dir h host port content cs a (default [] (file_at f (a_path a))) A c f Hs0 Hd0 Ha0 Hc0 Hw0 Hr eq_refl) as H0.
  destruct (hinv_three dir h own host port content cs a _ _ Hcs Hn0 Hmax Hpar Hfit Hho Hne H0 3 ltac:(lia)) as (out & b & Hex).
  destruct (hinv_exec dir h own host port content cs a _ Hcs Hn0 Hmax Hpar (fit_bounded _ _ _ Hfit) _ 3 out b H0 Hex) as (sent & -> & Hb).
  destruct (hinv_possible dir h own host port content cs a _ Hcs Hn0 Hmax (fit_bounded _ _ _ Hfit) 3 sent b Hho Hb) as (resps & dg & Hnet).
  destruct Hb as (A1 & a1 & Hs & Hd & Ha & Hp & Hc & Hn & Ht & Hw & Hh & Hact & Hpc).
  exists 3, (map (request host port h) sent), b.
  assert (clean_abs dl) as Hdl by (rewrite <- Hdl0; apply Hs0). clear Hdl0.
  destruct b as [pc cb fb D]. cbn [l_pc l_cat l_fs l_active] in *. subst D.
  destruct pc as [| |i|i [|r [|r2 hs]]|]; [lia|lia|lia|lia| |done|lia].
  destruct Hpc as (_ & Hf & _ & _). pose proof Hf as (Hi1 & Hi2 & Hi3). pose proof Hnet as (ds & -> & Hdel).
  pose proof (synced_facts _ _ _ _ _ Hs Ha) as [Hch Hpos]. pose proof (sy_dir _ _ _ Hs) as Hcd.
  assert (hash_wf h) as Hwf by (apply (entries_wf _ _ _ _ _ (sy_ent _ _ _ Hs)); rewrite Ha; done).
  destruct (get_record_ok cb fb A1 h a1 Hs Ha) as (r1 & b1 & Hrun & Hp1 & Hrel & Hb1 & Hs1 & Hm1 & Hfile).
  pose proof Hrel as (Hrh & _ & Hrp & Hcl & Hrs & Hsz & Hrc & _).
  assert (i < 65536)%N as Hi4 by (clear -Hi1 Hn Hmax; lia).
  destruct (bset_brel b1 _ _ i Hb1 Hi4) as (b2 & Hset & Hb2).
  assert (writable fb (a_path a1) = true) as Hwr by (apply (writable_spec fb _ Hcl); rewrite Hp; done).
  set (f1 := <[a_path a1 := NFile (write_at (contents_or_empty fb (a_path a1)) (Z.to_nat (Z.of_N i * a_chunk a1)) (chunk_bytes content cs (N.to_nat i)))]> fb).
  assert (synced cb f1 A1) as Hsf1 by (apply synced_data; [done|rewrite Hp, Hd; done|done]).
  clear Hd0. subst dir. set (f' := <[prog_path (c_dir cb) h := NFile (take 0 (bserialize b2))]> f1). exists f'. split; [done|].
  split; [|split].
  - exists resps, (Some ds). split; [done|]. cbn [l_pc l_cat l_fs l_active loop_step].
    rewrite decide_False by set_solver. apply killed_left. unfold download_chunk.
    rewrite (delivered_saves content cs (N.to_nat i)); [|lia|lia| | |done].
    2:{ apply chunk_nonempty; [done|]. rewrite Hn, Hn0 in Hi1. lia. }
    2:{ apply (fit_bounded _ _ (a_count a1) Hfit). lia. }
    apply killed_left. unfold save_chunk. eapply killed_run; [exact Hrun|]. cbv beta iota.
    eapply (killed_run _ _ fb f1 (Ok tt)).
    + unfold save_chunk_data. cbn [run do_op]. rewrite Hrp, Hwr, Hrc. rewrite wrap64_small by nia.
      destruct (Z.ltb_spec (Z.of_N i * a_chunk a1) 0) as [?|_]; [nia|]. reflexivity.
    + cbn [on_ok p_bits p_file]. rewrite Hset. apply killed_left. unfold save_prog. cbn [p_file p_bits].
      rewrite join1_clean by (apply prog_path_clean; done). apply ki_during, pa_write.
      apply (sy_writable _ _ _ _ Hsf1), hash_normal. done.
  - intros (l & Hl & Hll). unfold file_at, f' in Hl. rewrite lookup_insert in Hl. injection Hl as <-.
    cbn [take length] in Hll. rewrite <- Hn in Hll. lia.
  - change (stuck cwd (c_dir cb) dl h f'). 
    assert (stuck cwd (c_dir (mkCat (c_dir cb) dl 0 0 ∅ [])) (c_dl (mkCat (c_dir cb) dl 0 0 ∅ [])) h f') as Hst; [|exact Hst].
    apply wedged_stuck; try done. split_and!; cbn [c_dir].
    + unfold f'. rewrite lookup_insert_ne; [apply Hsf1|]. apply dir_not_child; [done|apply hash_normal; done].
    + unfold f'. rewrite lookup_insert. intros l b [= <-] E. cbn [take] in E. done.
    + exists cb. unfold f'. rewrite lookup_insert_ne by (apply prog_path_ne_index; done). split; [apply Hsf1|].
      apply (synced_good _ fb A1 _ a1); done.
Qed.
