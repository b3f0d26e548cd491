(** Proofs about downloads, part 3: any network (C64, C65, C75-C77), and a chunk
    that is never delivered (C63). *)
From Verif Require Export DownloadProofs2.
From Coq Require Import ZifyBool ZifyNat ZifyN.
Ltac Zify.zify_post_hook ::= Z.div_mod_to_equations.

(** ** Chunk numbers are 16 bits *)
Lemma u16_small x : (u16_of_int x < 65536)%N.
Proof. unfold u16_of_int. lia. Qed.
Lemma unfilled_small b rs : bunfilled_ranges b = Ok rs -> Forall (fun r => (r_start r < 65536)%N) rs.
Proof.
  unfold bunfilled_ranges. 
  assert (forall l s s', Forall (fun r => (r_start r < 65536)%N) s.1.1 -> for_list l (unfilled_body b) s = Ok s' ->
    Forall (fun r => (r_start r < 65536)%N) s'.1.1) as Hgen.
  { induction l as [|x l IH]; intros [[r s] e] s' Hs; cbn [for_list].
    - intros [= <-]. done.
    - unfold unfilled_body at 1. destruct (bget b _) as [g|w|w]; cbn [rbind]; [|done|done].
      destruct g; cbn [rbind negb]; intros H; (eapply IH; [|exact H]); cbn [fst] in *; [|done].
      destruct (_ <=? _)%Z; [|done]. apply Forall_app. split; [done|]. constructor; [|done]. apply u16_small. }
  destruct (for_list _ _ _) as [[[r s] e]|w|w] eqn:E; cbn [rbind]; [|done|done]. intros [= <-].
  apply Hgen in E; [|by constructor]. cbn [fst] in E. destruct (_ <=? _)%Z; [|done].
  apply Forall_app. split; [done|]. constructor; [|done]. apply u16_small.
Qed.

(** ** An invariant for any network *)
Lemma can_write_em f p : can_write f p \/ ~ can_write f p.
Proof.
  unfold can_write. destruct (f !! parent p) as [[|]|]; destruct (f !! p) as [[|]|]; try (left; split; done); right; intros [? ?]; done.
Qed.
Definition pc_small (pc : lpc) : Prop :=
  match pc with LHosts i | LChunk i _ => (i < 65536)%N | _ => True end.
Definition ginv (dir : path) (h : hash) (A0 : astate) (a0 : aentry) (f0 : fs) (b : lworld) : Prop :=
  exists a, synced (l_cat b) (l_fs b) (<[h := a]> A0) /\ c_dir (l_cat b) = dir
    /\ a_path a = a_path a0 /\ a_chunk a = a_chunk a0 /\ (a_count a0 <= a_count a)%Z
    /\ (forall i, i ∈ a_held a -> i ∈ a_held a0 \/ (i < 65536)%N) /\ a_held a0 ⊆ a_held a
    /\ (forall p, parent p <> dir -> p <> a_path a0 -> l_fs b !! p = f0 !! p)
    /\ pc_small (l_pc b)
    /\ (l_pc b = LDone -> all_below (a_count a) ⊆ a_held a).
Lemma ginv_step own dir h A0 a0 f0 resps dg b c out : parent (a_path a0) <> dir ->
  ginv dir h A0 a0 f0 b -> lstep own h resps dg b = Some (c, out) -> ginv dir h A0 a0 f0 c.
Proof.
  intros Hpar (a & Hs & Hd & Hp & Hc & Hn & Hh & Hsub & Hf & Hpc & Hdone).
  destruct b as [pc ca f D]. unfold lstep. cbn [l_pc l_cat l_fs l_active] in *.
  assert ((<[h := a]> A0 : astate) !! h = Some a) as Ha by apply lookup_insert.
  destruct pc as [| |i|i hs|]; cbn [loop_step].
  - destruct (file_complete_ok ca f _ h a Hs Ha) as (c' & Hrun & Hs' & Hd' & _). rewrite run_bind, Hrun. cbn [run].
    intros [= <- <-]. exists a. cbn [l_pc l_cat l_fs l_active]. split_and!; try done; [congruence| |].
    + case_bool_decide; done.
    + case_bool_decide; done.
  - destruct (get_record_ok ca f _ h a Hs Ha) as (r & b & Hrun & Hpr & Hrel & _ & Hs' & Hm & Hfile).
    unfold missing_chunks. rewrite run_bind, run_bind, Hrun. cbn [snd p_bits].
    destruct (bunfilled_ranges b) as [rs|w|w] eqn:E; cbn [run]; [|done|done]. apply unfilled_small in E.
    destruct rs as [|r0 rs]; cbn [run]; [done|]. intros [= <- <-]. exists a. cbn [l_pc l_cat l_fs l_active pc_small].
    inversion E; subst. split_and!; done.
  - destruct (good_hosts own resps) as [hs|w|w]; cbn [run]; [|done|done]. intros [= <- <-].
    exists a. cbn [l_pc l_cat l_fs l_active pc_small]. split_and!; done.
  - destruct hs as [|r hs]; cbn [run].
    { intros [= <- <-]. exists a. cbn [l_pc l_cat l_fs l_active pc_small]. split_and!; done. }
    destruct (decide _) as [Hin|Hin]; cbn [run].
    { intros [= <- <-]. exists a. cbn [l_pc l_cat l_fs l_active pc_small] in *. split_and!; done. }
    unfold download_chunk. destruct dg as [ds|]; [|done]. rewrite run_bind.
    destruct (recv_datagrams ds) as [[rc|buf ok]|w|w]; cbn [run]; [| |done|done].
    { intros [= <- <-]. exists a. cbn [l_pc l_cat l_fs l_active pc_small] in *. split_and!; done. }
    rewrite run_bind. destruct (can_write_em f (a_path a)) as [Hw|Hw].
    + destruct (save_ok ca f _ h a i buf Hs Ha Hw Hpc) as (r' & new & f' & Hrun & Hov & Hs' & Hf' & Hsu).
      { rewrite Hp, Hd. done. }
      rewrite Hrun. cbn [run]. intros [= <- <-]. exists (hold a i). cbn [l_pc l_cat l_fs l_active pc_small].
      rewrite insert_insert in Hs'. split_and!; try done.
      * cbn [hold a_count]. lia.
      * intros j Hj. cbn [hold a_held] in Hj. apply elem_of_union in Hj as [Hj|Hj]; [|by apply Hh].
        right. apply elem_of_singleton in Hj. subst j. done.
      * cbn [hold a_held]. set_solver.
      * intros p Hp1 Hp2. rewrite <- Hf by done. rewrite Hsu by (rewrite Hd; done).
        rewrite lookup_insert_ne; [done|]. rewrite Hp. done.
    + destruct (save_fail ca f _ h a i buf Hs Ha Hw) as (e & c' & Hrun & _). rewrite Hrun. cbn [run]. done.
  - cbn [run]. intros [= <- <-]. exists a. cbn [l_pc l_cat l_fs l_active pc_small] in *. split_and!; auto.
Qed.
Lemma ginv_exec own dir h A0 a0 f0 net a n out b : parent (a_path a0) <> dir ->
  ginv dir h A0 a0 f0 a -> lexec own h net a n out b -> ginv dir h A0 a0 f0 b.
Proof. intros Hpar Ha Hx. induction Hx as [a|a n out b resps dg out' c H IH Hnd Hnet Hst]; [done|]. eapply ginv_step; [done|exact (IH Ha)|exact Hst]. Qed.
Lemma ginv_start cwd dir dl A c f h a D pc : reached cwd dir dl A c f -> A !! h = Some a -> pc_small pc -> pc <> LDone ->
  ginv dir h A a f (mkL pc c f D).
Proof.
  intros H Ha Hpc Hnd. pose proof (reached_synced _ _ _ _ _ _ H) as (_ & Hs & Hd & _).
  exists a. cbn [l_pc l_cat l_fs l_active]. rewrite insert_id by done. split_and!; try done. intros i Hi. by left.
Qed.

(** *** C64 *)
Lemma C64_lemma cwd dir dl A c f h a own net n out b : reached cwd dir dl A c f -> A !! h = Some a ->
  (65536 < a_count a)%Z -> 65536%N ∉ a_held a -> parent (a_path a) <> dir ->
  lexec own h net (mkL LCheck c f ∅) n out b -> l_pc b <> LDone.
Proof.
  intros H Ha Hbig Hh Hpar Hex Hdone.
  destruct (ginv_exec own dir h A a f _ _ _ _ _ Hpar (ginv_start _ _ _ _ _ _ h a ∅ LCheck H Ha I ltac:(done)) Hex)
    as (a' & _ & _ & _ & _ & Hn & Hheld & _ & _ & _ & Hall).
  specialize (Hall Hdone 65536%N). destruct (Hheld 65536%N) as [?|?]; [|done|lia].
  apply Hall, elem_of_all_below. lia.
Qed.

(** *** C77 *)
Lemma C77_lemma cwd dir dl A c f h a own net n out b : reached cwd dir dl A c f -> A !! h = Some a ->
  parent (a_path a) <> dir -> lexec own h net (mkL LCheck c f ∅) n out b ->
  (forall p, parent p <> dir -> p <> a_path a -> l_fs b !! p = f !! p)
  /\ (forall k a', k <> h -> A !! k = Some a' ->
        exists c' x, crun cwd (l_cat b) (l_fs b) (CContains k) = Some (c', l_fs b, AExport x) /\ shows x k a')
  /\ (forall k, k <> h -> A !! k = None ->
        exists c', crun cwd (l_cat b) (l_fs b) (CContains k) = Some (c', l_fs b, AErr))
  /\ (exists c' x, crun cwd (l_cat b) (l_fs b) (CContains h) = Some (c', l_fs b, AExport x)
        /\ x_path x = a_path a /\ x_chunk x = a_chunk a /\ forall i, i ∈ a_held a -> mem (x_bits x) i)
  /\ (l_pc b = LDone -> exists c', crun cwd (l_cat b) (l_fs b) (CComplete h) = Some (c', l_fs b, ABool true)).
Proof.
  intros H Ha Hpar Hex.
  destruct (ginv_exec own dir h A a f _ _ _ _ _ Hpar (ginv_start _ _ _ _ _ _ h a ∅ LCheck H Ha I ltac:(done)) Hex)
    as (a' & Hs & Hd & Hp & Hc & Hn & Hheld & Hsub & Hf & _ & Hall).
  set (A' := <[h := a']> A : astate) in *.
  assert (forall k e, A' !! k = Some e -> exists c' x, crun cwd (l_cat b) (l_fs b) (CContains k) = Some (c', l_fs b, AExport x) /\ shows x k e) as Hk.
  { intros k e Hke. destruct (get_record_ok _ _ A' k e Hs Hke) as (r & bb & Hrun & Hpr & Hrel & Hb & _).
    cbn [crun]. unfold contains. rewrite run_bind, Hrun. cbn [on_ok run finish ans_of fst snd].
    eexists _, _. split; [reflexivity|]. eapply shows_export; done. }
  split; [done|]. split; [|split; [|split]].
  - intros k e Hne Hke. apply Hk. unfold A'. rewrite lookup_insert_ne by done. done.
  - intros k Hne Hke. exists (l_cat b). cbn [crun]. unfold contains. rewrite run_bind.
    rewrite (get_record_none _ _ A' k Hs) by (unfold A'; rewrite lookup_insert_ne; done). done.
  - destruct (Hk h a') as (c' & x & Hr & Hsh); [apply lookup_insert|]. exists c', x. split; [done|].
    destruct Hsh as (S1 & S2 & S3 & S4 & S5 & S6). split; [congruence|]. split; [congruence|]. intros i Hi. apply S6, Hsub. done.
  - intros Hdone. destruct (file_complete_ok _ _ A' h a' Hs) as (c' & Hrun & _); [apply lookup_insert|].
    exists c'. cbn [crun]. rewrite Hrun. rewrite bool_decide_true by auto. done.
Qed.

(** *** C65, C76: exactly when a step ends the process *)
Lemma bfull_never_err b : binv b -> exists v, bfull b = Ok v.
Proof. intros H. destruct (bfull_spec b H) as (v & Hv & _). eauto. Qed.
Lemma C76_check_lemma cwd dir dl A c f h own D resps dg : reached cwd dir dl A c f ->
  lstep own h resps dg (mkL LCheck c f D) = None <-> A !! h = None.
Proof.
  intros H. pose proof (reached_synced _ _ _ _ _ _ H) as (_ & Hs & _).
  unfold lstep. cbn [l_pc l_cat l_fs l_active loop_step]. rewrite run_bind. destruct (A !! h) as [a|] eqn:Ha.
  - destruct (file_complete_ok _ _ A h a Hs Ha) as (c' & Hrun & _). rewrite Hrun. cbn [run]. done.
  - unfold file_complete. rewrite run_bind, (get_record_none _ _ A h Hs Ha). cbn [run]. done.
Qed.
Lemma C76_missing_lemma cwd dir dl A c f h own D resps dg : reached cwd dir dl A c f ->
  (forall a, A !! h = Some a -> (a_count a <= 65536)%Z) ->
  lstep own h resps dg (mkL LMissing c f D) = None <->
    match A !! h with Some a => all_below (a_count a) ⊆ a_held a | None => True end.
Proof.
  intros H Hmax. pose proof (reached_synced _ _ _ _ _ _ H) as (_ & Hs & _).
  unfold lstep. cbn [l_pc l_cat l_fs l_active loop_step]. rewrite run_bind. destruct (A !! h) as [a|] eqn:Ha.
  - destruct (missing_step c f A h a Hs Ha (Hmax a eq_refl)) as (c' & rs & Hrun & Hs' & Hd' & Hrs). rewrite Hrun.
    assert (0 <= a_count a)%Z as Hpos by (apply (synced_facts _ _ _ _ _ Hs Ha)).
    destruct rs as [|r rs]; cbn [run].
    + apply todo_nil in Hrs; [|done]. done.
    + split; [done|]. intros Hall. apply todo_nil in Hall; [|done]. rewrite (todo_first a _ Hrs) in Hall. done.
  - unfold missing_chunks. rewrite run_bind, (get_record_none _ _ A h Hs Ha). cbn [run]. done.
Qed.
Lemma C76_chunk_lemma cwd dir dl A c f h own i r hs D resps dg : reached cwd dir dl A c f ->
  (i < 65536)%N -> (forall a, A !! h = Some a -> parent (a_path a) <> dir) -> (h, h_addr r) ∉ D ->
  lstep own h resps dg (mkL (LChunk i (r :: hs)) c f D) = None <->
    dg = None \/ exists ds, dg = Some ds /\
      ((forall x, recv_datagrams ds <> Ok x)
       \/ (exists buf ok, recv_datagrams ds = Ok (RSave buf ok)) /\
          match A !! h with Some a => ~ can_write f (a_path a) | None => True end).
Proof.
  intros H Hi Hpar HD. pose proof (reached_synced _ _ _ _ _ _ H) as (_ & Hs & Hd & _).
  unfold lstep. cbn [l_pc l_cat l_fs l_active loop_step]. rewrite decide_False by done. rewrite run_bind. unfold download_chunk.
  destruct dg as [ds|]; [|cbn [run]; split; [by left|done]].
  destruct (recv_datagrams ds) as [[rc|buf ok]|w|w] eqn:E; cbn [run].
  - split; [done|]. intros [?|(ds' & [= <-] & [Hx|((buf & ok & Hx) & _)])]; [done| |congruence]. exfalso. eapply Hx. exact E.
  - rewrite run_bind. destruct (A !! h) as [a|] eqn:Ha.
    + destruct (can_write_em f (a_path a)) as [Hw|Hw].
      * destruct (save_ok c f A h a i buf Hs Ha Hw Hi) as (r' & new & f' & Hrun & _).
        { rewrite Hd. apply Hpar. done. }
        rewrite Hrun. cbn [run]. split; [done|]. intros [?|(ds' & [= <-] & [Hx|(_ & Hx)])]; [done| |done]. exfalso. eapply Hx. exact E.
      * destruct (save_fail c f A h a i buf Hs Ha Hw) as (e & c' & Hrun & _). rewrite Hrun. cbn [run].
        split; [|done]. intros _. right. exists ds. split; [done|]. right. split; [eauto|done].
    + unfold save_chunk. rewrite run_bind, (get_record_none _ _ A h Hs Ha). cbn [run].
      split; [|done]. intros _. right. exists ds. split; [done|]. right. split; [eauto|done].
  - split; [|done]. intros _. right. exists ds. split; [done|]. left. intros x. rewrite E. done.
  - split; [|done]. intros _. right. exists ds. split; [done|]. left. intros x. rewrite E. done.
Qed.
Lemma C65_lemma cwd dir dl A c f h a : reached cwd dir dl A c f -> A !! h = Some a ->
  exists c' f', crun cwd c f (CUnshare h) = Some (c', f', AOk)
    /\ forall own D resps dg, lstep own h resps dg (mkL LCheck c' f' D) = None
         /\ lstep own h resps dg (mkL LMissing c' f' D) = None
         /\ forall i r hs ds buf ok, (i < 65536)%N -> (h, h_addr r) ∉ D -> recv_datagrams ds = Ok (RSave buf ok) ->
              lstep own h resps (Some ds) (mkL (LChunk i (r :: hs)) c' f' D) = None.
Proof.
  intros H Ha. destruct (reached_call cwd dir dl A c f (CUnshare h) H I) as (c' & f' & A' & ans & Hrun & Hspec & Hre).
  cbn [aspec] in Hspec. destruct Hspec as (_ & -> & ->). rewrite decide_False in Hrun by (rewrite Ha; done).
  exists c', f'. split; [done|]. assert ((delete h A : astate) !! h = None) as Hn by apply lookup_delete.
  intros own D resps dg. split; [|split].
  - apply (C76_check_lemma _ _ _ _ _ _ h own D resps dg Hre). done.
  - apply (C76_missing_lemma _ _ _ _ _ _ h own D resps dg Hre); rewrite Hn; done.
  - intros i r hs ds buf ok Hi HD E. apply (C76_chunk_lemma _ _ _ _ _ _ h own i r hs D resps (Some ds) Hre Hi); [rewrite Hn; done|done|].
    right. exists ds. split; [done|]. right. split; [eauto|]. rewrite Hn. done.
Qed.
(** and from wherever it is: without an entry the loop cannot end, and it dies soon *)
Lemma unknown_dies cwd dir dl A c f h own (net : network) K pc D n out b :
  reached cwd dir dl A c f -> A !! h = None -> pc <> LDone -> (forall i hs, pc = LChunk i hs -> length hs <= K) ->
  (forall q resps dg, net q resps dg -> length resps <= K) ->
  lexec own h net (mkL pc c f D) n out b -> n <= K + 2 /\ l_pc b <> LDone /\ l_fs b = f.
Proof.
  intros H Ha Hpc Hlen HK.
  pose proof (reached_synced _ _ _ _ _ _ H) as (_ & Hs & _). pose proof (get_record_none c f A h Hs Ha) as Hg.
  set (m := fun q => match q with LCheck | LMissing => 0 | LHosts _ => K + 2 | LChunk _ hs => length hs + 1 | LDone => 0 end).
  assert (forall resps dg w w' o, l_cat w = c -> l_fs w = f -> l_pc w <> LDone -> length resps <= K -> lstep own h resps dg w = Some (w', o) ->
    l_cat w' = c /\ l_fs w' = f /\ l_pc w' <> LDone /\ S (m (l_pc w')) <= m (l_pc w)) as Hstep.
  { intros resps dg [q c0 f0 D0] w' o Ec Ef Hnd Hr Hst. cbn [l_cat l_fs l_pc] in *. subst c0 f0.
    unfold lstep in Hst. cbn [l_pc l_cat l_fs l_active] in Hst. destruct q as [| |i|i [|r hs]|]; cbn [loop_step] in Hst.
    - unfold file_complete in Hst. rewrite !run_bind, Hg in Hst. done.
    - unfold missing_chunks in Hst. rewrite !run_bind, Hg in Hst. done.
    - destruct (C62_lemma own resps) as (l & Hgh & Hsel). rewrite Hgh in Hst. cbn [run] in Hst. simplify_eq. cbn [l_cat l_fs l_pc m].
      assert (length l <= length resps); [|split_and!; [done..|lia]]. clear -Hsel. induction Hsel; cbn [length]; lia.
    - cbn [run] in Hst. simplify_eq. cbn [l_cat l_fs l_pc m length]. split_and!; [done..|lia].
    - destruct (decide ((h, h_addr r) ∈ D0)) as [HD|HD]; [cbn [run] in Hst; simplify_eq; cbn [l_cat l_fs l_pc m length]; split_and!; [done..|lia]|].
      rewrite run_bind in Hst. unfold download_chunk in Hst. destruct dg as [ds|]; [|done].
      destruct (recv_datagrams ds) as [[st|buf ok]|w|w]; [| |done..].
      + cbn [run] in Hst. simplify_eq. cbn [l_cat l_fs l_pc m length]. split_and!; [done..|lia].
      + rewrite run_bind in Hst. unfold save_chunk in Hst. rewrite run_bind, Hg in Hst. done.
    - done. }
  intros Hex. remember (mkL pc c f D) as a eqn:Ea.
  assert (l_cat b = c /\ l_fs b = f /\ l_pc b <> LDone /\ n + m (l_pc b) <= m (l_pc a)) as (_ & Hf & Hd & Hm).
  { induction Hex as [a|a n out b resps dg out' w Hex IH Hnd Hnet Hst]; [subst a; cbn [l_cat l_fs l_pc m plus]; split_and!; try done; lia|].
    destruct (IH Ea) as (G1 & G2 & G3 & G4). destruct (Hstep _ _ _ _ _ G1 G2 G3 (HK _ _ _ Hnet) Hst) as (E1 & E2 & E3 & E4). split_and!; try done. lia. }
  split; [|done]. subst a. cbn [l_pc] in Hm. assert (m pc <= K + 2); [|lia]. destruct pc as [| |i|i hs|]; cbn [m]; try lia.
  specialize (Hlen i hs eq_refl). lia.
Qed.
Lemma C65_dies_lemma cwd dir dl A c f h a c' f' own (net : network) K pc D n out b :
  reached cwd dir dl A c f -> A !! h = Some a -> crun cwd c f (CUnshare h) = Some (c', f', AOk) ->
  pc <> LDone -> (forall i hs, pc = LChunk i hs -> length hs <= K) -> (forall q resps dg, net q resps dg -> length resps <= K) ->
  lexec own h net (mkL pc c' f' D) n out b -> n <= K + 2 /\ l_pc b <> LDone /\ l_fs b = f'.
Proof.
  intros H Ha Hrun. destruct (reached_call cwd dir dl A c f (CUnshare h) H I) as (c2 & f2 & A' & ans & Hrun2 & Hspec & Hre).
  rewrite Hrun in Hrun2. injection Hrun2 as <- <- Hans. cbn [aspec] in Hspec. destruct Hspec as (_ & -> & _).
  apply (unknown_dies _ _ _ _ _ _ _ _ _ _ _ _ _ _ _ Hre). apply lookup_delete.
Qed.
