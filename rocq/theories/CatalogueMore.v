(** Consequences and refutations for downloads: C36, C37, C40, C70. *)
From Verif Require Export CatalogueDownload.

Lemma C36_empty_lemma cwd dir dl A c f size count chunk h name : reached cwd dir dl A c f -> A !! h = None ->
  allowed cwd dir dl A f (CRegister size count chunk h name) -> size = 0%N ->
  f !! join2 dl name = None ->
  exists c1 f1 x c2, crun cwd c f (CRegister size count chunk h name) = Some (c1, f1, AExport x)
    /\ crun cwd c1 f1 (CComplete h) = Some (c2, f1, ABool true) /\ f1 !! x_path x = None.
Proof.
  intros H Hn Hal Hz Hno. pose proof (reached_synced _ _ _ _ _ _ H) as (_ & Hsy & Hd & Hdl').
  destruct (reached_call _ _ _ _ _ _ _ H Hal) as (c1 & f1 & A1 & ans & Hr & Hs & Hre).
  cbn [aspec] in Hs. rewrite Hn in Hs. destruct Hs as (Hsu & -> & x & -> & Hsh).
  destruct Hal as (_ & Hch & Hwf & Hname). pose proof (sy_dl _ _ _ Hsy) as Hcl. rewrite Hdl' in Hcl.
  destruct (inside_normal dl name Hcl Hname) as [_ Hpj].
  set (a := new_entry (join2 dl name) (Z.of_N size) (Z.of_N chunk)) in *.
  assert (a_count a = 0%Z) as Hc0.
  { unfold a. rewrite Hz. cbn [new_entry a_count]. unfold ceil_div. apply Z.div_small. lia. }
  destruct (C38_lemma cwd dir dl _ c1 f1 h a 10 Hre) as (c2 & c3 & b & rs & H1 & _ & _ & H2 & _).
  { apply lookup_insert. }
  { lia. }
  assert (b = true) as -> by (apply H2; intros i Hi; lia).
  exists c1, f1, x, c2. split; [done|]. split.
  - cbn [crun]. rewrite H1. done.
  - destruct Hsh as (-> & _). change (a_path a) with (join2 dl name). rewrite Hsu; [done|]. rewrite Hpj.
    intros E. rewrite <- Hd, <- Hdl' in E. exact (sy_ne _ _ _ Hsy E).
Qed.

Lemma C37_lemma cwd dir dl A c f h a cs content is old : reached cwd dir dl A c f -> A !! h = Some a ->
  0 < cs -> a_chunk a = Z.of_nat cs -> a_held a = ∅ ->
  a_count a = Z.of_nat ((length content + cs - 1) / cs) -> (a_count a <= 65536)%Z ->
  can_write f (a_path a) -> parent (a_path a) <> dir ->
  Forall (fun i => i < (length content + cs - 1) / cs) is ->
  content <> [] -> Forall (fun i => i ∈ is) (seq 0 ((length content + cs - 1) / cs)) ->
  file_at f (a_path a) = Some old -> length content < length old ->
  exists c' f' c2, saves cwd c f h cs content is = Some (c', f')
    /\ crun cwd c' f' (CComplete h) = Some (c2, f', ABool true)
    /\ file_at f' (a_path a) = Some (content ++ drop (length content) old)
    /\ file_at f' (a_path a) <> Some content.
Proof.
  intros H Ha H1 H2 H3 H4 H5 H6 H7 H8 H9 H10 H11 H12.
  destruct (C36_lemma cwd dir dl A c f h a cs content is H Ha H1 H2 H3 H4 H5 H6 H7 H8) as (c' & f' & Hs & [c2 Hc] & Hf).
  exists c', f', c2. split; [done|]. split; [rewrite Hc; rewrite bool_decide_true by done; done|].
  rewrite (Hf H9 H10), H11. cbn [default]. split; [done|]. intros [= E]. apply (f_equal length) in E.
  rewrite app_length, drop_length in E. lia.
Qed.
Lemma C37_short_lemma cwd dir dl A c f h a cs content is : reached cwd dir dl A c f -> A !! h = Some a ->
  0 < cs -> a_chunk a = Z.of_nat cs -> a_held a = ∅ ->
  a_count a = Z.of_nat ((length content + cs - 1) / cs) -> (a_count a <= 65536)%Z ->
  can_write f (a_path a) -> parent (a_path a) <> dir ->
  Forall (fun i => i < (length content + cs - 1) / cs) is ->
  content <> [] -> Forall (fun i => i ∈ is) (seq 0 ((length content + cs - 1) / cs)) ->
  length (default [] (file_at f (a_path a))) <= length content ->
  exists c' f', saves cwd c f h cs content is = Some (c', f') /\ file_at f' (a_path a) = Some content.
Proof.
  intros H Ha H1 H2 H3 H4 H5 H6 H7 H8 H9 H10 H11.
  destruct (C36_lemma cwd dir dl A c f h a cs content is H Ha H1 H2 H3 H4 H5 H6 H7 H8) as (c' & f' & Hs & [c2 Hc] & Hf).
  exists c', f'. split; [done|]. rewrite (Hf H9 H10). rewrite drop_ge by done. rewrite app_nil_r. done.
Qed.

Lemma C40_refuted_lemma dl name : clean_abs dl -> normal_name name ->
  join2 dl (dotdot ++ slash :: name) = join2 (parent dl) name
  /\ (dl <> [slash] -> ~ inside dl (join2 dl (dotdot ++ slash :: name))).
Proof.
  intros (cs & Hcs & ->) Hn. pose proof Hn as (N1 & N2 & N3 & N4).
  destruct (decide (cs = [])) as [->|Hne].
  - assert (parent (render []) = render []) as -> by done. split; [|intros X; exfalso; apply X; done].
    rewrite !join2_render by done.
    rewrite split_app_slash by (vm_compute; intros H; repeat (apply elem_of_cons in H as [H|H]; [done|]); apply elem_of_nil in H; done).
    cbn [rev clean_stack]. rewrite decide_False by (intros [?|?]; done). rewrite decide_True by done. done.
  - destruct (exists_last Hne) as (cs0 & b & ->).
    apply Forall_app in Hcs as [Hcs0 Hb]. inversion Hb as [|? ? Hb1 _]; subst.
    assert (join2 (render (cs0 ++ [b])) (dotdot ++ slash :: name) = render (cs0 ++ [name])) as E.
    { rewrite join2_render by (try apply Forall_app; done).
      rewrite split_app_slash by (vm_compute; intros H; repeat (apply elem_of_cons in H as [H|H]; [done|]); apply elem_of_nil in H; done).
      rewrite rev_app_distr. cbn [rev app clean_stack]. rewrite decide_False by (intros [?|?]; done). rewrite decide_True by done.
      destruct Hb1 as (B1 & B2 & B3 & B4). rewrite decide_False by done.
      rewrite split_no_slash by done. rewrite clean_stack_normal by (constructor; done).
      cbn [rev app]. rewrite rev_involutive. done. }
    rewrite E, parent_render by done. rewrite join2_normal by done. split; [done|].
    intros _ (rest & Hr & Hx). rewrite decide_False in Hx.
    + apply (f_equal split_slash) in Hx. rewrite split_render in Hx by (apply Forall_app; split; [done|constructor; done]).
      rewrite split_render_join in Hx by (apply Forall_app; done).
      destruct (decide (cs0 ++ [name] = [])) as [X|_]; [destruct cs0; done|].
      destruct (decide (cs0 ++ [b] = [])) as [X|_]; [destruct cs0; done|].
      apply (f_equal length) in Hx. cbn [length] in Hx. rewrite !app_length in Hx. cbn [length] in Hx.
      pose proof (split_nonempty rest). destruct (split_slash rest); [done|]. cbn [length] in Hx. lia.
    + unfold render. intros X. injection X as X. destruct b as [|b0 b]; [destruct Hb1; done|].
      destruct cs0 as [|c0 cs0]; [done|]. rewrite join_slash_snoc in X. destruct (join_slash (c0 :: cs0)); done.
Qed.

Lemma C70_same_lemma cwd dir dl A c f : reached cwd dir dl A c f -> c_dir c = dir /\ c_inddir c = dir.
Proof. intros H. apply reached_synced in H as (_ & Hs & <- & _). split; [done|]. apply Hs. Qed.

(** *** C74: when the first chunk of a new download can be saved *)
Lemma C74_exact_lemma cwd dir dl A c f size count chunk h name i data :
  reached cwd dir dl A c f -> parent dl <> dir -> A !! h = None ->
  allowed cwd dir dl A f (CRegister size count chunk h name) -> (i < 65536)%N ->
  exists c1 f1 x c2 f2 ans, crun cwd c f (CRegister size count chunk h name) = Some (c1, f1, AExport x)
    /\ crun cwd c1 f1 (CSave h i data) = Some (c2, f2, ans)
    /\ (ans = AOk <-> f !! dl = Some NDir /\ f !! join2 dl name <> Some NDir)
    /\ (ans = AOk -> exists new, file_at f2 (join2 dl name) = Some new
          /\ overlay (default [] (file_at f (join2 dl name))) (N.to_nat i * N.to_nat chunk) data new
          /\ exists A2 a, reached cwd dir dl A2 c2 f2 /\ A2 !! h = Some a /\ a_held a = {[i]}).
Proof.
  intros H Hpar Hn Hal Hi. pose proof (reached_synced _ _ _ _ _ _ H) as (_ & Hsy & Hd & Hdl').
  destruct (reached_call _ _ _ _ _ _ _ H Hal) as (c1 & f1 & A1 & ans & Hr & Hs & Hre).
  cbn [aspec] in Hs. rewrite Hn in Hs. destruct Hs as (Hsu & -> & x & -> & Hsh).
  destruct Hal as (_ & _ & Hwf & Hname). pose proof (sy_dl _ _ _ Hsy) as Hcl. rewrite Hdl' in Hcl.
  destruct (inside_normal dl name Hcl Hname) as [_ Hpj].
  set (a := new_entry (join2 dl name) (Z.of_N size) (Z.of_N chunk)) in *.
  assert (parent (a_path a) = dl) as Hpa by done.
  assert (dl <> dir) as Hne by (intros E; rewrite <- Hd, <- Hdl' in E; exact (sy_ne _ _ _ Hsy E)).
  destruct (reached_call cwd dir dl (<[h:=a]> A) c1 f1 (CSave h i data) Hre) as (c2 & f2 & A2 & ans2 & Hr2 & Hs2 & Hre2).
  { split; [done|]. exists a. rewrite lookup_insert. split; [done|]. rewrite Hpa. done. }
  cbn [aspec] in Hs2. rewrite lookup_insert in Hs2.
  assert (can_write f1 (a_path a) <-> f !! dl = Some NDir /\ f !! join2 dl name <> Some NDir) as Hw.
  { unfold can_write. rewrite Hpa, !Hsu by (rewrite ?Hpa; done). done. }
  exists c1, f1, x, c2, f2, ans2. split; [done|]. split; [done|]. rewrite <- Hw.
  destruct Hs2 as [(Hcw & -> & -> & new & Hov & Hsu2)|(Hnw & -> & -> & _)].
  - split; [done|]. intros _. exists new. change (join2 dl name) with (a_path a). split.
    { unfold file_at. rewrite Hsu2 by (rewrite Hpa; done). rewrite lookup_insert. done. }
    split. { unfold file_at in Hov. rewrite Hsu in Hov by (rewrite Hpa; done). cbn [a new_entry a_chunk] in Hov.
      replace (Z.to_nat (Z.of_N chunk)) with (N.to_nat chunk) in Hov by lia. exact Hov. }
    eexists _, _. split; [exact Hre2|]. split; [apply lookup_insert|]. cbn [hold a new_entry a_held]. apply union_empty_r_L.
  - split; [|done]. split; [done|]. intros ?. done.
Qed.
