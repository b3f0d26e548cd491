(** Proofs about a first start that is killed. *)
From Verif Require Export CatalogueCrash CatalogueHist CrashSpec.

(** the last directory that MkdirAll creates is the one it was asked for *)
Lemma chain_take_self d k p : clean_abs d -> d ∈ take k (chain d) -> p ∈ chain d -> p ∈ take k (chain d).
Proof.
  intros (cs & Hcs & ->) Hd Hp. rewrite chain_render in * by done. destruct (decide (cs = [])) as [->|Hn].
  - assert (p = render []) as -> by set_solver. done.
  - apply elem_of_take in Hd as (i & Hi & Hk). apply list_lookup_fmap_Some in Hi as (j & Hj & E). apply lookup_seq in Hj as [-> Hj]. cbn in E.
    apply render_inj in E; [|done|apply Forall_take; done]. apply (f_equal length) in E. rewrite take_length in E.
    rewrite take_ge; [done|]. rewrite map_length, seq_length. lia.
Qed.
Lemma killed_do {A : Type} f o (k : reply -> io A) f' : killed f (Do o k) f' ->
  partial f o f' \/ exists r f1, ostep f o r f1 /\ killed f1 (k r) f'.
Proof. inversion 1; subst; eauto. left. constructor. Qed.
Lemma killed_ret {A : Type} f (a : A) f' : killed f (Ret a) f' -> f' = f.
Proof. inversion 1; done. Qed.
Lemma ostep_cases f o r f' : ostep f o r f' -> do_op f o = (r, f') \/ r = RFail false /\ partial f o f'.
Proof. inversion 1; subst; auto. Qed.
Lemma marshal_nonempty c : length (marshal c) = 0 -> False.
Proof. unfold marshal, json_marshal, index_json. cbn [print_json length]. done. Qed.
Section first.
  Context (cwd dir dl : path) (pid now : Z) (f0 f : fs) (c : cat).
  Context (Hfresh : fresh_start cwd dir dl pid now f0 f c).
  Let d := abs cwd dir.
  Let e := abs cwd dl.
  Let idx := join2 d index_name.
  Definition first_cat (pid now : Z) : cat := mkCat (abs cwd dir) (abs cwd dl) pid now ∅ (abs cwd dir).

  Lemma first_run : exists f1, do_op f0 (OMkdirAll d) = (ROk, f1) /\ f1 !! d = Some NDir /\ (forall n, normal n -> f1 !! join2 d n = None)
    /\ noent f1 idx = true /\ f = <[idx := NFile (marshal c)]> f1 /\ c = first_cat pid now.
  Proof.
    destruct Hfresh as (Hc & Hne & Hu & Hp & Hn & Hch & Hrun).
    pose proof (abs_clean cwd dir Hc) as Hd. fold d in Hd, Hch, Hu.
    unfold open_cat, ind_init, new_cat in Hrun. cbn [c_dir c_dl run] in Hrun. fold d e in Hrun.
    destruct (do_op f0 (OMkdirAll d)) as [rep f1] eqn:Emk.
    assert (rep = ROk -> f1 !! d = Some NDir /\ forall n, normal n -> f1 !! join2 d n = None) as Hf1.
    { intros ->. cbn [do_op] in Emk. destruct (is_dir f0 d) eqn:Ed.
      - simplify_eq. split.
        + unfold is_dir in Ed. destruct (f1 !! d) as [[]|]; done.
        + intros n Hnn. apply Hch; [apply parent_join2; done|apply dir_not_child; done].
      - destruct (negb (is_rooted d) || existsb (is_file f0) (chain d)); simplify_eq. split.
        + apply foldr_dirs_lookup_in, elem_of_chain_self. done.
        + intros n Hnn. rewrite foldr_dirs_lookup.
          * apply Hch; [apply parent_join2; done|apply dir_not_child; done].
          * intros Hin. apply (chain_not_child d n _ Hd Hnn Hin). done. }
    destruct rep; cbn [run] in Hrun; try (simplify_eq; fail).
    destruct (Hf1 eq_refl) as [Hdir Hnone]. exists f1. split; [done|]. split; [done|]. split; [done|].
    cbn [do_op] in Hrun. rewrite Hdir in Hrun. cbn [run do_op] in Hrun.
    rewrite (Hnone _ index_normal) in Hrun. fold idx in Hrun.
    destruct (noent f1 idx); cbn [run] in Hrun; [|simplify_eq]. split; [done|].
    set (c0 := mkCat d e pid now ∅ d) in *. rewrite run_bind in Hrun.
    rewrite save_index_run in Hrun.
    2:{ cbn [c_inddir c0]. apply writable_child; [done|apply index_normal|done|]. rewrite Hnone by apply index_normal. done. }
    cbn [c_inddir c0] in Hrun. fold c0 in Hrun.
    assert (unmarshal (marshal c0) = Ok (pid, now, ∅, d)) as Hum.
    { rewrite unmarshal_marshal_cat by (apply marshal_empty_ints; done). cbn [c0 c_pid c_touched c_index c_inddir].
      rewrite fmap_empty. rewrite (proj2 (sanitize_id_iff d) Hu). done. }
    rewrite (ind_load_ok c0 _ ∅ pid now d (marshal c0)) in Hrun; [|cbn [c_dir c0]; apply lookup_insert|done].
    cbn [c_dir c_dl c0] in Hrun. injection Hrun as E1 E2. change (mkCat d e pid now ∅ d) with c0 in E2. rewrite <- E2. split; [|done]. rewrite <- E1. done.
  Qed.
  (** a start on any disk that MkdirAll makes the same *)
  Lemma first_again f1 f' pid' now' : f1 !! d = Some NDir -> (forall n, normal n -> f1 !! join2 d n = None) -> noent f1 idx = true ->
    do_op f' (OMkdirAll d) = (ROk, f1) -> (forall p, parent p = d -> p <> d -> f' !! p = None) ->
    (-9223372036854775808 <= pid' < 9223372036854775808)%Z -> (-9223372036854775808 <= now' < 9223372036854775808)%Z ->
    fresh_start cwd dir dl pid' now' f' (<[idx := NFile (marshal (first_cat pid' now'))]> f1) (first_cat pid' now').
  Proof.
    destruct Hfresh as (Hc & Hne & Hu & _ & _ & _ & _). intros Hdir Hnone Hno Hmk Hch Hp Hn.
    pose proof (abs_clean cwd dir Hc) as Hd. fold d in Hd, Hu.
    do 6 (split; [done|]). unfold open_cat, ind_init, new_cat. cbn [c_dir c_dl run]. fold d e. rewrite Hmk. cbn [run do_op].
    rewrite Hdir. cbn [run do_op]. rewrite (Hnone _ index_normal). fold idx. rewrite Hno. cbn [run]. rewrite run_bind.
    rewrite save_index_run.
    2:{ cbn [c_inddir]. apply writable_child; [done|apply index_normal|done|]. rewrite Hnone by apply index_normal. done. }
    cbn [c_inddir]. fold (first_cat pid' now'). change (mkCat d e pid' now' ∅ d) with (first_cat pid' now').
    rewrite (ind_load_ok (first_cat pid' now') _ ∅ pid' now' d (marshal (first_cat pid' now'))); [done|cbn [c_dir first_cat]; apply lookup_insert|].
    rewrite unmarshal_marshal_cat by (apply marshal_empty_ints; done). cbn [first_cat c_pid c_touched c_index c_inddir]. fold d.
    rewrite fmap_empty. rewrite (proj2 (sanitize_id_iff d) Hu). done.
  Qed.
  Lemma partial_mkdir_again f1 f' : do_op f0 (OMkdirAll d) = (ROk, f1) -> partial f0 (OMkdirAll d) f' ->
    do_op f' (OMkdirAll d) = (ROk, f1) /\ forall p, parent p = d -> p <> d -> f' !! p = None.
  Proof.
    destruct Hfresh as (Hc & _ & _ & _ & _ & Hch & _). pose proof (abs_clean cwd dir Hc) as Hd. fold d in Hd, Hch.
    intros Hmk H. inversion H as [o|p data k Hw|p off data k Hw Ho|p k Hnd Hr Hnf]; subst; [done|]. split.
    - cbn [do_op] in Hmk |- *. rewrite Hnd, Hr, Hnf in Hmk. cbn [negb orb] in Hmk.
      assert (f1 = foldr (fun d g => <[d := NDir]> g) f0 (chain d)) as -> by (injection Hmk as <-; reflexivity). clear Hmk.
      set (f' := foldr _ f0 (take k (chain d))). assert (foldr (fun d g => <[d := NDir]> g) f' (chain d) = foldr (fun d g => <[d := NDir]> g) f0 (chain d)) as Eall.
      { apply map_eq. intros p. destruct (decide (p ∈ chain d)) as [Hin|Hin]; [rewrite !foldr_dirs_lookup_in by done; done|].
        rewrite !foldr_dirs_lookup by done. unfold f'. apply foldr_dirs_lookup. intros Hin'. apply Hin. apply elem_of_take in Hin' as (i & Hi & _).
        eapply elem_of_list_lookup_2. exact Hi. }
      destruct (is_dir f' d) eqn:Ed.
      + destruct (decide (d ∈ take k (chain d))) as [Hin|Hin].
        * f_equal. unfold f'. apply map_eq. intros p. destruct (decide (p ∈ chain d)) as [Hin2|Hin2].
          -- rewrite !foldr_dirs_lookup_in by first [done|apply chain_take_self; done]. done.
          -- assert (p ∉ take k (chain d)) as Hin3 by (intros G; apply Hin2; apply elem_of_take in G as (i & Hi & _); eapply elem_of_list_lookup_2; exact Hi).
             rewrite !foldr_dirs_lookup by done. done.
        * unfold is_dir, f' in Ed, Hnd. rewrite foldr_dirs_lookup in Ed by done. rewrite Ed in Hnd. done.
      + rewrite Hr. cbn [negb orb]. rewrite Eall.
        assert (existsb (is_file f') (chain d) = false) as ->; [|done].
        apply not_true_is_false. intros G. apply existsb_exists in G as (q & Hq & Hf). assert (existsb (is_file f0) (chain d) = true); [|congruence].
        apply existsb_exists. exists q. split; [done|]. unfold is_file, f' in *. destruct (decide (q ∈ take k (chain d))) as [Hin|Hin].
        * rewrite foldr_dirs_lookup_in in Hf by done. done.
        * rewrite foldr_dirs_lookup in Hf by done. done.
    - intros p Hp Hpd. rewrite foldr_dirs_lookup; [apply Hch; done|]. intros Hin. apply Hpd. apply elem_of_take in Hin as (i & Hi & _).
      apply chain_parent; [done| |done]. eapply elem_of_list_lookup_2. exact Hi.
  Qed.
  Lemma C116_lemma f' : killed f0 (open_cat pid now cwd dir dl) f' ->
    (forall pid' now', (-9223372036854775808 <= pid' < 9223372036854775808)%Z -> (-9223372036854775808 <= now' < 9223372036854775808)%Z ->
       exists f2 c2, fresh_start cwd dir dl pid' now' f' f2 c2 /\ c_index c2 = ∅)
    \/ (f' = f /\ starts cwd dir dl f' c)
    \/ ((exists data p s, f !! idx = Some (NFile data) /\ data = p ++ s /\ s <> [] /\ f' !! idx = Some (NFile p)) /\ wont_start cwd dir dl f').
  Proof.
    destruct first_run as (f1 & Hmk & Hdir & Hnone & Hno & Ef & Ec).
    destruct Hfresh as (Hc & Hne & Hu & Hp & Hn & Hch & Hrun). pose proof (abs_clean cwd dir Hc) as Hd. pose proof (abs_clean cwd dl Hc) as Hdl.
    fold d in Hd, Hch, Hu. fold e in Hdl.
    assert (forall g, do_op g (OMkdirAll d) = (ROk, f1) -> (forall p, parent p = d -> p <> d -> g !! p = None) ->
      forall pid' now', (-9223372036854775808 <= pid' < 9223372036854775808)%Z -> (-9223372036854775808 <= now' < 9223372036854775808)%Z ->
       exists f2 c2, fresh_start cwd dir dl pid' now' g f2 c2 /\ c_index c2 = ∅) as Hagain by (intros; eexists _, _; split; [apply (first_again f1 g); done|done]).
    assert (forall g, partial f0 (OMkdirAll d) g -> forall pid' now', (-9223372036854775808 <= pid' < 9223372036854775808)%Z -> (-9223372036854775808 <= now' < 9223372036854775808)%Z ->
       exists f2 c2, fresh_start cwd dir dl pid' now' g f2 c2 /\ c_index c2 = ∅) as Hpart.
    { intros g Hg. destruct (partial_mkdir_again f1 g Hmk Hg) as [H1 H2]. apply Hagain; done. }
    assert (forall p, parent p = d -> p <> d -> f1 !! p = None) as Hch1.
    { cbn [do_op] in Hmk. destruct (is_dir f0 d) eqn:Ed; [injection Hmk as <-; done|].
      destruct (_ || _); [done|]. assert (f1 = foldr (fun d g => <[d := NDir]> g) f0 (chain d)) as -> by (injection Hmk as <-; reflexivity). intros p Hpp Hpd. rewrite foldr_dirs_lookup; [apply Hch; done|].
      intros Hin. apply Hpd. apply chain_parent; done. }
    pose proof (Hagain f1 (mkdir_noop _ _ Hdir) Hch1) as Hf1.
    assert (Htorn : forall k, (<[idx := NFile (take k (marshal c))]> f1) = f /\ starts cwd dir dl f c
      \/ ((exists data p s, f !! idx = Some (NFile data) /\ data = p ++ s /\ s <> [] /\ (<[idx := NFile (take k (marshal c))]> f1) !! idx = Some (NFile p))
           /\ wont_start cwd dir dl (<[idx := NFile (take k (marshal c))]> f1))).
    { assert (forall x, (<[idx := x]> f1) !! d = Some NDir) as Hdx by (intros x; rewrite lookup_insert_ne; [done|apply dir_not_child; [done|apply index_normal]]).
      assert (forall pid' now', open_cat pid' now' cwd dir dl = open_cat pid' now' cwd d e) as Eo.
      { intros. unfold open_cat, new_cat. fold d e. rewrite !abs_id by done. done. }
      intros k. destruct (le_lt_dec (length (marshal c)) k) as [Hk|Hk].
      - left. rewrite take_ge by done. split; [done|]. intros pid' now'. rewrite Eo.
        rewrite (open_existing pid' now' cwd d e f (marshal c)); [|done|rewrite abs_id, Ef by done; done|rewrite abs_id, Ef by done; apply lookup_insert].
        assert (unmarshal (marshal c) = Ok (pid, now, ∅, d)) as Hum.
        { rewrite Ec. rewrite unmarshal_marshal_cat by (apply marshal_empty_ints; done). cbn [first_cat c_pid c_touched c_index c_inddir]. fold d.
          rewrite fmap_empty. rewrite (proj2 (sanitize_id_iff d) Hu). done. }
        rewrite (ind_load_ok (new_cat cwd d e) f ∅ pid now d (marshal c)).
        + unfold new_cat. cbn [c_dir c_dl]. rewrite !abs_id by done. rewrite Ec. done.
        + unfold new_cat. cbn [c_dir]. rewrite abs_id by done. fold idx. rewrite Ef. apply lookup_insert.
        + done.
      - right. split.
        + exists (marshal c), (take k (marshal c)), (drop k (marshal c)). split; [rewrite Ef; apply lookup_insert|]. split; [rewrite take_drop; done|].
          split; [|apply lookup_insert]. intros E. apply (f_equal length) in E. rewrite drop_length in E. cbn [length] in E. lia.
        + intros pid' now'. rewrite Eo. apply (starts_torn cwd d e _ (marshal c) k c); [done|done|apply Hdx|done|apply lookup_insert|done]. }
    unfold open_cat, ind_init, new_cat. cbn [c_dir c_dl]. fold d e. intros H.
    apply killed_do in H as [Hpa|(r & g1 & Hos & Hk)]; [left; apply Hpart; done|].
    apply ostep_cases in Hos as [Hdo|[-> Hpa]].
    2:{ apply killed_ret in Hk as ->. left. apply Hpart. done. }
    rewrite Hmk in Hdo. injection Hdo as <- <-. 
    apply killed_do in Hk as [Hpa|(r & g1 & Hos & Hk)]; [left; apply partial_pure in Hpa as ->; done|].
    apply ostep_read_only in Hos as [-> Hos]; [|done].
    cbn [do_op] in Hos. rewrite Hdir in Hos. destruct Hos as [Hos| ->]; [injection Hos as <-|apply killed_ret in Hk as ->; left; done].
    apply killed_do in Hk as [Hpa|(r & g1 & Hos & Hk3)]; [left; apply partial_pure in Hpa as ->; done|].
    apply ostep_read_only in Hos as [-> Hos]; [|done].
    cbn [do_op] in Hos. rewrite (Hnone _ index_normal) in Hos. fold idx in Hos. rewrite Hno in Hos.
    destruct Hos as [Hos| ->]; [injection Hos as <-|apply killed_ret in Hk3 as ->; left; done].
    change (mkCat d e pid now ∅ d) with (first_cat pid now) in Hk3. rewrite <- Ec in Hk3.
    assert (c_inddir c = d) as Eid by (rewrite Ec; done).
    assert (writable f1 idx = true) as Hwr.
    { apply writable_child; [done|apply index_normal|done|]. rewrite Hnone by apply index_normal. done. }
    assert (forall g, partial f1 (OWrite idx (marshal c)) g -> g = f1 \/ exists k, g = <[idx := NFile (take k (marshal c))]> f1) as Hpw.
    { intros g Hg. inversion Hg; subst; [auto|right; eauto]. }
    assert (f' = f1 \/ exists k, f' = <[idx := NFile (take k (marshal c))]> f1) as [-> |(k & ->)]; [|left; done|].
    2:{ destruct (Htorn k) as [[-> ?]|?]; auto. }
    apply killed_bind in Hk3 as [Hk3|(fx & a & Hx & Hk3)].
    - unfold save_index in Hk3. rewrite Eid in Hk3. fold idx in Hk3. apply killed_do in Hk3 as [Hpa|(r & g1 & Hos & Hk4)]; [apply Hpw; done|].
      assert (f' = g1) as -> by (destruct r; apply killed_ret in Hk4; done). apply ostep_cases in Hos as [Hdo|[-> Hpa]]; [|apply Hpw; done].
      cbn [do_op] in Hdo. rewrite Hwr in Hdo. injection Hdo as _ <-. right. exists (length (marshal c)). rewrite take_ge by done. done.
    - assert (f' = fx) as ->.
      { assert (pure_io (ind_load c)) as Hpl by (unfold ind_load; split; [done|]; intros r; destruct r; try exact I; destruct (unmarshal d0) as [[[[? ?] ?] ?]|?|?]; exact I).
        destruct a as [u|w|w]; [eapply killed_pure; [|exact Hk3]; done|inversion Hk3; done|inversion Hk3; done]. }
      unfold save_index in Hx. rewrite Eid in Hx. fold idx in Hx. apply execs_do in Hx as (r & g1 & Hos & Hx). apply execs_ret in Hx as [-> _].
      apply ostep_cases in Hos as [Hdo|[-> Hpa]]; [|apply Hpw; done].
      cbn [do_op] in Hdo. rewrite Hwr in Hdo. injection Hdo as _ <-. right. exists (length (marshal c)). rewrite take_ge by done. done.
  Qed.
  Lemma C116_torn_lemma : exists f', killed f0 (open_cat pid now cwd dir dl) f' /\ f' !! idx = Some (NFile []) /\ wont_start cwd dir dl f'.
  Proof.
    destruct first_run as (f1 & Hmk & Hdir & Hnone & Hno & Ef & Ec).
    assert (exists f', killed f0 (open_cat pid now cwd dir dl) f' /\ f' !! idx = Some (NFile [])) as (f' & Hk & Hi).
    2:{ exists f'. split; [done|]. split; [done|]. destruct (C116_lemma f' Hk) as [H|[[-> _]|[_ H]]]; [| |done].
      - exfalso. destruct Hfresh as (Hc & _). pose proof (abs_clean cwd dir Hc) as Hd.
        destruct (H 0%Z 0%Z) as (f2 & c2 & (_ & _ & _ & _ & _ & Hch & _) & _); [lia|lia|].
        rewrite Hch in Hi; [done|apply parent_join2|apply dir_not_child]; [done|apply index_normal|done|apply index_normal].
      - exfalso. rewrite Ef, lookup_insert in Hi. injection Hi as Hi. pose proof (f_equal length Hi) as Hl. revert Hl. apply marshal_nonempty. }
    exists (<[idx := NFile (take 0 (marshal c))]> f1). split; [|apply lookup_insert].
    unfold open_cat, ind_init, new_cat. cbn [c_dir c_dl]. fold d e.
    eapply ki_later; [apply os_ok; exact Hmk|]. cbn beta iota.
    eapply ki_later; [apply os_ok; cbn [do_op]; rewrite Hdir; reflexivity|]. cbn beta iota.
    eapply ki_later; [apply os_ok; cbn [do_op]; rewrite (Hnone _ index_normal); fold idx; rewrite Hno; reflexivity|]. cbn beta iota.
    unfold save_index. cbn [bind c_inddir]. change (mkCat d e pid now ∅ d) with (first_cat pid now). rewrite <- Ec.
    apply ki_during. apply pa_write. destruct Hfresh as (Hc & _). pose proof (abs_clean cwd dir Hc) as Hd.
    apply writable_child; [done|apply index_normal|done|]. rewrite Hnone by apply index_normal. done.
  Qed.
End first.
