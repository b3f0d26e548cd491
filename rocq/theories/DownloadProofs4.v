(** Proofs about downloads, part 4: starting one (C63, C64), and examples. *)
From Verif Require Export DownloadProofs3 ServerCases.
From Coq Require Import ZifyBool ZifyNat ZifyN.
Ltac Zify.zify_post_hook ::= Z.div_mod_to_equations.

Lemma start_known_lemma cwd dir dl A c f h a ifs own resps r hs meta :
  reached cwd dir dl A c f -> A !! h = Some a -> no_spare ifs -> own_address ifs own -> selected (good own) resps (r :: hs) ->
  exists c', run f (start_download (Some ifs) c h resps meta) = (f, Done (c', Ok own)) /\ reached cwd dir dl A c' f.
Proof.
  intros H Ha Hns Hown Hsel. destruct (C66_own_lemma ifs own Hns Hown) as (ip & Hip & Hnew).
  destruct (C62_lemma own resps) as (l & Hgh & Hsel'). assert (l = r :: hs) as -> by (eapply selected_unique; done).
  destruct (contains_known _ _ _ _ _ _ _ _ H Ha) as (c' & x & Hrun & _ & _ & Hre).
  exists c'. split; [|done]. unfold start_download. rewrite run_bind, Hrun, Hip, Hnew, Hgh. done.
Qed.
Lemma start_known_synced A c f h a ifs own resps r hs meta :
  synced c f A -> A !! h = Some a -> no_spare ifs -> own_address ifs own -> selected (good own) resps (r :: hs) ->
  exists c', run f (start_download (Some ifs) c h resps meta) = (f, Done (c', Ok own)) /\ synced c' f A /\ c_dir c' = c_dir c.
Proof.
  intros H Ha Hns Hown Hsel. destruct (C66_own_lemma ifs own Hns Hown) as (ip & Hip & Hnew).
  destruct (C62_lemma own resps) as (l & Hgh & Hsel'). assert (l = r :: hs) as -> by (eapply selected_unique; done).
  destruct (get_record_ok c f A h a H Ha) as (r0 & b & Hrun & _ & _ & _ & Hs & _ & _).
  eexists. split; [|split; [exact Hs|done]]. unfold start_download. rewrite run_bind. unfold contains. rewrite run_bind, Hrun.
  cbn [on_ok run]. rewrite Hip, Hnew, Hgh. done.
Qed.
(** asked for once more after it is complete, a download ends at once and asks nobody *)
Lemma C75_after_lemma cwd dir dl A c f h a ifs own resps r hs meta :
  reached cwd dir dl A c f -> A !! h = Some a -> all_below (a_count a) ⊆ a_held a ->
  no_spare ifs -> own_address ifs own -> selected (good own) resps (r :: hs) ->
  exists c' c2, run f (start_download (Some ifs) c h resps meta) = (f, Done (c', Ok own)) /\ reached cwd dir dl A c2 f
    /\ forall resps dg D, lstep own h resps dg (mkL LCheck c' f D) = Some (mkL LDone c2 f D, []).
Proof.
  intros H Ha Ht Hns Hown Hsel. destruct (start_known_lemma _ _ _ _ _ _ _ _ _ _ _ _ _ meta H Ha Hns Hown Hsel) as (c' & Hrun & Hre).
  pose proof (reached_synced _ _ _ _ _ _ Hre) as (_ & Hs & _).
  destruct (file_complete_ok c' f A h a Hs Ha) as (c2 & Hf & _). rewrite bool_decide_true in Hf by exact Ht.
  destruct (reached_call cwd dir dl A c' f (CComplete h) Hre) as (c3 & f3 & A3 & ans & Hr3 & Hsp & Hre3); [cbn [allowed]; rewrite Ha; done|].
  exists c', c2. split; [done|]. split.
  - cbn [crun] in Hr3. rewrite Hf in Hr3. cbn [aspec] in Hsp. rewrite Ha in Hsp. simplify_eq. naive_solver.
  - intros rs dg D. unfold lstep. cbn [l_pc l_cat l_fs l_active loop_step]. rewrite run_bind, Hf. done.
Qed.
Lemma start_nobody_lemma cwd dir dl A c f h ifs own resps meta :
  reached cwd dir dl A c f -> no_spare ifs -> own_address ifs own -> selected (good own) resps [] ->
  exists c' w, run f (start_download (Some ifs) c h resps meta) = (f, Done (c', Err w)) /\ reached cwd dir dl A c' f.
Proof.
  intros H Hns Hown Hsel. destruct (C66_own_lemma ifs own Hns Hown) as (ip & Hip & Hnew).
  destruct (C62_lemma own resps) as (l & Hgh & Hsel'). assert (l = []) as -> by (eapply selected_unique; done).
  unfold start_download. rewrite run_bind. destruct (A !! h) as [a|] eqn:Ha.
  - destruct (contains_known _ _ _ _ _ _ _ _ H Ha) as (c' & x & Hrun & _ & _ & Hre). rewrite Hrun, Hip, Hnew, Hgh. eauto.
  - rewrite (contains_unknown _ _ _ _ _ _ _ H Ha), Hip, Hnew, Hgh. eauto.
Qed.
Lemma start_new_lemma cwd dir dl A c f h ifs own resps r hs reqid e :
  reached cwd dir dl A c f -> A !! h = None -> no_spare ifs -> own_address ifs own -> selected (good own) resps (r :: hs) ->
  u16 reqid -> entry_typed e -> e_hash e = h -> (e_size e < 9223372036854775808)%N -> (0 < e_chunk e)%N ->
  normal_name (take 255 (e_name e)) ->
  exists c' f', run f (start_download (Some ifs) c h resps (Some (serialize (ListResp reqid [e])))) = (f', Done (c', Ok own))
    /\ reached cwd dir dl (<[h := new_entry (join2 dl (take 255 (e_name e))) (Z.of_N (e_size e)) (Z.of_N (e_chunk e))]> A) c' f'
    /\ same_user dir f f'.
Proof.
  intros H Ha Hns Hown Hsel Hr Ht Hh Hsz Hch Hname. destruct (C66_own_lemma ifs own Hns Hown) as (ip & Hip & Hnew).
  destruct (C62_lemma own resps) as (l & Hgh & Hsel'). assert (l = r :: hs) as -> by (eapply selected_unique; done).
  unfold start_download. rewrite run_bind, (contains_unknown _ _ _ _ _ _ _ H Ha), Hip, Hnew, Hgh.
  pose proof (C60_received_lemma reqid [e] Hr ltac:(repeat constructor; apply Ht) ltac:(cbn; lia)) as Hrec.
  rewrite decide_True in Hrec by (cbn [entries_size]; lia). unfold download_meta. rewrite Hrec. cbn [map].
  rewrite decide_True by done. unfold cut_name. cbn [e_size e_count e_chunk e_hash e_name].
  assert (hash_wf h) as Hwf by (rewrite <- Hh; apply Ht).
  assert (allowed cwd dir dl A f (CRegister (e_size e) (e_count e) (e_chunk e) h (take 255 (e_name e)))) as Hal.
  { destruct Ht as (_ & _ & Ht & _). unfold u32 in Ht. cbn [allowed]. split; [done|]. split; [lia|]. done. }
  destruct (reached_call _ _ _ _ _ _ _ H Hal) as (c' & f' & A' & ans & Hrun & Hspec & Hre).
  cbn [aspec] in Hspec. rewrite Ha in Hspec. destruct Hspec as (Hsu & -> & x & -> & _).
  rewrite run_bind, Hh. cbn [crun] in Hrun. revert Hrun.
  destruct (run f (register_download c _ _ _ h _)) as [f2 [[c2 [y|w|w]]|w|]]; cbn [finish ans_of fst snd]; try done.
  intros [= -> -> _]. cbn [run]. exists c', f'. done.
Qed.

Lemma C64_registered_lemma cwd dir dl A c f size count chunk h name : reached cwd dir dl A c f -> A !! h = None ->
  allowed cwd dir dl A f (CRegister size count chunk h name) -> (65536 * chunk < size)%N ->
  exists c1 f1 x, crun cwd c f (CRegister size count chunk h name) = Some (c1, f1, AExport x)
    /\ forall own net n out b, lexec own h net (mkL LCheck c1 f1 ∅) n out b -> l_pc b <> LDone.
Proof.
  intros H Ha Hal Hbig. destruct (reached_call _ _ _ _ _ _ _ H Hal) as (c1 & f1 & A1 & ans & Hrun & Hspec & Hre).
  cbn [aspec] in Hspec. rewrite Ha in Hspec. destruct Hspec as (Hsu & -> & x & -> & _).
  exists c1, f1, x. split; [done|]. intros own net n out b Hex.
  pose proof (reached_synced _ _ _ _ _ _ H) as (_ & Hs & Hd & Hdl).
  eapply (C64_lemma _ _ _ _ _ _ h _ own net n out b Hre); [apply lookup_insert| | | |exact Hex].
  - cbn [new_entry a_count]. destruct Hal as (H1 & H2 & _). unfold ceil_div. apply Z.lt_le_trans with 65537%Z; [lia|]. apply Z.div_le_lower_bound; lia.
  - set_solver.
  - cbn [new_entry a_path]. destruct Hal as (_ & _ & _ & Hname).
    destruct (inside_normal dl name) as [_ ->]; [rewrite <- Hdl; apply (sy_dl _ _ _ Hs)|done|].
    rewrite <- Hd, <- Hdl. apply (sy_ne _ _ _ Hs).
Qed.

(** ** Examples *)
Definition ex_host : list byte := [xc0; xa8; x01; x09].
Definition ex_resps : list hostresp := [mkResp ex_own 61696 4 [0; 1]%N; mkResp ex_host 61696 4 [0; 1]%N].
Definition ex_ds : list (list byte) := map wire (map (stream habc (bs "abc")) [0; 1]).
(** [k] steps of the loop with these answers *)
Fixpoint ex_loop (k : nat) (a : lworld) (out : list dgram) : option (lworld * list dgram) :=
  match k with
  | O => Some (a, out)
  | S k' => match lstep ex_own hnew ex_resps (Some ex_ds) a with Some (b, o) => ex_loop k' b (out ++ o) | None => None end
  end.
Definition ex_new : aentry := hold entry_new 1.
Lemma ex3_can : ex3.1.2 !! bs "/dl" = Some NDir /\ ex3.1.2 !! bs "/dl/new" <> Some NDir.
Proof.
  assert (is_dir ex3.1.2 (bs "/dl") && negb (is_dir ex3.1.2 (bs "/dl/new")) = true) as E by (vm_compute; reflexivity).
  revert E. generalize (ex3.1.2). intros f E.
  unfold is_dir in E. apply andb_prop in E as [E1 E2]. destruct (f !! bs "/dl") as [[]|]; try done.
  split; [done|]. destruct (f !! bs "/dl/new") as [[]|]; done.
Qed.
Lemma parent_new : parent (bs "/dl/new") = bs "/dl".
Proof. vm_compute. reflexivity. Qed.
(** the hypotheses of the theorems about honest hosts hold for a five-byte file in
    chunks of three, of which the second is there *)
Lemma C63_case_lemma :
  reached ex_cwd ex_dir ex_dl A3 ex3.1.1 ex3.1.2 /\ A3 !! hnew = Some ex_new
  /\ a_chunk ex_new = Z.of_nat 3 /\ a_count ex_new = Z.of_nat ((length (bs "abcde") + 3 - 1) / 3)
  /\ can_write ex3.1.2 (a_path ex_new) /\ parent (a_path ex_new) <> ex_dir /\ right_so_far (bs "abcde") 3 ex3.1.2 ex_new
  /\ (forall i, ~ ragged 3 (chunk_bytes (bs "abcde") 3 i) \/ first_empty (chunk_bytes (bs "abcde") 3 i) <= 1024)
  /\ todo ex_new = [0%N].
Proof.
  split; [exact ex3_reached|]. split; [exact A3_new|]. split; [done|]. split; [vm_compute; done|].
  split; [split; [unfold ex_new; cbn [hold entry_new new_entry a_path]; rewrite parent_new; apply ex3_can|apply ex3_can]|].
  split; [vm_compute; discriminate|]. split.
  - unfold right_so_far. cbn [ex_new hold entry_new new_entry a_path a_held]. rewrite ex3_new. cbn [default].
    intros k Hk Hin. rewrite union_empty_r_L in Hin. apply elem_of_singleton in Hin.
    change (length (bs "abcde")) with 5 in Hk.
    do 5 (destruct k as [|k]; [vm_compute in Hin; try discriminate Hin; vm_compute; reflexivity|]). lia.
  - split; [|vm_compute; done]. intros i. left. intros [H _]. unfold chunk_bytes in H. rewrite take_length in H. lia.
Qed.
Lemma C63_run_lemma :
  match ex_loop 7 (mkL LCheck ex3.1.1 ex3.1.2 ∅) [] with
  | Some (b, out) => match l_pc b with LDone => true | _ => false end
      && bool_decide (file_at (l_fs b) (bs "/dl/new") = Some (bs "abcde"))
      && match out with [d] => bool_decide (dg_ip d = ex_host) && bool_decide (dg_data d = serialize (OpenReq hnew 0 1024)) | _ => false end
  | None => false
  end = true.
Proof. vm_compute. reflexivity. Qed.
