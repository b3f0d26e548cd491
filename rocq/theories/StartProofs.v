(** Proofs about the metadata with which a download starts (C105). *)
From Verif Require Export DownloadProofs4 StartSpec.

Lemma download_meta_cases h meta :
  (exists e, describes_one meta h e /\ download_meta h meta = Ok e)
  \/ (~ (exists e, describes_one meta h e) /\ ~ unparsable meta /\ exists w, download_meta h meta = Err w)
  \/ (~ (exists e, describes_one meta h e) /\ unparsable meta /\ exists w, download_meta h meta = Panic w).
Proof.
  unfold download_meta, listing_received. destruct meta as [d|].
  2:{ right. left. split; [intros (e & d & r & ? & _); done|]. split; [intros (d & ? & _); done|]. by eexists. }
  destruct (parse (udp_buffer 1024 d)) as [m|w|w] eqn:Ep; cbn [rbind].
  - destruct m as [reqid h0 cs|addr port reqid cs|reqid h0|reqid es|h0 i cap|off data|off].
    4: destruct es as [|e [|e2 es]].
    5: destruct (decide (e_hash e = h)) as [He|He].
    5:{ left. exists e. split; [|done]. exists d, reqid. done. }
    all: right; left; split; [intros (e' & d' & r' & [= <-] & Hp & He'); rewrite Ep in Hp; simplify_eq; done|].
    all: split; [intros (d' & [= <-] & [w Hw]); rewrite Ep in Hw; done|by eexists].
  - right. left. split; [intros (e' & d' & r' & [= <-] & Hp & He'); rewrite Ep in Hp; done|].
    split; [intros (d' & [= <-] & [w' Hw]); rewrite Ep in Hw; done|by eexists].
  - right. right. split; [intros (e' & d' & r' & [= <-] & Hp & He'); rewrite Ep in Hp; done|].
    split; [exists d; split; [done|by exists w]|by eexists].
Qed.
Lemma start_run cwd dir dl A c f h ifs own resps r hs :
  reached cwd dir dl A c f -> A !! h = None -> no_spare ifs -> own_address ifs own -> selected (good own) resps (r :: hs) ->
  local_ip (Some ifs) <> Ok None /\ exists ip, local_ip (Some ifs) = Ok (Some ip) /\ new_ipv4 ip = Ok own /\ good_hosts own resps = Ok (r :: hs)
    /\ run f (contains c h) = (f, Done (c, Err "file not found")).
Proof.
  intros H Ha Hns Hown Hsel. destruct (C66_own_lemma ifs own Hns Hown) as (ip & Hip & Hnew).
  destruct (C62_lemma own resps) as (l & Hgh & Hsel'). assert (l = r :: hs) as -> by (eapply selected_unique; done).
  split; [congruence|]. exists ip. split; [done|]. split; [done|]. split; [done|]. by eapply contains_unknown.
Qed.
Lemma refused_lemma cwd dir dl A c f h ifs own resps r hs meta :
  reached cwd dir dl A c f -> A !! h = None -> no_spare ifs -> own_address ifs own -> selected (good own) resps (r :: hs) ->
  ~ (exists e, describes_one meta h e) ->
  (~ unparsable meta /\ exists w, run f (start_download (Some ifs) c h resps meta) = (f, Done (c, Err w)))
  \/ (unparsable meta /\ exists w, run f (start_download (Some ifs) c h resps meta) = (f, Died w)).
Proof.
  intros H Ha Hns Hown Hsel Hno.
  destruct (start_run cwd dir dl A c f h ifs own resps r hs H Ha Hns Hown Hsel) as (_ & ip & Hip & Hnew & Hgh & Hrun).
  unfold start_download. rewrite run_bind, Hrun, Hip, Hnew, Hgh.
  destruct (download_meta_cases h meta) as [(e & He & _)|[(_ & Hp & w & ->)|(_ & Hp & w & ->)]].
  - exfalso. apply Hno. by exists e.
  - left. split; [done|]. by exists w.
  - right. split; [done|]. by exists w.
Qed.
Lemma contains_none_execs c f f' h out : c_index c !! h = None -> execs f (contains c h) f' out ->
  f' = f /\ out = Done (c, Err "file not found").
Proof.
  intros Hn H. unfold contains, get_record in H. rewrite Hn in H. cbn [bind on_ok] in H. by apply execs_ret in H.
Qed.
Lemma register_frame c size count chunk h name f f' c' r :
  clean_abs (c_dir c) -> c_inddir c = c_dir c -> hash_wf h ->
  execs f (register_download c size count chunk h name) f' (Done (c', r)) ->
  same_user (c_dir c) f f' /\ (forall k, k <> h -> c_index c' !! k = c_index c !! k)
    /\ forall x, r = Ok x -> exists rc, c_index c' !! h = Some rc /\ r_path rc = join2 (c_dl c) name
         /\ r_size rc = int_of_u64 size /\ r_chunk rc = Z.of_N chunk.
Proof.
  intros Hd Hi Hh H. unfold register_download in H.
  set (r0 := mkRec _ _ _ _ _) in H.
  apply execs_bind_done in H as (f1 & [c1 e] & H1 & H).
  assert (same_user (c_dir c) f f1) as Hf1.
  { intros p Hp. apply add_record_runs in H1.
    assert (p <> join2 (c_inddir c) index_name) as Hne.
    { intros ->. apply Hp. rewrite Hi. by apply parent_index. }
    destruct H1 as [(_ & _ & -> & _)|(_ & _ & [(_ & _ & ->)|(_ & Hq)])]; [done|by rewrite lookup_insert_ne|by apply Hq]. }
  apply add_record_runs in H1. cbn [r_hash r0] in H1.
  assert ((forall k, k <> h -> c_index c1 !! k = c_index c !! k) /\ c_dir c1 = c_dir c) as [Hk Hcd].
  { destruct H1 as [(_ & -> & _)|(_ & -> & _)]; [done|]. split; [|done]. intros k Hk. cbn [set_index c_index]. by rewrite lookup_insert_ne. }
  destruct e as [u|w|w]; cbn [on_ok] in H.
  2:{ apply execs_ret in H as [-> [= -> ->]]; done. }
  2:{ apply execs_die in H as [_ ?]; done. }
  destruct (new_progress r0 (c_dir c1)) as [pr|w|w] eqn:Enp.
  2:{ apply execs_ret in H as [-> [= -> ->]]; done. }
  2:{ apply execs_die in H as [_ ?]; done. }
  unfold save_prog in H. cbn [bind] in H. apply execs_do in H as (rp & f2 & Ho & H). apply execs_ret in H as [-> [= -> ->]].
  split; [|split].
  - intros p Hp. rewrite <- Hf1 by done. eapply ostep_frame; [exact Ho|]. cbn [touches].
    assert (p_file pr = prog_path (c_dir c) h) as Hpf.
    { unfold new_progress in Enp. rewrite Hcd in Enp. revert Enp.
      destruct (chunk_count _ _); cbn [rbind]; [|done..]. destruct (new_bitset _); cbn [rbind]; intros; by simplify_eq. }
    rewrite Hpf, join1_clean by (by apply prog_path_clean). intros E. apply Hp. rewrite E. by apply parent_prog.
  - intros k Hk'. cbn [set_index c_index]. rewrite lookup_insert_ne by done. by apply Hk.
  - intros x _. eexists. split; [cbn [set_index c_index]; apply lookup_insert|]. done.
Qed.
Lemma only_this_lemma cwd dir dl A c f h ifs own resps meta f' c' res :
  reached cwd dir dl A c f -> A !! h = None -> hash_wf h -> no_spare ifs -> own_address ifs own ->
  execs f (start_download (Some ifs) c h resps meta) f' (Done (c', res)) ->
  same_user dir f f' /\ (forall k, k <> h -> c_index c' !! k = c_index c !! k)
  /\ forall own', res = Ok own' -> own' = own /\ exists e rc, describes_one meta h e /\ c_index c' !! h = Some rc
       /\ r_path rc = join2 dl (e_name e) /\ r_size rc = int_of_u64 (e_size e) /\ r_chunk rc = Z.of_N (e_chunk e).
Proof.
  intros H Ha Hh Hns Hown He. destruct (C66_own_lemma ifs own Hns Hown) as (ip & Hip & Hnew).
  pose proof (reached_synced _ _ _ _ _ _ H) as (_ & Hs & <- & <-).
  unfold start_download in He. apply execs_bind_done in He as (f1 & [c1 ext] & H1 & He).
  apply contains_none_execs in H1 as [-> [= -> ->]]; [|by apply (entries_none _ _ _ _ h (sy_ent _ _ _ Hs))].
  rewrite Hip, Hnew in He. destruct (C62_lemma own resps) as (l & Hgh & _). rewrite Hgh in He.
  destruct l as [|r hs]; [by apply execs_ret in He as [-> [= -> ->]]|].
  destruct (download_meta_cases h meta) as [(e & Hde & E)|[(_ & _ & w & E)|(_ & _ & w & E)]]; rewrite E in He.
  2:{ by apply execs_ret in He as [-> [= -> ->]]. }
  2:{ by apply execs_die in He as [_ ?]. }
  apply execs_bind_done in He as (f1 & [c2 r2] & H1 & He). apply execs_ret in He as [-> [= -> ->]].
  pose proof Hde as (_ & _ & _ & _ & Heh). rewrite Heh in H1.
  apply register_frame in H1 as (Hf & Hk & Hx); [|apply Hs..|done].
  split; [done|]. split; [done|]. intros own' Hr. destruct r2 as [x|w|w]; [|done..]. split; [congruence|].
  destruct (Hx x eq_refl) as (rc & ? & ? & ? & ?). by exists e, rc.
Qed.
