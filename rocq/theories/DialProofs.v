(** Proofs about machines whose network may be down. *)
From Verif Require Export DialSpec.
From Verif Require Import CliProofs3 DownloadProofs2 DownloadProofs4 ServerProofs ServerProofs2 ServerProofs5 CatalogueReach CatalogueProofs.

Lemma bcast : broadcast_ip = [xff; xff; xff; xff].
Proof. reflexivity. Qed.
Lemma asks_parse argv q : asks argv q -> client_parse argv = PSend q.
Proof.
  intros Ha. assert (~ too_many argv) as G1 by (inversion Ha; subst; cbn; intros [[? ?]|[? ?]]; try done; lia).
  assert (argv <> [str "get"]) as G2 by (inversion Ha; done).
  destruct (C72_lemma argv G1 G2) as [(q' & H1 & ->)|[H1 _]]; [f_equal; eapply asks_unique; done|destruct (H1 _ Ha)].
Qed.
Lemma session_on_cases d argv q e s f : client_parse argv = PSend q ->
  session_on d true e s f argv = match run f (serve_on d e s q) with
            | (f', Done (s', ds, Ok r)) =>
                (f', Some s', ds, match response_text r with Ok t => Shown t | _ => Crashed end)
            | (f', Done (s', ds, _)) => (f', Some s', ds, Failed)
            | (f', Died _) => (f', None, [], Failed)
            | (f', Hangs) => (f', Some s, [], Waits)
            end.
Proof. intros H. unfold session_on. destruct argv; [done|]. rewrite H. done. Qed.
Lemma serve_on_list d e s q h : length q = 4 -> serve_on d e s (RqList (mapped q) h) = dialled d q (serve e s (RqList (mapped q) h)).
Proof.
  intros Hq. cbn [serve_on]. assert (gob_bytes (mapped q) = Some (exact_slice (mapped q))) as -> by done.
  rewrite (to4_mapped q Hq). destruct q as [|a [|b [|c [|x [|]]]]]; try done.
Qed.
Lemma no_spare_wf ifs : no_spare ifs -> Forall if_wf ifs.
Proof. intros H. eapply Forall_impl; [exact H|]. intros [ip|]; [|done]. cbn. unfold slice_wf. lia. Qed.
Lemma local_own ifs ip own : no_spare ifs -> local_ip (Some ifs) = Ok (Some ip) -> new_ipv4 ip = Ok own -> own_address ifs own.
Proof.
  intros Hns Hip Hnew. pose proof (first_ipv4_spec ifs (no_spare_wf _ Hns)) as H. cbn in Hip. injection Hip as Hip. rewrite Hip in H.
  destruct H as (Ho & _). destruct (C66_own_lemma ifs _ Hns Ho) as (r & Hr & Hn). cbn in Hr. injection Hr as Hr. congruence.
Qed.

(** ** Commands *)
Lemma get_dies cwd dir dl A c f d ifs own h resps meta : reached cwd dir dl A c f -> no_spare ifs -> own_address ifs own ->
  d broadcast_ip = false \/ (A !! h = None /\ exists r hs, selected (good own) resps (r :: hs) /\ d (h_addr r) = false) ->
  exists w, run f (start_download_on d (Some ifs) c h resps meta) = (f, Died w).
Proof.
  intros H Hns Hown Hd. destruct (C66_own_lemma ifs own Hns Hown) as (ip & Hip & Hnew).
  destruct (C62_lemma own resps) as (l & Hgh & Hsel').
  unfold start_download_on. rewrite run_bind. destruct (A !! h) as [a|] eqn:Ha.
  - destruct (contains_known _ _ _ _ _ _ _ _ H Ha) as (c' & x & Hrun & _). rewrite Hrun, Hip, Hnew.
    destruct Hd as [Hd|[Hd _]]; [|done]. unfold dialled. rewrite Hd. cbn [run]. eauto.
  - rewrite (contains_unknown _ _ _ _ _ _ _ H Ha), Hip, Hnew. unfold dialled at 1. destruct (d broadcast_ip); [|cbn [run]; eauto].
    destruct Hd as [Hd|(_ & r & hs & Hs & Hd)]; [done|]. assert (l = r :: hs) as -> by (eapply selected_unique; done).
    rewrite Hgh. unfold dialled. rewrite Hd. cbn [run]. eauto.
Qed.
Lemma get_same cwd dir dl A c f d e h : reached cwd dir dl A c f -> plain_ifs e -> (forall ip, wants A e (RqGet h) ip -> d ip = true) ->
  run f (start_download_on d (ce_ifs e) c h (ce_resps e) (ce_listing e)) = run f (start_download (ce_ifs e) c h (ce_resps e) (ce_listing e)).
Proof.
  intros H Hpl Hw. unfold start_download_on, start_download. rewrite !run_bind.
  destruct (run f (contains c h)) as [f1 [[c1 ext]|w|]] eqn:Ec; [|done..].
  destruct (local_ip (ce_ifs e)) as [[ip|]|w|w] eqn:Hip; [|done..].
  destruct (new_ipv4 ip) as [own|w|w] eqn:Hnew; [|done..].
  destruct (ce_ifs e) as [ifs|] eqn:Hi; [|done]. pose proof (Hpl _ Hi) as Hns. pose proof (local_own _ _ _ Hns Hip Hnew) as Hown.
  assert (d broadcast_ip = true) as Hb by (rewrite bcast; apply Hw; eapply wa_get; done).
  unfold dialled. rewrite Hb. destruct (C62_lemma own (ce_resps e)) as (l & Hgh & Hsel). rewrite Hgh. destruct l as [|r hs]; [done|].
  destruct (A !! h) as [a|] eqn:Ha.
  - destruct (contains_known _ _ _ _ _ _ _ _ H Ha) as (c' & x & Hrun & _). rewrite Hrun in Ec. injection Ec as <- <- <-. done.
  - assert (d (h_addr r) = true) as -> by (apply Hw; eapply wa_meta; done). done.
Qed.
Lemma C120_dies_lemma cwd dir dl A s f d e argv q ip : reached cwd dir dl A (sv_cat s) f -> plain_ifs e -> asks argv q -> wants A e q ip -> d ip = false ->
  session_on d true e s f argv = (f, None, [], Failed).
Proof.
  intros H Hpl Ha Hw Hd. rewrite (session_on_cases _ _ _ _ _ _ (asks_parse _ _ Ha)). destruct Hw as [q h Hq|h|h ifs own Hi Hown|h ifs own r hs Hi Hown Hn Hsel].
  - rewrite (serve_on_list _ _ _ _ _ Hq). unfold dialled. rewrite Hd. done.
  - cbn [serve_on]. unfold dialled. rewrite bcast, Hd. done.
  - cbn [serve_on]. rewrite run_bind, Hi. destruct (get_dies _ _ _ _ _ _ d ifs own h (ce_resps e) (ce_listing e) H (Hpl _ Hi) Hown (or_introl Hd)) as [w ->]. done.
  - cbn [serve_on]. rewrite run_bind, Hi.
    destruct (get_dies _ _ _ _ _ _ d ifs own h (ce_resps e) (ce_listing e) H (Hpl _ Hi) Hown) as [w ->]; [right; eauto|]. done.
Qed.
Lemma C120_same_lemma cwd dir dl A s f d e argv q : reached cwd dir dl A (sv_cat s) f -> plain_ifs e -> asks argv q ->
  (forall ip, wants A e q ip -> d ip = true) -> session_on d true e s f argv = session true e s f argv.
Proof.
  intros H Hpl Ha Hw. pose proof (asks_parse _ _ Ha) as Hp. rewrite (session_on_cases _ _ _ _ _ _ Hp), (session_cases _ _ _ _ _ Hp).
  enough (run f (serve_on d e s q) = run f (serve e s q)) as -> by done.
  assert (forall ip h, length ip = 16 -> q = RqList ip h -> run f (serve_on d e s q) = run f (serve e s q)) as Hlist.
  { intros ip h Hl ->. destruct (is_mapped_dec ip Hl) as [(q4 & Hq & ->)|Hn].
    - rewrite (serve_on_list _ _ _ _ _ Hq). unfold dialled. rewrite (Hw q4) by (constructor; done). done.
    - cbn [serve_on]. destruct (gob_bytes ip) as [l|] eqn:E; [|done].
      assert (l = exact_slice ip) as -> by (destruct ip; cbn in E; congruence). rewrite (to4_other ip Hl Hn). done. }
  destruct Ha; try done.
  - eapply Hlist; [eapply address_length; done|done].
  - eapply Hlist; [eapply address_length; done|done].
  - cbn [serve_on serve]. rewrite !run_bind. rewrite (get_same _ _ _ _ _ _ d e h H Hpl Hw). done.
  - cbn [serve_on]. unfold dialled. rewrite bcast, (Hw [xff; xff; xff; xff]) by constructor. done.
  - cbn [serve_on]. unfold dialled. rewrite bcast, (Hw [xff; xff; xff; xff]) by constructor. done.
Qed.

(** ** Downloads *)
Lemma C121_lemma cwd dir dl A c f h a D d own resps dg : reached cwd dir dl A c f -> A !! h = Some a -> (a_count a <= 65536)%Z ->
  (exists i, (Z.of_N i < a_count a)%Z /\ i ∉ a_held a) -> d [xff; xff; xff; xff] = false ->
  loop_ends d own h resps dg (mkL LCheck c f D) 2 f.
Proof.
  intros H Ha Hmax (i & Hi & Hni) Hd. pose proof (reached_synced _ _ _ _ _ _ H) as (_ & Hs & _).
  pose proof (synced_facts _ _ _ _ _ Hs Ha) as [Hch Hpos].
  destruct (file_complete_ok c f A h a Hs Ha) as (c1 & Hrun & Hs1 & Hd1 & _).
  rewrite bool_decide_false in Hrun.
  2:{ intros E. apply Hni, E. apply elem_of_all_below. done. }
  destruct (missing_step c1 f A h a Hs1 Ha Hmax) as (c2 & rs & Hrun2 & Hs2 & Hd2 & Hrs).
  destruct rs as [|r rs].
  { exfalso. apply todo_nil in Hrs; [|done]. apply Hni, Hrs. apply elem_of_all_below. done. }
  eapply len_later. { cbn [l_pc l_cat l_fs l_active loop_step_on loop_step]. rewrite run_bind, Hrun. reflexivity. }
  eapply len_later. { cbn [l_pc l_cat l_fs l_active loop_step_on loop_step]. rewrite run_bind, Hrun2. reflexivity. }
  eapply len_now. cbn [l_pc l_cat l_fs l_active loop_step_on]. unfold dialled. rewrite bcast, Hd. reflexivity.
Qed.
Lemma C121_connected_lemma d own h resps dg pc c D : d [xff; xff; xff; xff] = true -> (forall r, r ∈ resps -> d (h_addr r) = true) ->
  (forall start r hs, pc = LChunk start (r :: hs) -> r ∈ resps) ->
  loop_step_on d own h resps dg pc c D = loop_step own h resps dg pc c D.
Proof.
  intros Hb Hd Hpc. destruct pc as [| |start|start [|r hs]|]; cbn [loop_step_on]; try done.
  - unfold dialled. rewrite bcast, Hb. done.
  - rewrite (Hd r) by (eapply Hpc; done). done.
Qed.
