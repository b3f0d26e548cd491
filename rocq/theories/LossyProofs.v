(** Proofs about chunk transfers over a network that loses, repeats and reorders (C103, C104). *)
From Verif Require Export SysProofs LossySpec.
From Verif Require Import HashProofs ChunkProofs MessagesProofs.
From Coq Require Import ZifyBool ZifyNat ZifyN.
Ltac Zify.zify_post_hook ::= Z.div_mod_to_equations.

Section lossy.
  Context (l : list byte) (cs i : nat) (Hcs : (Z.of_nat cs < 4294967296)%Z) (Hi : (Z.of_nat i < 65536)%Z).
  Notation B := (chunk_bytes l cs i).
  Notation E := (first_eof cs (chunk_bytes l cs i)).
  Notation M := (first_empty (chunk_bytes l cs i)).
  Notation h := (sha1 (chunk_bytes l cs i)).
  Notation pk := (stream (sha1 (chunk_bytes l cs i)) (chunk_bytes l cs i)).
  Context (cap : N) (Hcap : (1 <= cap < 65536)%N) (HBne : B <> []).
  Notation C := (N.to_nat cap).

  Lemma M_pos : 1 <= M.
  Proof. unfold first_empty. lia. Qed.
  Lemma B_pos : 0 < length B.
  Proof. destruct B; [done|cbn; lia]. Qed.
  Lemma pk_off k : (pk k).1 = 0%N <-> k = 0.
  Proof.
    destruct k as [|j]; [done|]. cbn [stream fst]. pose proof B_pos. unfold stream_pos. split; [lia|done].
  Qed.
  Lemma pk_inj j k : j < M -> pk j = pk k -> j = k.
  Proof.
    intros Hj He. assert ((pk j).1 = (pk k).1) as H1 by (by rewrite He).
    destruct j as [|j]; [symmetry; apply pk_off; rewrite <- H1; done|].
    destruct k as [|k]; [apply pk_off; rewrite H1; done|].
    cbn [stream fst] in H1. pose proof (proj1 (pos_lt B j) Hj). unfold stream_pos in *. lia.
  Qed.
  Lemma pk_end k : M <= k -> pk k = pk M.
  Proof.
    intros Hk. pose proof M_pos. destruct k as [|k]; [lia|]. destruct M as [|m] eqn:Em; [lia|].
    cbn [stream]. rewrite (pos_M B k), (pos_M B m) by lia. done.
  Qed.

  (** what has arrived, and what the receiver made of it *)
  Definition goes (ks post : list nat) (buf : list byte) : Prop :=
    exists pre, ks = pre ++ 0 :: post /\ head ks = Some 0 /\ Forall (fun j => j < M) pre
      /\ Forall (fun j => 1 <= j < M) post /\ assembled B (0 :: post) buf.
  Lemma goes_header rc : exists buf, recv_packet rc (pk 0) = Ok (RMore (mkRecv (Some h) buf)) /\ assembled B [0] buf.
  Proof. apply recv_header; [apply hwf|by apply (BZ l cs i Hcs cap)]. Qed.
  Lemma goes_step ks post buf k : goes ks post buf ->
    (k < M /\ exists buf' post', recv_packet (mkRecv (Some h) buf) (pk k) = Ok (RMore (mkRecv (Some h) buf'))
        /\ goes (ks ++ [k]) post' buf' /\ post' = (if decide (k = 0) then [] else post ++ [k]))
    \/ (M <= k /\ recv_packet (mkRecv (Some h) buf) (pk k) = Ok (RSave buf (bool_decide (sha1 buf = h)))).
  Proof.
    intros (pre & -> & Hh & Hp & Hq & Ha). destruct (decide (k < M)) as [Hlt|Hge].
    - left. split; [done|]. destruct k as [|j].
      + destruct (goes_header (mkRecv (Some h) buf)) as (buf' & H1 & H2).
        exists buf', []. split; [done|]. split; [|done].
        exists (pre ++ 0 :: post). split; [done|]. split; [by destruct pre|]. split; [|done].
        apply Forall_app. split; [done|]. constructor; [done|]. eapply Forall_impl; [exact Hq|]. cbn. lia.
      + destruct (recv_data h B j (0 :: post) buf) as (buf' & H1 & H2); [done|done|].
        exists buf', (post ++ [S j]). split; [done|]. split; [|done].
        exists pre. split; [by rewrite <- app_assoc|]. split; [by destruct pre|]. split; [done|].
        split; [|done]. apply Forall_app. split; [done|]. apply Forall_singleton. lia.
    - right. split; [lia|]. destruct k as [|j]; [pose proof M_pos; lia|].
      apply recv_end; [by apply (BZ l cs i Hcs cap)|lia|done].
  Qed.

  Definition ninv (a : net) : Prop :=
    exists n, uploads_acked l cs i cap (n_sender a) (n_down a) n /\ (n_up a = 0 -> n = 0) /\
    match n_recv a with
    | RRun rc => (n_up a = 0 /\ n_got a = [])
        \/ exists ks post buf, n_got a = map pk ks /\ goes ks post buf /\ rc = mkRecv (Some h) buf /\ 0 < n_up a
    | RDone buf ok => exists ks post k, n_got a = map pk (ks ++ [k]) /\ goes ks post buf /\ M <= k /\ ok = bool_decide (sha1 buf = h)
    | RTimeout => True
    | RCrash => False
    end.
  Lemma down_pk s d n p : uploads_acked l cs i cap s d n -> p ∈ d -> exists k, p = pk k /\ (n = 0 -> k = 0).
  Proof.
    intros H Hp. assert (exists m, d = map pk (seq 0 m) /\ (n = 0 -> m = 1)) as (m & -> & Hn).
    { destruct (ua_uinv l cs i Hcs Hi cap Hcap _ _ _ H) as (k & m & Hu & -> & _ & _ & _ & ->).
      exists m. split; [done|]. intros. inversion Hu; lia. }
    apply elem_of_list_fmap in Hp as (k & -> & Hk). apply elem_of_seq in Hk.
    exists k. split; [done|]. intros Hz. specialize (Hn Hz). lia.
  Qed.
  Lemma nstep_inv a b : ninv a -> nstep a b -> ninv b.
  Proof.
    intros (n & Hu & Hn & Hr) Hs.
    destruct Hs as [s e s' ps d u r g He Hs|s s' d u r g H0 Hs|s p d u r r' g Hp Hs|s p d u r buf ok g Hp Hs|s p d u r w g Hp Hs|s d u r g];
      unfold ninv in *; cbn [n_sender n_down n_up n_recv n_got] in *.
    - exists n. split; [|done]. eapply ua_work; done.
    - exists (S n). split; [eapply ua_ack; done|]. split; [lia|done].
    - exists n. split; [done|]. split; [lia|]. right.
      destruct (down_pk s d n p Hu Hp) as (k & -> & Hk).
      destruct Hr as [[-> ->]|(ks & post & buf & -> & Hg & -> & H0)].
      + rewrite Hk in * by auto. destruct (goes_header r) as (buf & H1 & H2). rewrite H1 in Hs. injection Hs as <-.
        exists [0], [], buf. split; [done|]. split; [|split; [done|lia]].
        exists []. done.
      + destruct (goes_step ks post buf k Hg) as [[Hlt (buf' & post' & H1 & H2 & _)]|[Hge H1]]; rewrite H1 in Hs; [|done].
        injection Hs as <-. exists (ks ++ [k]), post', buf'. split; [by rewrite map_app|]. split; [done|]. split; [done|lia].
    - exists n. split; [done|]. split; [done|].
      destruct (down_pk s d n p Hu Hp) as (k & -> & Hk).
      destruct Hr as [[-> ->]|(ks & post & buf0 & -> & Hg & -> & H0)].
      + rewrite Hk in * by auto. destruct (goes_header r) as (buf1 & H1 & H2). rewrite H1 in Hs. done.
      + destruct (goes_step ks post buf0 k Hg) as [[Hlt (buf' & post' & H1 & H2 & _)]|[Hge H1]]; rewrite H1 in Hs; [done|].
        injection Hs as <- <-. exists ks, post, k. split; [by rewrite map_app|]. done.
    - destruct (down_pk s d n p Hu Hp) as (k & -> & Hk).
      destruct Hr as [[-> ->]|(ks & post & buf0 & -> & Hg & -> & H0)].
      + rewrite Hk in * by auto. destruct (goes_header r) as (buf1 & H1 & H2). rewrite H1 in Hs. done.
      + destruct (goes_step ks post buf0 k Hg) as [[Hlt (buf' & post' & H1 & H2 & _)]|[Hge H1]]; rewrite H1 in Hs; done.
    - exists n. done.
  Qed.
  Lemma nstart_inv a : nstart l cs i cap a -> ninv a.
  Proof.
    intros (fuel & rd & s & p & H1 & H2 & ->). exists 0. cbn.
    split; [eapply ua_start; done|]. split; [done|]. by left.
  Qed.
  Lemma nreach_inv a b : nstart l cs i cap a -> rtc nstep a b -> ninv b.
  Proof.
    intros Ha Hr. apply nstart_inv in Ha. induction Hr as [|x y z Hs _ IH]; [done|].
    apply IH. by eapply nstep_inv.
  Qed.

  (** *** the sender sends everything, given enough acknowledgements *)
  Lemma all_sent : exists s m n, uploads_acked l cs i cap s (map pk (seq 0 m)) n /\ M < m.
  Proof.
    assert (M <= S E) as HM.
    { unfold first_eof. case_decide; pose proof M_pos; lia. }
    destruct (reached_begin l cs i Hcs Hi cap) as (s0 & H0).
    assert (forall k, (exists s m n, uploads_acked l cs i cap s (map pk (seq 0 m)) n /\ M < m) \/
              exists s ps n, reached l cs i cap s ps n k (if decide (k = 0) then 1 else C + k)
              /\ sd_workers s = 1) as Hall.
    { induction k as [|k [IH|(s & ps & n & H & Hw)]]; [|by left|].
      - right. exists s0, [pk 0], 0. split; [done|]. destruct H0 as (_ & Hu & _). inversion Hu; lia.
      - apply (reached_acks l cs i cap Hcap 1) in H.
        apply reached_kick in H as (s' & ps' & H & Hz); try done; cbn; try lia.
        destruct (decide (sd_workers s' = 1)) as [Hw'|Hw'].
        + right. exists s', ps', (1 + n). rewrite decide_False by lia. done.
        + left. destruct H as (H & Hu & -> & _). exists s', (C + S k), (1 + n). split; [done|].
          inversion Hu; lia. }
    destruct (Hall (S E)) as [?|(s & ps & n & H & Hw)]; [done|].
    destruct H as (_ & Hu & _). exfalso. rewrite decide_False in Hu by lia. inversion Hu; lia.
  Qed.
  (** the same upload, in a network in which an acknowledgement has been sent *)
  Lemma all_down : forall s ps n, uploads_acked l cs i cap s ps n ->
    exists a, nstart l cs i cap a /\ forall u r g, 0 < u ->
      rtc nstep (mkNet (n_sender a) (n_down a) u r g) (mkNet s ps u r g).
  Proof.
    induction 1 as [fuel rd s p H1 H2|s ps n s' H IH Hs|s ps n e s' ps' H IH He Hs].
    - exists (mkNet s [p] 0 (RRun new_recv) []). split; [exists fuel, rd, s, p; done|]. intros. done.
    - destruct IH as (a & Ha & IH). exists a. split; [done|]. intros u r g Hu.
      eapply rtc_r; [by apply IH|]. by apply ns_ack.
    - destruct IH as (a & Ha & IH). exists a. split; [done|]. intros u r g Hu.
      eapply rtc_r; [by apply IH|]. by eapply ns_work.
  Qed.
  Lemma run_post s d ks' : Forall (fun j => j < M) ks' -> (forall j, j <= M -> pk j ∈ d) ->
    forall ks post buf u, goes ks post buf -> exists post' buf' u',
      goes (ks ++ ks') post' buf' /\
      rtc nstep (mkNet s d u (RRun (mkRecv (Some h) buf)) (map pk ks))
                (mkNet s d u' (RRun (mkRecv (Some h) buf')) (map pk (ks ++ ks'))).
  Proof.
    intros Hf Hd. induction Hf as [|k ks' Hk _ IH]; intros ks post buf u Hg.
    - exists post, buf, u. rewrite app_nil_r. done.
    - destruct (goes_step ks post buf k Hg) as [[_ (buf' & post' & H1 & H2 & _)]|[Hge _]]; [|lia].
      destruct (IH _ _ _ (S u) H2) as (post2 & buf2 & u2 & H3 & H4).
      exists post2, buf2, u2. rewrite <- app_assoc in H3, H4. split; [done|].
      eapply rtc_l; [|exact H4]. rewrite map_app. apply ns_more; [apply Hd; lia|done].
  Qed.
  Lemma last_header (x y x' y' : list nat) : x ++ 0 :: y = x' ++ 0 :: y' -> 0 ∉ y -> 0 ∉ y' -> y = y'.
  Proof.
    revert x'. induction x as [|a x IH]; intros [|b x']; cbn [app]; intros [=] Hy Hy'; subst.
    - done.
    - exfalso. apply Hy. apply elem_of_app. right. left.
    - exfalso. apply Hy'. apply elem_of_app. right. left.
    - by eapply IH.
  Qed.
  Lemma assembled_unique ks b1 b2 : assembled B ks b1 -> assembled B ks b2 -> b1 = b2.
  Proof.
    intros [L1 A1] [L2 A2]. apply list_eq. intros j. destruct (decide (j < length B)).
    - rewrite A1, A2 by done. done.
    - rewrite !lookup_ge_None_2 by lia. done.
  Qed.
  Lemma exact_lemma g buf ok : delivers l cs i cap g buf ok <->
    exists pre post k, g = map pk (pre ++ 0 :: post ++ [k]) /\ head (pre ++ [0]) = Some 0
      /\ Forall (fun j => j < M) pre /\ Forall (fun j => 1 <= j < M) post /\ M <= k
      /\ assembled B (0 :: post) buf /\ ok = bool_decide (sha1 buf = h).
  Proof.
    split.
    - intros (a & b & Ha & Hr & Hd & <-). destruct (nreach_inv a b Ha Hr) as (n & _ & _ & H).
      rewrite Hd in H. destruct H as (ks & post & k & -> & (pre & -> & Hh & Hp & Hq & Has) & Hk & ->).
      exists pre, post, k. rewrite <- app_assoc. split; [done|]. split; [by destruct pre|]. done.
    - intros (pre & post & k & -> & Hh & Hp & Hq & Hk & Has & ->).
      destruct all_sent as (s & m & n & Hs & Hm).
      destruct (all_down s _ n Hs) as (a & Ha & Hdown).
      pose proof (nstart_inv a Ha) as Hia.
      assert (exists rest, pre ++ 0 :: post = 0 :: rest /\ Forall (fun j => j < M) rest) as (rest & Hrest & Hfr).
      { assert (Forall (fun j => j < M) post) by (eapply Forall_impl; [exact Hq|cbn; lia]).
        destruct pre as [|p pre]; cbn in Hh.
        - exists post. done.
        - injection Hh as ->. exists (pre ++ 0 :: post). split; [done|].
          inversion Hp; subst. apply Forall_app. split; [done|]. constructor; [apply M_pos|done]. }
      destruct a as [s0 d0 u0 r0 g0].
      destruct Ha as (fuel & rd & s1 & p & E1 & E2 & [= -> -> -> -> ->]).
      destruct (kickstart_ok l cs i Hcs Hi cap s1 p fuel rd E1 E2) as [_ ->].
      cbn [n_sender n_down] in Hdown.
      destruct (goes_header new_recv) as (buf0 & H1 & H2).
      assert (goes [0] [] buf0) as Hg0 by (exists []; done).
      assert (forall j, j <= M -> pk j ∈ map pk (seq 0 m)) as Hin.
      { intros j Hj. apply elem_of_list_fmap. exists j. split; [done|]. apply elem_of_seq. lia. }
      destruct (run_post s (map pk (seq 0 m)) rest Hfr Hin [0] [] buf0 1 Hg0) as (post' & buf' & u' & Hg & Hrun).
      cbn [app] in Hg, Hrun. rewrite <- Hrest in Hg, Hrun.
      assert (post' = post /\ buf' = buf) as [-> ->].
      { pose proof Hg as (pre2 & Heq & _ & _ & Hq2 & Ha2).
        assert (forall q, Forall (fun j => 1 <= j < M) q -> 0 ∉ q) as Hno.
        { intros q Hf Hx. rewrite Forall_forall in Hf. specialize (Hf 0 Hx). cbn in Hf. lia. }
        pose proof (last_header _ _ _ _ Heq (Hno _ Hq) (Hno _ Hq2)) as ->.
        split; [done|]. by eapply assembled_unique. }
      destruct (goes_step _ _ _ M Hg) as [[? _]|[_ Hsave]]; [lia|].
      eexists. eexists. split; [exists fuel, rd, s1, (pk 0); done|]. split.
      + eapply rtc_l; [apply ns_more; [left|exact H1]|].
        eapply rtc_transitive; [apply Hdown; lia|].
        eapply rtc_r; [exact Hrun|].
        apply ns_save; [by apply Hin|exact Hsave].
      + cbn [n_recv n_got]. split; [reflexivity|]. rewrite !app_comm_cons, app_assoc, (map_app _ _ [k]). cbn [map].
        rewrite (pk_end k) by done. done.
  Qed.
  Lemma all_arrived_lemma ks0 ks buf ok : delivers l cs i cap (map pk (ks0 ++ 0 :: ks)) buf ok ->
    0 ∉ ks -> (forall j, 1 <= j < M -> j ∈ ks) -> buf = B /\ ok = true.
  Proof.
    intros H Hks Hall. apply exact_lemma in H as (pre & post & k & Hg & _ & _ & Hq & Hk & Has & ->).
    assert (buf = B) as ->; [|split; [done|by apply bool_decide_true]].
    assert (forall x y x' y' : list nat, map pk (x ++ 0 :: y) = map pk (x' ++ 0 :: y') -> 0 ∉ y -> 0 ∉ y' -> map pk y = map pk y') as Hlast.
    { clear -HBne Hcs Hi Hcap. induction x as [|a x IH]; intros y [|b x'] y' He Hy Hy'; cbn [app map] in He.
      - by injection He.
      - exfalso. injection He as _ He. apply Hy.
        assert (pk 0 ∈ map pk y) as Hin by (rewrite He, map_app; apply elem_of_app; right; left).
        apply elem_of_list_fmap in Hin as (j & Hj & Hin). apply pk_inj in Hj as <-; [done|apply M_pos].
      - exfalso. injection He as _ He. apply Hy'.
        assert (pk 0 ∈ map pk y') as Hin by (rewrite <- He, map_app; apply elem_of_app; right; left).
        apply elem_of_list_fmap in Hin as (j & Hj & Hin). apply pk_inj in Hj as <-; [done|apply M_pos].
      - injection He as _ He. by eapply IH. }
    assert (0 ∉ post ++ [k]) as Hno.
    { rewrite elem_of_app, elem_of_list_singleton. intros [Hx| <-]; [|pose proof M_pos; lia].
      rewrite Forall_forall in Hq. specialize (Hq 0 Hx). cbn in Hq. lia. }
    pose proof (Hlast _ _ _ _ Hg Hks Hno) as He.
    eapply assembled_full; [|exact Has]. intros j Hj. destruct (decide (j = 0)) as [->|Hj0]; [left|right].
    assert (pk j ∈ map pk (post ++ [k])) as Hin.
    { rewrite <- He. apply elem_of_list_fmap. exists j. split; [done|]. apply Hall. lia. }
    apply elem_of_list_fmap in Hin as (j' & Hj' & Hin). apply pk_inj in Hj' as <-; [|done].
    apply elem_of_app in Hin as [?|Hin]; [done|]. apply elem_of_list_singleton in Hin. lia.
  Qed.
  (** only the header's part of the chunk *)
  Lemma short_buf : exists buf, assembled B [0] buf.
  Proof. destruct (goes_header new_recv) as (buf & _ & H). by exists buf. Qed.
  Lemma short_wrong b x buf : B !! b = Some x -> x <> x00 -> 1000 <= b -> assembled B [0] buf -> buf <> B.
  Proof.
    intros Hb Hx Hge [_ Ha] ->. pose proof (lookup_lt_Some _ _ _ Hb) as Hlt.
    specialize (Ha b Hlt). rewrite decide_False in Ha; [congruence|].
    rewrite Exists_cons, Exists_nil. intros [Hc|[]]. unfold covers in Hc. lia.
  Qed.
  Lemma loss_lemma b x : B !! b = Some x -> x <> x00 -> 1000 <= b ->
    exists buf, delivers l cs i cap (map pk [0; M]) buf (bool_decide (sha1 buf = h)) /\ buf <> B.
  Proof.
    intros Hb Hx Hge. destruct short_buf as (buf & Ha). exists buf. split; [|by eapply short_wrong].
    apply exact_lemma. exists [], [], M. repeat split; try done; apply Ha.
  Qed.
  Lemma repeat_lemma b x : B !! b = Some x -> x <> x00 -> 1000 <= b ->
    exists buf, delivers l cs i cap (map pk (seq 0 M ++ [0; M])) buf (bool_decide (sha1 buf = h)) /\ buf <> B.
  Proof.
    intros Hb Hx Hge. destruct short_buf as (buf & Ha). exists buf. split; [|by eapply short_wrong].
    apply exact_lemma. exists (seq 0 M), [], M. split; [done|]. split.
    { pose proof M_pos. destruct M; [lia|done]. }
    split; [|repeat split; try done; apply Ha].
    apply Forall_forall. intros j Hj. apply elem_of_seq in Hj. lia.
  Qed.
  Lemma no_crash_lemma a b : nstart l cs i cap a -> rtc nstep a b ->
    n_recv b <> RCrash /\ forall ps, sstep (n_sender b) (SKick None) <> SDead ps.
  Proof.
    intros Ha Hr. destruct (nreach_inv a b Ha Hr) as (n & Hu & _ & H). split.
    - intros He. rewrite He in H. done.
    - intros ps Hd. apply (ua_uinv l cs i Hcs Hi cap Hcap) in Hu.
      assert (0 < sd_workers (n_sender b) /\ 0 < sd_acks (n_sender b)) as [H1 H2].
      { cbn [sstep] in Hd. destruct (decide _) as [Hx|] in Hd; [|done]. lia. }
      destruct (uinv_kicks l cs i Hcs cap Hcap _ _ _ Hu H1 H2) as (s' & ps' & Hk). congruence.
  Qed.
  Lemma two_headers : exists a b, nstart l cs i cap a /\ rtc nstep a b
    /\ (exists r, n_recv b = RRun r) /\ n_up b = 2 /\ exists s' ps, sstep (n_sender b) (SKick None) = SGo s' ps.
  Proof.
    destruct (C73_ok_lemma l cs i Hcs Hi) as (fuel & rd & Hrd).
    pose proof (reader_at l cs i fuel rd Hcs Hi Hrd) as Hr.
    destruct (goes_header new_recv) as (b1 & E1 & _).
    destruct (goes_header (mkRecv (Some h) b1)) as (b2 & E2 & _).
    pose proof (kickstart_eq l cs i Hcs cap) as Hk. rewrite <- Hr in Hk.
    assert (uploads_acked l cs i cap _ _ 0) as Hu by (eapply ua_start; [exact Hrd|exact Hk]).
    eapply ua_ack in Hu; [|reflexivity].
    apply (ua_uinv l cs i Hcs Hi cap Hcap) in Hu.
    eexists. eexists. split.
    - exists fuel, rd. do 2 eexists. split; [exact Hrd|]. split; [exact Hk|reflexivity].
    - split.
      + eapply rtc_l; [apply ns_more; [left|exact E1]|].
        eapply rtc_l; [apply ns_more; [left|exact E2]|].
        eapply rtc_l; [apply ns_ack; [lia|reflexivity]|]. apply rtc_refl.
      + cbn [n_recv n_up n_sender]. split; [eexists; reflexivity|]. split; [reflexivity|].
        eapply (uinv_kicks l cs i Hcs cap Hcap); [exact Hu|cbn; lia|cbn; lia].
  Qed.
End lossy.

(** *** cases *)
Lemma assembled_case : assembled (chunk_bytes (replicate 1500 x61) 2000 0) [0] (replicate 1000 x61 ++ replicate 500 x00).
Proof.
  assert (chunk_bytes (replicate 1500 x61) 2000 0 = replicate 1500 x61) as -> by (vm_compute; reflexivity).
  split; [rewrite app_length, !replicate_length; lia|]. intros b Hb. rewrite replicate_length in Hb.
  destruct (decide (b < 1000)).
  - rewrite decide_True; [|apply Exists_cons_hd; unfold covers; rewrite replicate_length; lia].
    rewrite lookup_app_l by (rewrite replicate_length; lia). rewrite !lookup_replicate_2 by lia. reflexivity.
  - rewrite decide_False; [|rewrite Exists_cons, Exists_nil; unfold covers; lia].
    rewrite lookup_app_r by (rewrite replicate_length; lia). rewrite replicate_length.
    apply lookup_replicate_2. lia.
Qed.
