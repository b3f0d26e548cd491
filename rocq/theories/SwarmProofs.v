(** Proofs about downloads from several hosts. *)
From Verif Require Export SwarmSpec DownloadProofs2.
From Coq Require Import ZifyBool ZifyNat ZifyN.
Ltac Zify.zify_post_hook ::= Z.div_mod_to_equations.

Lemma requests_snoc h is rounds i hs : length is = length rounds ->
  requests h (is ++ [i]) (rounds ++ [hs]) = requests h is rounds ++ ask_all h i hs.
Proof. intros E. unfold requests. rewrite zip_with_app by done. rewrite concat_app. cbn. rewrite app_nil_r. done. Qed.
Lemma hold_again a i : i ∈ a_held a -> a_held (hold a i) = a_held a.
Proof. intros H. cbn [hold a_held]. set_solver. Qed.
Lemma todo_again a i : i ∈ a_held a -> (Z.of_N i < a_count a)%Z -> todo (hold a i) = todo a.
Proof. intros H H2. unfold todo. rewrite (hold_again a i H). cbn [hold a_count]. rewrite Z.max_l by lia. done. Qed.
Definition cost (rounds : list (list hostresp)) : nat := sum_list_with (fun hs => 4 + length hs) rounds.
Lemma cost_snoc rounds hs : cost (rounds ++ [hs]) = cost rounds + (4 + length hs).
Proof. unfold cost. rewrite sum_list_with_app. cbn. lia. Qed.
Lemma cost_bound K rounds : Forall (fun hs => length hs <= K) rounds -> cost rounds <= (4 + K) * length rounds.
Proof. unfold cost. induction 1; cbn [sum_list_with length]; [lia|]. nia. Qed.

Lemma selected_good own hs : Forall (good own) hs -> selected (good own) hs hs.
Proof. induction 1; [apply sel_nil|apply sel_take; done]. Qed.

Section swarm_download.
  Context (dir : path) (h own : list byte) (has : list byte -> N -> Prop) (R : list hostresp -> Prop) (content : list byte) (cs : nat) (a0 : aentry) (old : list byte).
  Context (Hcs : 0 < cs) (Hcount : a_count a0 = Z.of_nat ((length content + cs - 1) / cs)) (Hmax : (a_count a0 <= 65536)%Z).
  Context (Hpar : parent (a_path a0) <> dir).
  Context (Hfit : forall i, (Z.of_nat i < a_count a0)%Z ->
    ~ ragged cs (chunk_bytes content cs i) \/ first_empty (chunk_bytes content cs i) <= N.to_nat 1024).

  (** the hosts of one round *)
  Definition okhosts (i : N) (hs : list hostresp) : Prop := R hs /\ someone_has has i hs.
  Definition sinv (n : nat) (out : list dgram) (b : lworld) : Prop :=
    exists A a is rounds, synced (l_cat b) (l_fs b) A /\ c_dir (l_cat b) = dir /\ A !! h = Some a
      /\ a_path a = a_path a0 /\ a_chunk a = Z.of_nat cs /\ a_count a = a_count a0
      /\ length is = length rounds /\ Forall2 okhosts is rounds
      /\ can_write (l_fs b) (a_path a0)
      /\ holds_chunks content old (default [] (file_at (l_fs b) (a_path a0))) cs (fun j => N.of_nat j ∈ a_held a)
      /\ l_active b = ∅
      /\ match l_pc b with
         | LCheck => n = cost rounds /\ out = requests h is rounds /\ todo a0 = is ++ todo a
         | LMissing => n = cost rounds + 1 /\ out = requests h is rounds /\ todo a0 = is ++ todo a /\ todo a <> []
         | LHosts i => n = cost rounds + 2 /\ out = requests h is rounds /\ todo a0 = is ++ todo a /\ first_missing a i
         | LChunk i hs => exists tried, okhosts i (tried ++ hs) /\ n = cost rounds + 3 + length tried
             /\ out = requests h is rounds ++ ask_all h i tried /\ (Z.of_N i < a_count a0)%Z
             /\ (first_missing a i /\ someone_has has i hs /\ todo a0 = is ++ todo a
                 \/ i ∈ a_held a /\ todo a0 = is ++ i :: todo a)
         | LDone => n = cost rounds + 1 /\ out = requests h is rounds /\ todo a0 = is ++ todo a /\ todo a = []
         end.

  Lemma sinv_step n out b resps dg : sinv n out b -> l_pc b <> LDone -> swarm own has R content cs (l_pc b) resps dg ->
    exists c more, lstep own h resps dg b = Some (c, more) /\ sinv (S n) (out ++ more) c.
  Proof.
    intros (A & a & is & rounds & Hs & Hd & Ha & Hp & Hc & Hn & Hlen & Hok & Hw & Hh & Hact & Hpc) Hnd Hnet.
    destruct b as [pc c f D]. cbn [l_pc l_cat l_fs l_active] in *. subst D.
    assert (0 <= a_count a)%Z as Hpos by (apply (synced_facts _ _ _ _ _ Hs Ha)).
    assert (a_chunk a < 4294967296)%Z as Hbig by (apply (synced_facts _ _ _ _ _ Hs Ha)).
    unfold lstep. cbn [l_pc l_cat l_fs l_active]. destruct pc as [| |i|i hs|]; cbn [loop_step]; [| | | |done].
    - (* check *)
      destruct Hpc as (-> & -> & Ht).
      destruct (file_complete_ok c f A h a Hs Ha) as (c' & Hrun & Hs' & Hd' & _). rewrite run_bind, Hrun. cbn [run].
      eexists _, []. split; [reflexivity|]. rewrite app_nil_r. exists A, a, is, rounds. cbn [l_pc l_cat l_fs l_active].
      repeat (split; [first [done|congruence]|]). destruct (decide (todo a = [])) as [E|E].
      + rewrite bool_decide_true by (apply todo_nil; done). split; [lia|]. split_and!; done.
      + rewrite bool_decide_false by (rewrite <- todo_nil; done). split; [lia|]. split_and!; done.
    - (* missing chunks *)
      destruct Hpc as (-> & -> & Ht & Hne).
      destruct (missing_step c f A h a Hs Ha ltac:(lia)) as (c' & rs & Hrun & Hs' & Hd' & Hrs). rewrite run_bind, Hrun.
      destruct rs as [|r rs]; [done|]. cbn [run]. eexists _, []. split; [reflexivity|]. rewrite app_nil_r.
      exists A, a, is, rounds. cbn [l_pc l_cat l_fs l_active].
      repeat (split; [first [done|congruence|lia]|]). done.
    - (* hosts *)
      destruct Hpc as (-> & -> & Ht & Hf). destruct Hnet as (hs & Hsel & Hk & Hseed).
      destruct (C62_lemma own resps) as (hs' & Hgh & Hsel').
      assert (hs' = hs) as -> by (eapply selected_unique; done). rewrite Hgh. cbn [run].
      eexists _, []. split; [reflexivity|]. rewrite app_nil_r.
      exists A, a, is, rounds. cbn [l_pc l_cat l_fs l_active].
      repeat (split; [first [done|congruence|lia]|]). exists [].
      split; [done|]. split; [cbn [length]; lia|]. split; [cbn; rewrite app_nil_r; done|]. split; [rewrite <- Hn; apply Hf|]. left. done.
    - destruct Hpc as (tried & Hoh & -> & -> & Hi & Hcase). destruct hs as [|r hs].
      + (* no host left *)
        cbn [run]. eexists _, []. split; [reflexivity|]. rewrite app_nil_r. rewrite app_nil_r in Hoh.
        destruct Hcase as [(_ & Hbad & _)|[Hheld Ht]]; [by apply Exists_nil in Hbad|].
        exists A, a, (is ++ [i]), (rounds ++ [tried]). cbn [l_pc l_cat l_fs l_active].
        repeat (split; [first [done|congruence|lia]|]).
        split; [rewrite !app_length; cbn [length]; lia|]. split; [apply Forall2_app; [done|by constructor]|].
        repeat (split; [first [done|congruence|lia]|]).
        split; [rewrite cost_snoc; lia|]. split; [rewrite requests_snoc by done; done|]. rewrite <- app_assoc. done.
      + destruct Hnet as (ds & -> & Hdel). rewrite decide_False by set_solver. unfold download_chunk.
        assert (okhosts i ((tried ++ [r]) ++ hs)) as Hoh' by (rewrite <- app_assoc; done).
        destruct Hdel as [Hdel|[-> Hns]].
        * (* the chunk arrives *)
          rewrite (delivered_saves content cs (N.to_nat i)); [|lia|lia| | |done].
          2:{ apply chunk_nonempty; [done|]. rewrite Hcount in Hi. lia. }
          2:{ apply Hfit. lia. }
          destruct (save_ok c f A h a i (chunk_bytes content cs (N.to_nat i)) Hs Ha) as (r' & new & f' & Hrun & Hov & Hs' & Hf' & Hsu).
          { rewrite Hp. done. }
          { lia. }
          { rewrite Hp, Hd. done. }
          rewrite run_bind, run_bind, Hrun. cbn [run].
          eexists _, [_]. split; [reflexivity|].
          exists (<[h := hold a i]> A), (hold a i), is, rounds. cbn [l_pc l_cat l_fs l_active].
          split; [done|]. split; [done|]. split; [apply lookup_insert|]. split; [done|]. split; [done|].
          split; [cbn [hold a_count]; lia|]. split; [done|]. split; [done|].
          split. { rewrite <- Hp. eapply synced_write_again; [exact Hs|exact Ha|rewrite Hp; done|rewrite Hp, Hd; done|exact Hsu]. }
          split.
          { unfold file_at. rewrite <- Hp, Hf'. cbn [default].
            replace (N.to_nat i * Z.to_nat (a_chunk a)) with (N.to_nat i * cs) in Hov by (rewrite Hc; lia).
            rewrite Hp in Hov. destruct (holds_step content old _ new cs (N.to_nat i) _ Hcs Hh Hov) as [G1 G2].
            split; [|done]. intros k Hk Hj. apply G1; [done|]. cbn [hold a_held] in Hj. apply elem_of_union in Hj as [Hj|Hj]; [|by right].
            left. apply elem_of_singleton in Hj. lia. }
          split; [set_solver|]. exists (tried ++ [r]). split; [done|]. split; [rewrite app_length; cbn [length]; lia|].
          split. { rewrite <- app_assoc. f_equal. unfold ask_all. rewrite map_app. done. }
          split; [done|]. right. split; [cbn [hold a_held]; set_solver|].
          destruct Hcase as [(Hf & _ & Ht)|[Hheld Ht]].
          -- rewrite Ht, (todo_first a i Hf). done.
          -- rewrite Ht, todo_again by (done || lia). done.
        * (* nothing arrives *)
          change (recv_datagrams []) with (Ok (RMore new_recv)). rewrite run_bind. cbn [run].
          eexists _, [_]. split; [reflexivity|].
          exists A, a, is, rounds. cbn [l_pc l_cat l_fs l_active].
          repeat (split; [first [done|congruence|lia]|]). split; [set_solver|].
          exists (tried ++ [r]). split; [done|]. split; [rewrite app_length; cbn [length]; lia|].
          split. { rewrite <- app_assoc. f_equal. unfold ask_all. rewrite map_app. done. }
          split; [done|]. destruct Hcase as [(Hf & Hseed & Ht)|?]; [left|by right]. split; [done|]. split; [|done].
          apply Exists_cons in Hseed as [E|?]; done.
  Qed.
  Lemma sinv_exec a n out b : sinv 0 [] a -> lexec own h (swarm own has R content cs) a n out b -> sinv n out b.
  Proof.
    intros Ha. induction 1 as [a|a n out b resps dg out' c H IH Hnd Hnet Hst]; [done|].
    destruct (sinv_step n out b resps dg (IH Ha) Hnd Hnet) as (c2 & out2 & E & Hc). rewrite Hst in E. simplify_eq. done.
  Qed.
  Lemma sinv_start A c f : synced c f A -> c_dir c = dir -> A !! h = Some a0 -> a_chunk a0 = Z.of_nat cs ->
    can_write f (a_path a0) -> right_so_far content cs f a0 -> old = default [] (file_at f (a_path a0)) ->
    sinv 0 [] (mkL LCheck c f ∅).
  Proof.
    intros Hs Hd Ha Hc Hw Hr Hold. exists A, a0, [], []. cbn [l_pc l_cat l_fs l_active].
    repeat (split; [first [done|constructor; fail]|]). split; [|done]. split; [|intros; congruence]. intros k Hk Hj. apply Hr; done.
  Qed.
  Lemma sinv_done n out b : sinv n out b -> l_pc b = LDone ->
    (exists rounds, Forall2 okhosts (todo a0) rounds /\ out = requests h (todo a0) rounds)
    /\ default [] (file_at (l_fs b) (a_path a0)) = content ++ drop (length content) old.
  Proof.
    intros (A & a & is & rounds & Hs & Hd & Ha & Hp & Hc & Hn & Hlen & Hok & Hw & Hh & Hact & Hpc) E. rewrite E in Hpc.
    destruct Hpc as (_ & -> & Ht & Hnil).
    rewrite Hnil, app_nil_r in Ht. split; [exists rounds; rewrite Ht; done|]. eapply holds_all; [done| |exact Hh].
    intros i Hi. cbn beta. apply todo_nil in Hnil; [|rewrite Hn; lia]. apply Hnil, elem_of_all_below. rewrite Hn. lia.
  Qed.
  Lemma sinv_bound K n out b : (forall hs, R hs -> length hs <= K) -> sinv n out b -> n <= (4 + K) * length (todo a0) + 1.
  Proof.
    intros HK (A & a & is & rounds & Hs & Hd & Ha & Hp & Hc & Hn & Hlen & Hok & Hw & Hh & Hact & Hpc).
    assert (cost rounds <= (4 + K) * length is) as Hb.
    { rewrite Hlen. apply cost_bound. eapply Forall2_Forall_r; [exact Hok|]. apply Forall_true. intros i hs [? _]. auto. }
    assert (forall i, first_missing a i -> 0 < length (todo a)) as Hlt.
    { intros i Hf. rewrite (todo_first a i Hf). cbn. lia. }
    destruct (l_pc b) as [| |i|i hs|].
    - destruct Hpc as (-> & _ & ->). rewrite app_length. nia.
    - destruct Hpc as (-> & _ & -> & Hne). rewrite app_length. nia.
    - destruct Hpc as (-> & _ & -> & Hf). specialize (Hlt i Hf). rewrite app_length. nia.
    - destruct Hpc as (tried & [Hk%HK _] & -> & _ & _ & [(Hf & _ & ->)|[_ ->]]).
      + specialize (Hlt i Hf). rewrite app_length in *. nia.
      + rewrite app_length in *. cbn [length]. nia.
    - destruct Hpc as (-> & _ & -> & _). rewrite app_length. nia.
  Qed.
  (** the network can always answer like that *)
  Lemma sinv_possible n out b : (forall i, i ∈ todo a0 -> exists hs, R hs /\ someone_has has i hs /\ Forall (good own) hs) -> sinv n out b -> exists resps dg, swarm own has R content cs (l_pc b) resps dg.
  Proof.
    intros Hsome (A & a & is & rounds & Hs & Hd & Ha & Hp & Hc & Hn & Hlen & Hok & Hw & Hh & Hact & Hpc).
    pose proof (synced_facts _ _ _ _ _ Hs Ha) as [Hch _].
    destruct (l_pc b) as [| |i|i [|r hs]|]; cbn [swarm]; try (exists [], None; done).
    - destruct Hpc as (_ & _ & Ht & Hf). destruct (Hsome i) as (hs0 & HR & Hseed & Hgood).
      { rewrite Ht, (todo_first a i Hf). set_solver. }
      exists hs0, None, hs0. split; [apply selected_good; done|done].
    - destruct Hpc as (tried & _ & _ & _ & Hi & _).
      destruct (delivered_exists content cs (N.to_nat i)) as (ds & Hds); [lia|lia| |].
      { apply chunk_nonempty; [done|]. rewrite Hcount in Hi. lia. }
      exists [], (Some ds), ds. split; [done|]. left. done.
  Qed.
  Lemma sinv_completes K a : (forall hs, R hs -> length hs <= K) -> (forall i, i ∈ todo a0 -> exists hs, R hs /\ someone_has has i hs /\ Forall (good own) hs) -> sinv 0 [] a ->
    exists n out b, lexec own h (swarm own has R content cs) a n out b /\ l_pc b = LDone.
  Proof.
    intros HK Hpos Ha.
    assert (forall m, (exists n out b, lexec own h (swarm own has R content cs) a n out b /\ l_pc b = LDone)
      \/ exists out b, lexec own h (swarm own has R content cs) a m out b) as H.
    { induction m as [|m [IH|(out & b & IH)]]; [right; exists [], a; constructor|by left|].
      pose proof (sinv_exec a m out b Ha IH) as Hb.
      assert (l_pc b = LDone \/ l_pc b <> LDone) as [Hdone|Hnd] by (destruct (l_pc b); try (by left); by right); [left; eauto|].
      destruct (sinv_possible m out b Hpos Hb) as (resps & dg & Hnet).
      destruct (sinv_step m out b resps dg Hb Hnd Hnet) as (c & out' & Hst & _).
      right. eexists _, c. eapply le_step; done. }
    destruct (H ((4 + K) * length (todo a0) + 2)) as [?|(out & b & Hb)]; [done|].
    pose proof (sinv_bound K _ _ _ HK (sinv_exec _ _ _ _ Ha Hb)). lia.
  Qed.
End swarm_download.

Section loose_download.
  Context (dir : path) (h own : list byte) (content : list byte) (cs : nat) (a0 : aentry) (old : list byte).
  Context (Hcs : 0 < cs) (Hcount : a_count a0 = Z.of_nat ((length content + cs - 1) / cs)) (Hmax : (a_count a0 <= 65536)%Z).
  Context (Hpar : parent (a_path a0) <> dir).
  Context (Hfit : forall i, (Z.of_nat i < a_count a0)%Z ->
    ~ ragged cs (chunk_bytes content cs i) \/ first_empty (chunk_bytes content cs i) <= N.to_nat 1024).
  Definition finv (b : lworld) : Prop :=
    exists A a, synced (l_cat b) (l_fs b) A /\ c_dir (l_cat b) = dir /\ A !! h = Some a
      /\ a_path a = a_path a0 /\ a_chunk a = Z.of_nat cs /\ a_count a = a_count a0
      /\ can_write (l_fs b) (a_path a0)
      /\ holds_chunks content old (default [] (file_at (l_fs b) (a_path a0))) cs (fun j => N.of_nat j ∈ a_held a)
      /\ l_active b = ∅
      /\ match l_pc b with
         | LCheck => True
         | LMissing => todo a <> []
         | LHosts i => (Z.of_N i < a_count a0)%Z
         | LChunk i hs => (Z.of_N i < a_count a0)%Z
         | LDone => todo a = []
         end.
  Lemma finv_step b resps dg : finv b -> l_pc b <> LDone -> loose content cs (l_pc b) resps dg ->
    exists c more, lstep own h resps dg b = Some (c, more) /\ finv c.
  Proof.
    intros (A & a & Hs & Hd & Ha & Hp & Hc & Hn & Hw & Hh & Hact & Hpc) Hnd Hnet.
    destruct b as [pc c f D]. cbn [l_pc l_cat l_fs l_active] in *. subst D.
    assert (0 <= a_count a)%Z as Hpos by (apply (synced_facts _ _ _ _ _ Hs Ha)).
    assert (a_chunk a < 4294967296)%Z as Hbig by (apply (synced_facts _ _ _ _ _ Hs Ha)).
    unfold lstep. cbn [l_pc l_cat l_fs l_active]. destruct pc as [| |i|i hs|]; cbn [loop_step]; [| | | |done].
    - destruct (file_complete_ok c f A h a Hs Ha) as (c' & Hrun & Hs' & Hd' & _). rewrite run_bind, Hrun. cbn [run].
      eexists _, []. split; [reflexivity|]. exists A, a. cbn [l_pc l_cat l_fs l_active].
      repeat (split; [first [done|congruence]|]). destruct (decide (todo a = [])) as [E|E].
      + rewrite bool_decide_true by (apply todo_nil; done). done.
      + rewrite bool_decide_false by (rewrite <- todo_nil; done). done.
    - destruct (missing_step c f A h a Hs Ha ltac:(lia)) as (c' & rs & Hrun & Hs' & Hd' & Hrs). rewrite run_bind, Hrun.
      destruct rs as [|r rs]; [done|]. cbn [run]. eexists _, []. split; [reflexivity|].
      exists A, a. cbn [l_pc l_cat l_fs l_active].
      repeat (split; [first [done|congruence|lia]|]). rewrite <- Hn. apply Hrs.
    - destruct (C62_lemma own resps) as (hs' & Hgh & Hsel'). rewrite Hgh. cbn [run].
      eexists _, []. split; [reflexivity|]. exists A, a. cbn [l_pc l_cat l_fs l_active].
      repeat (split; [first [done|congruence|lia]|]). done.
    - destruct hs as [|r hs].
      + cbn [run]. eexists _, []. split; [reflexivity|]. exists A, a. cbn [l_pc l_cat l_fs l_active].
        repeat (split; [first [done|congruence|lia]|]). done.
      + destruct Hnet as (ds & -> & Hdel). rewrite decide_False by set_solver. unfold download_chunk.
        destruct Hdel as [Hdel| ->].
        * rewrite (delivered_saves content cs (N.to_nat i)); [|lia|lia| | |done].
          2:{ apply chunk_nonempty; [done|]. rewrite Hcount in Hpc. lia. }
          2:{ apply Hfit. lia. }
          destruct (save_ok c f A h a i (chunk_bytes content cs (N.to_nat i)) Hs Ha) as (r' & new & f' & Hrun & Hov & Hs' & Hf' & Hsu).
          { rewrite Hp. done. }
          { lia. }
          { rewrite Hp, Hd. done. }
          rewrite run_bind, run_bind, Hrun. cbn [run].
          eexists _, [_]. split; [reflexivity|].
          exists (<[h := hold a i]> A), (hold a i). cbn [l_pc l_cat l_fs l_active].
          split; [done|]. split; [done|]. split; [apply lookup_insert|]. split; [done|]. split; [done|].
          split; [cbn [hold a_count]; lia|].
          split. { rewrite <- Hp. eapply synced_write_again; [exact Hs|exact Ha|rewrite Hp; done|rewrite Hp, Hd; done|exact Hsu]. }
          split.
          { unfold file_at. rewrite <- Hp, Hf'. cbn [default].
            replace (N.to_nat i * Z.to_nat (a_chunk a)) with (N.to_nat i * cs) in Hov by (rewrite Hc; lia).
            rewrite Hp in Hov. destruct (holds_step content old _ new cs (N.to_nat i) _ Hcs Hh Hov) as [G1 G2].
            split; [|done]. intros k Hk Hj. apply G1; [done|]. cbn [hold a_held] in Hj. apply elem_of_union in Hj as [Hj|Hj]; [|by right].
            left. apply elem_of_singleton in Hj. lia. }
          split; [set_solver|]. done.
        * change (recv_datagrams []) with (Ok (RMore new_recv)). rewrite run_bind. cbn [run].
          eexists _, [_]. split; [reflexivity|].
          exists A, a. cbn [l_pc l_cat l_fs l_active].
          repeat (split; [first [done|congruence|lia]|]). split; [set_solver|]. done.
  Qed.
  Lemma finv_exec a n out b : finv a -> lexec own h (loose content cs) a n out b -> finv b.
  Proof.
    intros Ha. induction 1 as [a|a n out b resps dg out' c H IH Hnd Hnet Hst]; [done|].
    destruct (finv_step b resps dg (IH Ha) Hnd Hnet) as (c2 & out2 & E & Hc). rewrite Hst in E. simplify_eq. done.
  Qed.
  Lemma finv_start A c f : synced c f A -> c_dir c = dir -> A !! h = Some a0 -> a_chunk a0 = Z.of_nat cs ->
    can_write f (a_path a0) -> right_so_far content cs f a0 -> old = default [] (file_at f (a_path a0)) ->
    finv (mkL LCheck c f ∅).
  Proof.
    intros Hs Hd Ha Hc Hw Hr Hold. exists A, a0. cbn [l_pc l_cat l_fs l_active].
    repeat (split; [done|]). split; [|done]. split; [|intros; congruence]. intros k Hk Hj. apply Hr; done.
  Qed.
  Lemma finv_done b : finv b -> l_pc b = LDone ->
    default [] (file_at (l_fs b) (a_path a0)) = content ++ drop (length content) old.
  Proof.
    intros (A & a & Hs & Hd & Ha & Hp & Hc & Hn & Hw & Hh & Hact & Hpc) E. rewrite E in Hpc.
    eapply holds_all; [done| |exact Hh].
    intros i Hi. cbn beta. apply todo_nil in Hpc; [|rewrite Hn; lia]. apply Hpc, elem_of_all_below. rewrite Hn. lia.
  Qed.
End loose_download.

(** *** C84: hosts that stay silent or have only part of the file *)
Lemma C84_safe_lemma cwd dir dl A c f h a cs content own n out b :
  reached cwd dir dl A c f -> A !! h = Some a ->
  0 < cs -> a_chunk a = Z.of_nat cs -> a_count a = Z.of_nat ((length content + cs - 1) / cs) -> (a_count a <= 65536)%Z ->
  can_write f (a_path a) -> parent (a_path a) <> dir -> right_so_far content cs f a ->
  (forall i, ~ ragged cs (chunk_bytes content cs i) \/ first_empty (chunk_bytes content cs i) <= 1024) ->
  lexec own h (loose content cs) (mkL LCheck c f ∅) n out b ->
  (forall resps dg, l_pc b <> LDone -> loose content cs (l_pc b) resps dg -> is_Some (lstep own h resps dg b))
  /\ (l_pc b = LDone ->
      default [] (file_at (l_fs b) (a_path a)) = content ++ drop (length content) (default [] (file_at f (a_path a)))).
Proof.
  intros H Ha Hcs Hc Hn Hmax Hw Hpar Hr Hfit Hex.
  pose proof (reached_synced _ _ _ _ _ _ H) as (_ & Hs & Hd & _).
  pose proof (finv_start dir h content cs a (default [] (file_at f (a_path a))) A c f Hs Hd Ha Hc Hw Hr eq_refl) as H0.
  pose proof (finv_exec dir h own content cs a _ Hcs Hn Hmax Hpar (fit_bounded _ _ _ Hfit) _ n out b H0 Hex) as Hb. split.
  - intros resps dg Hnd Hnet.
    destruct (finv_step dir h own content cs a _ Hcs Hn Hmax Hpar (fit_bounded _ _ _ Hfit) b resps dg Hb Hnd Hnet) as (c2 & out2 & E & _).
    rewrite E. done.
  - intros E. eapply finv_done; [exact Hcs|exact Hn|exact (fit_bounded _ _ _ Hfit)|exact Hb|exact E].
Qed.
Lemma C84_lemma cwd dir dl A c f h a cs content own (has : list byte -> N -> Prop) (R : list hostresp -> Prop) K n out b :
  reached cwd dir dl A c f -> A !! h = Some a ->
  0 < cs -> a_chunk a = Z.of_nat cs -> a_count a = Z.of_nat ((length content + cs - 1) / cs) -> (a_count a <= 65536)%Z ->
  can_write f (a_path a) -> parent (a_path a) <> dir -> right_so_far content cs f a ->
  (forall i, ~ ragged cs (chunk_bytes content cs i) \/ first_empty (chunk_bytes content cs i) <= 1024) ->
  (forall hs, R hs -> length hs <= K) ->
  lexec own h (swarm own has R content cs) (mkL LCheck c f ∅) n out b ->
  n <= (4 + K) * length (todo a) + 1
  /\ (forall resps dg, l_pc b <> LDone -> swarm own has R content cs (l_pc b) resps dg -> is_Some (lstep own h resps dg b))
  /\ (l_pc b = LDone ->
      (exists rounds, Forall2 (fun i hs => R hs /\ someone_has has i hs) (todo a) rounds /\ out = requests h (todo a) rounds)
      /\ default [] (file_at (l_fs b) (a_path a)) = content ++ drop (length content) (default [] (file_at f (a_path a)))).
Proof.
  intros H Ha Hcs Hc Hn Hmax Hw Hpar Hr Hfit HK Hex.
  pose proof (reached_synced _ _ _ _ _ _ H) as (_ & Hs & Hd & _).
  pose proof (sinv_start dir h has R content cs a (default [] (file_at f (a_path a))) A c f Hs Hd Ha Hc Hw Hr eq_refl) as H0.
  pose proof (sinv_exec dir h own has R content cs a _ Hcs Hn Hmax Hpar (fit_bounded _ _ _ Hfit) _ n out b H0 Hex) as Hb.
  split; [eapply (sinv_bound dir h has R content cs a); [..|exact HK|exact Hb]; first [exact Hmax|exact (fit_bounded _ _ _ Hfit)|done]|]. split.
  - intros resps dg Hnd Hnet.
    destruct (sinv_step dir h own has R content cs a _ Hcs Hn Hmax Hpar (fit_bounded _ _ _ Hfit) n out b resps dg Hb Hnd Hnet) as (c2 & out2 & E & _).
    rewrite E. done.
  - intros E. eapply (sinv_done dir h has R content cs a); [..|exact Hb|exact E]; first [exact Hmax|exact (fit_bounded _ _ _ Hfit)|done].
Qed.
Lemma C84_completes_lemma cwd dir dl A c f h a cs content own (has : list byte -> N -> Prop) (R : list hostresp -> Prop) K :
  reached cwd dir dl A c f -> A !! h = Some a ->
  0 < cs -> a_chunk a = Z.of_nat cs -> a_count a = Z.of_nat ((length content + cs - 1) / cs) -> (a_count a <= 65536)%Z ->
  can_write f (a_path a) -> parent (a_path a) <> dir -> right_so_far content cs f a ->
  (forall i, ~ ragged cs (chunk_bytes content cs i) \/ first_empty (chunk_bytes content cs i) <= 1024) ->
  (forall hs, R hs -> length hs <= K) -> (forall i, i ∈ todo a -> exists hs, R hs /\ someone_has has i hs /\ Forall (good own) hs) ->
  exists n out b, lexec own h (swarm own has R content cs) (mkL LCheck c f ∅) n out b /\ l_pc b = LDone.
Proof.
  intros H Ha Hcs Hc Hn Hmax Hw Hpar Hr Hfit HK Hsome.
  pose proof (reached_synced _ _ _ _ _ _ H) as (_ & Hs & Hd & _).
  pose proof (sinv_start dir h has R content cs a (default [] (file_at f (a_path a))) A c f Hs Hd Ha Hc Hw Hr eq_refl) as H0.
  exact (sinv_completes dir h own has R content cs a _ Hcs Hn Hmax Hpar (fit_bounded _ _ _ Hfit) K _ HK Hsome H0).
Qed.

(** *** C85: every host is asked for every chunk *)
Lemma requests_same h is hs : requests h is (replicate (length is) hs) = concat (map (fun i => ask_all h i hs) is).
Proof. unfold requests. induction is as [|i is IH]; [done|]. cbn [length replicate zip_with map concat]. rewrite IH. done. Qed.
Lemma C85_lemma cwd dir dl A c f h a cs content own (has : list byte -> N -> Prop) hs n out b :
  reached cwd dir dl A c f -> A !! h = Some a ->
  0 < cs -> a_chunk a = Z.of_nat cs -> a_count a = Z.of_nat ((length content + cs - 1) / cs) -> (a_count a <= 65536)%Z ->
  can_write f (a_path a) -> parent (a_path a) <> dir -> right_so_far content cs f a ->
  (forall i, ~ ragged cs (chunk_bytes content cs i) \/ first_empty (chunk_bytes content cs i) <= 1024) ->
  lexec own h (swarm own has (eq hs) content cs) (mkL LCheck c f ∅) n out b -> l_pc b = LDone ->
  out = concat (map (fun i => ask_all h i hs) (todo a)).
Proof.
  intros H Ha Hcs Hc Hn Hmax Hw Hpar Hr Hfit Hex Hdone.
  destruct (C84_lemma cwd dir dl A c f h a cs content own has (eq hs) (length hs) n out b H Ha Hcs Hc Hn Hmax Hw Hpar Hr Hfit
    ltac:(intros ? <-; done) Hex) as (_ & _ & HD). destruct (HD Hdone) as [(rounds & Hall & ->) _].
  rewrite <- requests_same. f_equal. clear -Hall. induction Hall as [|i x is l [<- _] _ IH]; [done|].
  cbn [length replicate]. rewrite <- IH. done.
Qed.

(** *** C86: a chunk nobody has keeps the others from being asked for *)
Definition ginv (dir : path) (h : hash) (A : astate) (f : fs) (i : N) (out : list dgram) (b : lworld) : Prop :=
  synced (l_cat b) f A /\ c_dir (l_cat b) = dir /\ l_fs b = f /\ l_active b = ∅
  /\ (forall d, d ∈ out -> exists host port, d = request host port h i)
  /\ match l_pc b with LCheck | LMissing => True | LHosts j => j = i | LChunk j _ => j = i | LDone => False end.
Lemma ginv_step dir h own A f a i out b resps dg : A !! h = Some a -> (a_count a <= 65536)%Z -> first_missing a i ->
  ginv dir h A f i out b -> nobody_has i (l_pc b) resps dg ->
  exists c more, lstep own h resps dg b = Some (c, more) /\ ginv dir h A f i (out ++ more) c.
Proof.
  intros Ha Hmax Hf (Hs & Hd & Hfs & Hact & Hout & Hpc) Hnet.
  destruct b as [pc c f2 D]. cbn [l_pc l_cat l_fs l_active] in *. subst D f2.
  assert (0 <= a_count a)%Z as Hpos by (apply (synced_facts _ _ _ _ _ Hs Ha)).
  unfold lstep. cbn [l_pc l_cat l_fs l_active]. destruct pc as [| |j|j hs|]; cbn [loop_step]; [| | | |done].
  - destruct (file_complete_ok c f A h a Hs Ha) as (c' & Hrun & Hs' & Hd' & _). rewrite run_bind, Hrun. cbn [run].
    eexists _, []. split; [reflexivity|]. rewrite app_nil_r.
    rewrite bool_decide_false by (rewrite <- todo_nil by done; rewrite (todo_first a i Hf); done).
    split; [done|]. cbn [l_pc l_cat l_fs l_active]. split_and!; try done. congruence.
  - destruct (missing_step c f A h a Hs Ha Hmax) as (c' & rs & Hrun & Hs' & Hd' & Hrs). rewrite run_bind, Hrun.
    destruct rs as [|r rs]; [rewrite (todo_first a i Hf) in Hrs; done|]. cbn [run].
    eexists _, []. split; [reflexivity|]. rewrite app_nil_r.
    split; [done|]. cbn [l_pc l_cat l_fs l_active]. split_and!; try done; [congruence|].
    pose proof (todo_first a i Hf). pose proof (todo_first a _ Hrs). congruence.
  - destruct (C62_lemma own resps) as (hs' & Hgh & Hsel'). rewrite Hgh. cbn [run].
    eexists _, []. split; [reflexivity|]. rewrite app_nil_r. split; [done|]. done.
  - subst j. destruct hs as [|r hs].
    + cbn [run]. eexists _, []. split; [reflexivity|]. rewrite app_nil_r. split; [done|]. done.
    + cbn [nobody_has] in Hnet. rewrite (Hnet eq_refl). rewrite decide_False by set_solver. unfold download_chunk.
      change (recv_datagrams []) with (Ok (RMore new_recv)). rewrite run_bind. cbn [run].
      eexists _, [_]. split; [reflexivity|]. split; [done|]. cbn [l_pc l_cat l_fs l_active]. split; [done|]. split; [done|].
      split; [set_solver|]. split; [|done]. intros d Hin. apply elem_of_app in Hin as [Hin|Hin]; [auto|].
      apply elem_of_list_singleton in Hin as ->. eexists _, _. reflexivity.
Qed.
Lemma C86_lemma cwd dir dl A c f h a own i n out b :
  reached cwd dir dl A c f -> A !! h = Some a -> (a_count a <= 65536)%Z ->
  (Z.of_N i < a_count a)%Z -> i ∉ a_held a -> (forall j, (j < i)%N -> j ∈ a_held a) ->
  lexec own h (nobody_has i) (mkL LCheck c f ∅) n out b ->
  l_pc b <> LDone /\ l_fs b = f /\ (forall d, d ∈ out -> exists host port, d = request host port h i)
  /\ (forall resps dg, nobody_has i (l_pc b) resps dg -> is_Some (lstep own h resps dg b)).
Proof.
  intros H Ha Hmax Hi1 Hi2 Hi3 Hex. assert (first_missing a i) as Hf by done.
  pose proof (reached_synced _ _ _ _ _ _ H) as (_ & Hs & Hd & _).
  assert (ginv dir h A f i [] (mkL LCheck c f ∅)) as H0.
  { split_and!; try done. intros d Hin. set_solver. }
  assert (ginv dir h A f i out b) as Hb.
  { clear Hs Hd H. remember (mkL LCheck c f ∅) as w eqn:Ew. clear Ew. induction Hex as [w|w n out b resps dg out' c2 Hex IH Hnd Hnet Hst]; [done|].
    destruct (ginv_step dir h own A f a i out b resps dg Ha Hmax Hf (IH H0) Hnet) as (c3 & more & E & Hc). rewrite Hst in E. simplify_eq. done. }
  split; [destruct Hb as (_ & _ & _ & _ & _ & Hpc); destruct (l_pc b); done|].
  split; [apply Hb|]. split; [apply Hb|]. intros resps dg Hnet.
  destruct (ginv_step dir h own A f a i out b resps dg Ha Hmax Hf Hb Hnet) as (c3 & more & E & _). rewrite E. done.
Qed.
Lemma silent_hosts own h c f i hs :
  lexec own h (nobody_has i) (mkL (LChunk i hs) c f ∅) (length hs) (ask_all h i hs) (mkL (LChunk i []) c f ∅).
Proof.
  induction hs as [|r hs IH]; [apply le_nil|].
  change (length (r :: hs)) with (1 + length hs). change (ask_all h i (r :: hs)) with ([request (h_addr r) (h_port r) h i] ++ ask_all h i hs).
  eapply lexec_app; [|exact IH]. apply (lexec_one _ _ _ _ [] (Some [])); [done|done|].
  unfold lstep. cbn [l_pc l_cat l_fs l_active loop_step]. rewrite decide_False by set_solver. unfold download_chunk.
  change (recv_datagrams []) with (Ok (RMore new_recv)). rewrite run_bind. cbn [run].
  unfold request, open_request. do 3 f_equal. set_solver.
Qed.
Lemma silent_round A c f h a own i hs : synced c f A -> A !! h = Some a -> (a_count a <= 65536)%Z -> first_missing a i ->
  Forall (good own) hs ->
  exists c', synced c' f A /\
    lexec own h (nobody_has i) (mkL LCheck c f ∅) (4 + length hs) (ask_all h i hs) (mkL LCheck c' f ∅).
Proof.
  intros Hs Ha Hmax Hf Hgood. pose proof (synced_facts _ _ _ _ _ Hs Ha) as [Hch Hpos].
  destruct (file_complete_ok c f A h a Hs Ha) as (c1 & Hrun & Hs1 & Hd1 & _).
  rewrite bool_decide_false in Hrun by (rewrite <- todo_nil by done; rewrite (todo_first a i Hf); done).
  destruct (missing_step c1 f A h a Hs1 Ha Hmax) as (c2 & rs & Hrun2 & Hs2 & Hd2 & Hrs).
  destruct rs as [|r rs]. { rewrite (todo_first a i Hf) in Hrs. done. }
  assert (r_start r = i) as Hri.
  { pose proof (todo_first a i Hf). pose proof (todo_first a _ Hrs). congruence. }
  destruct (C62_lemma own hs) as (l & Hgh & Hsel'). assert (l = hs) as -> by (eapply selected_unique; [done|apply selected_good; done]).
  exists c2. split; [done|].
  replace (4 + length hs) with (1 + (1 + (1 + (length hs + 1)))) by lia.
  rewrite <- (app_nil_r (ask_all h i hs)). change (ask_all h i hs ++ []) with ([] ++ [] ++ [] ++ ask_all h i hs ++ []).
  eapply (lexec_app _ _ _ _ 1 [] (mkL LMissing c1 f ∅)).
  { apply (lexec_one _ _ _ _ [] None); [done|done|]. unfold lstep. cbn [l_pc l_cat l_fs l_active loop_step]. rewrite run_bind, Hrun. done. }
  eapply (lexec_app _ _ _ _ 1 [] (mkL (LHosts i) c2 f ∅)).
  { apply (lexec_one _ _ _ _ [] None); [done|done|]. unfold lstep. cbn [l_pc l_cat l_fs l_active loop_step]. rewrite run_bind, Hrun2. cbn [run]. rewrite Hri. done. }
  eapply (lexec_app _ _ _ _ 1 [] (mkL (LChunk i hs) c2 f ∅)).
  { apply (lexec_one _ _ _ _ hs None); [done|done|]. unfold lstep. cbn [l_pc l_cat l_fs l_active loop_step]. rewrite Hgh. done. }
  eapply lexec_app; [apply silent_hosts|]. apply (lexec_one _ _ _ _ [] None); [done|done|]. done.
Qed.
Lemma C86_forever_lemma cwd dir dl A c f h a own i hs k :
  reached cwd dir dl A c f -> A !! h = Some a -> (a_count a <= 65536)%Z ->
  (Z.of_N i < a_count a)%Z -> i ∉ a_held a -> (forall j, (j < i)%N -> j ∈ a_held a) -> Forall (good own) hs ->
  exists b, lexec own h (nobody_has i) (mkL LCheck c f ∅) (k * (4 + length hs)) (concat (replicate k (ask_all h i hs))) b
    /\ l_pc b = LCheck /\ l_fs b = f.
Proof.
  intros H Ha Hmax Hi1 Hi2 Hi3 Hgood. assert (first_missing a i) as Hf by done.
  pose proof (reached_synced _ _ _ _ _ _ H) as (_ & Hs & _). clear H.
  assert (exists c', lexec own h (nobody_has i) (mkL LCheck c f ∅) (k * (4 + length hs)) (concat (replicate k (ask_all h i hs))) (mkL LCheck c' f ∅)) as (c' & Hc).
  { revert c Hs. induction k as [|k IH]; intros c Hs; [exists c; apply le_nil|].
    destruct (silent_round A c f h a own i hs Hs Ha Hmax Hf Hgood) as (c1 & Hs1 & Hx). destruct (IH c1 Hs1) as (c2 & Hy).
    exists c2. cbn [replicate concat]. change (S k * (4 + length hs)) with ((4 + length hs) + k * (4 + length hs)).
    eapply lexec_app; done. }
  eexists. split; [exact Hc|done].
Qed.
