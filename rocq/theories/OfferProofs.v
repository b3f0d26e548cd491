(** Proofs about downloads of which some chunks are not to be had. *)
From Verif Require Export OfferSpec SwarmProofs.
From Coq Require Import ZifyBool ZifyNat ZifyN.
Ltac Zify.zify_post_hook ::= Z.div_mod_to_equations.

Section offer_download.
  Context (dir : path) (h own : list byte) (has : list byte -> N -> Prop) (i0 : N) (K : nat) (content : list byte) (cs : nat) (a0 : aentry) (old : list byte).
  Context (Hcs : 0 < cs) (Hcount : a_count a0 = Z.of_nat ((length content + cs - 1) / cs)) (Hmax : (a_count a0 <= 65536)%Z).
  Context (Hpar : parent (a_path a0) <> dir).
  Context (Hfit : forall i, (Z.of_nat i < a_count a0)%Z ->
    ~ ragged cs (chunk_bytes content cs i) \/ first_empty (chunk_bytes content cs i) <= N.to_nat 1024).
  Context (Hi0 : i0 ∈ todo a0) (Hnone : forall ip, ~ has ip i0).
  Notation net := (offers own has i0 K content cs).

  Definition fetched (a : aentry) : Prop := forall j, (j < i0)%N -> j ∈ a_held a.
  Definition vinv (n : nat) (out : list dgram) (b : lworld) : Prop :=
    exists A a is, synced (l_cat b) (l_fs b) A /\ c_dir (l_cat b) = dir /\ A !! h = Some a
      /\ a_path a = a_path a0 /\ a_chunk a = Z.of_nat cs /\ a_count a = a_count a0
      /\ can_write (l_fs b) (a_path a0)
      /\ holds_chunks content old (default [] (file_at (l_fs b) (a_path a0))) cs (fun j => N.of_nat j ∈ a_held a)
      /\ l_active b = ∅
      /\ todo a0 = is ++ todo a /\ Forall (fun i => (i < i0)%N) is /\ i0 ∉ a_held a
      /\ (forall d, d ∈ out -> exists host port i, d = request host port h i /\ i ∈ todo a0 /\ (i <= i0)%N)
      /\ match l_pc b with
         | LCheck => fetched a \/ n <= (4 + K) * length is
         | LMissing => fetched a \/ n <= (4 + K) * length is + 1
         | LHosts i => first_missing a i /\ (fetched a \/ n <= (4 + K) * length is + 2)
         | LChunk i hs => (i = i0 /\ fetched a)
             \/ (i < i0)%N /\ i ∈ todo a0 /\
                exists m, m + length hs <= K /\
                 (first_missing a i /\ someone_has has i hs /\ n <= (4 + K) * length is + 3 + m
                  \/ i ∈ a_held a /\ 1 <= length is /\ n <= (4 + K) * (length is - 1) + 3 + m)
         | LDone => False
         end.
  Lemma missing_todo a i : a_count a = a_count a0 -> first_missing a i -> i0 ∉ a_held a -> (i <= i0)%N.
  Proof.
    intros Hn (H1 & H2 & H3) H. destruct (decide (i <= i0)%N) as [?|Hlt]; [done|]. exfalso. apply H, H3. lia.
  Qed.
  Lemma i0_todo a is : todo a0 = is ++ todo a -> Forall (fun i => (i < i0)%N) is -> i0 ∈ todo a.
  Proof.
    intros E Hf. rewrite E in Hi0. apply elem_of_app in Hi0 as [H|?]; [|done]. rewrite Forall_forall in Hf. apply Hf in H. lia.
  Qed.
  Lemma vinv_step n out b resps dg : vinv n out b -> l_pc b <> LDone -> net (l_pc b) resps dg ->
    exists c more, lstep own h resps dg b = Some (c, more) /\ vinv (S n) (out ++ more) c.
  Proof.
    intros (A & a & is & Hs & Hd & Ha & Hp & Hc & Hn & Hw & Hh & Hact & Ht & His & Hni & Hout & Hpc) Hnd Hnet.
    destruct b as [pc c f D]. cbn [l_pc l_cat l_fs l_active] in *. subst D.
    assert (0 <= a_count a)%Z as Hpos by (apply (synced_facts _ _ _ _ _ Hs Ha)).
    assert (a_chunk a < 4294967296)%Z as Hbig by (apply (synced_facts _ _ _ _ _ Hs Ha)).
    pose proof (i0_todo a is Ht His) as Hin.
    assert (Z.of_N i0 < a_count a0)%Z as Hi0n.
    { unfold todo in Hin. apply elem_of_list_filter in Hin as [_ Hin]. apply elem_of_list_fmap in Hin as (y & -> & Hy%elem_of_seq). lia. }
    unfold lstep. cbn [l_pc l_cat l_fs l_active]. destruct pc as [| |i|i hs|]; cbn [loop_step]; [| | | |done].
    - destruct (file_complete_ok c f A h a Hs Ha) as (c' & Hrun & Hs' & Hd' & _). rewrite run_bind, Hrun. cbn [run].
      eexists _, []. split; [reflexivity|]. rewrite app_nil_r. exists A, a, is. cbn [l_pc l_cat l_fs l_active].
      repeat (split; [first [done|congruence]|]).
      rewrite bool_decide_false; [destruct Hpc; [by left|right; lia]|]. intros Hall. apply Hni, Hall. apply elem_of_all_below. lia.
    - destruct (missing_step c f A h a Hs Ha ltac:(lia)) as (c' & rs & Hrun & Hs' & Hd' & Hrs). rewrite run_bind, Hrun.
      destruct rs as [|r rs]; [rewrite Hrs in Hin; by apply elem_of_nil in Hin|]. cbn [run]. eexists _, []. split; [reflexivity|]. rewrite app_nil_r.
      exists A, a, is. cbn [l_pc l_cat l_fs l_active].
      repeat (split; [first [done|congruence]|]). destruct Hpc; [by left|right; lia].
    - destruct Hpc as (Hf & Hpc). destruct Hnet as (hs & Hsel & Hk & Hseed).
      destruct (C62_lemma own resps) as (hs' & Hgh & Hsel').
      assert (hs' = hs) as -> by (eapply selected_unique; done). rewrite Hgh. cbn [run].
      eexists _, []. split; [reflexivity|]. rewrite app_nil_r.
      exists A, a, is. cbn [l_pc l_cat l_fs l_active].
      repeat (split; [first [done|congruence]|]).
      pose proof (missing_todo a i Hn Hf Hni) as Hle. destruct (decide (i = i0)) as [->|Hne].
      + left. split; [done|]. exact (proj2 (proj2 Hf)).
      + right. split; [lia|]. split; [rewrite Ht, (todo_first a i Hf); set_solver|]. exists 0. split; [lia|]. left. split; [done|]. split; [apply Hseed; lia|].
        destruct Hpc as [Hfe|?]; [|lia]. exfalso. destruct Hf as (_ & Hf & _). apply Hf, Hfe. lia.
    - destruct hs as [|r hs].
      + cbn [run]. eexists _, []. split; [reflexivity|]. rewrite app_nil_r.
        exists A, a, is. cbn [l_pc l_cat l_fs l_active].
        repeat (split; [first [done|congruence]|]).
        destruct Hpc as [[_ ?]|(Hlt & Hti & m & Hm & [(_ & Hbad & _)|(Hheld & H1 & Hn')])]; [by left|by apply Exists_nil in Hbad|].
        right. cbn [length] in Hm. nia.
      + destruct Hnet as (ds & -> & Hdel). rewrite decide_False by set_solver. unfold download_chunk.
        assert (forall more, more = [mkDgram (h_addr r) (Z.of_N (h_port r)) (open_request h i)] -> i ∈ todo a0 -> (i <= i0)%N ->
          forall d, d ∈ out ++ more -> exists host port i, d = request host port h i /\ i ∈ todo a0 /\ (i <= i0)%N) as Hout'.
        { intros more -> Hi Hle d Hd2. apply elem_of_app in Hd2 as [?|Hd2]; [auto|]. apply elem_of_list_singleton in Hd2 as ->.
          exists (h_addr r), (h_port r), i. done. }
        destruct Hdel as [[Hhas Hdel]|[Hhas ->]].
        * (* the chunk arrives *)
          assert (i <> i0) as Hne by (intros ->; by apply (Hnone (h_addr r))).
          destruct Hpc as [[? _]|(Hlt & Hti & m & Hm & Hcase)]; [done|].
          assert (Z.of_N i < a_count a0)%Z as Hi by lia.
          rewrite (delivered_saves content cs (N.to_nat i)); [|lia|lia| | |done].
          2:{ apply chunk_nonempty; [done|]. rewrite Hcount in Hi. lia. }
          2:{ apply Hfit. lia. }
          destruct (save_ok c f A h a i (chunk_bytes content cs (N.to_nat i)) Hs Ha) as (r' & new & f' & Hrun & Hov & Hs' & Hf' & Hsu).
          { rewrite Hp. done. }
          { lia. }
          { rewrite Hp, Hd. done. }
          rewrite run_bind, run_bind, Hrun. cbn [run].
          eexists _, [_]. split; [reflexivity|].
          set (is' := if decide (i ∈ a_held a) then is else is ++ [i]).
          exists (<[h := hold a i]> A), (hold a i), is'. cbn [l_pc l_cat l_fs l_active].
          split; [done|]. split; [done|]. split; [apply lookup_insert|]. split; [done|]. split; [done|].
          split; [cbn [hold a_count]; lia|].
          split. { rewrite <- Hp. eapply synced_write_again; [exact Hs|exact Ha|rewrite Hp; done|rewrite Hp, Hd; done|exact Hsu]. }
          split.
          { unfold file_at. rewrite <- Hp, Hf'. cbn [default].
            replace (N.to_nat i * Z.to_nat (a_chunk a)) with (N.to_nat i * cs) in Hov by (rewrite Hc; lia).
            rewrite Hp in Hov. destruct (holds_step content old _ new cs (N.to_nat i) _ Hcs Hh Hov) as [G1 G2].
            split; [|done]. intros k Hk Hj. apply G1; [done|]. cbn [hold a_held] in Hj. apply elem_of_union in Hj as [Hj|Hj]; [|by right].
            left. apply elem_of_singleton in Hj. lia. }
          split; [set_solver|].
          assert (i ∈ a_held (hold a i)) as Hnow by (cbn [hold a_held]; set_solver).
          assert (i0 ∉ a_held (hold a i)) as Hni' by (cbn [hold a_held]; set_solver).
          cbn [length] in Hm. subst is'. destruct Hcase as [(Hf & Hseed & Hn')|(Hheld & H1 & Hn')].
          -- rewrite decide_False by apply Hf. split; [rewrite <- app_assoc; cbn [app]; rewrite <- (todo_first a i Hf); done|].
             split; [apply Forall_app; split; [done|]; by apply Forall_singleton|]. split; [done|].
             split; [apply Hout'; [done|done|lia]|]. right. split; [done|]. split; [done|]. exists (S m). split; [lia|]. right. split; [done|].
             rewrite app_length. cbn [length]. split; [lia|]. replace (length is + 1 - 1) with (length is) by lia. lia.
          -- rewrite decide_True by done. rewrite (todo_again a i Hheld) by lia. split; [done|]. split; [done|]. split; [done|].
             split; [apply Hout'; [done|done|lia]|]. right. split; [done|]. split; [done|]. exists (S m). split; [lia|]. right. split; [done|]. split; [done|]. lia.
        * change (recv_datagrams []) with (Ok (RMore new_recv)). rewrite run_bind. cbn [run].
          eexists _, [_]. split; [reflexivity|].
          exists A, a, is. cbn [l_pc l_cat l_fs l_active].
          repeat (split; [first [done|congruence]|]). split; [set_solver|]. split; [done|]. split; [done|]. split; [done|].
          split. { destruct Hpc as [[-> _]|(Hlt & Hti & _)]; apply Hout'; try done; lia. }
          destruct Hpc as [?|(Hlt & Hti & m & Hm & Hcase)]; [by left|]. right. split; [done|]. split; [done|].
          cbn [length] in Hm. exists (S m). split; [lia|]. destruct Hcase as [(Hf & Hseed & Hn')|(Hheld & H1 & Hn')].
          -- left. split; [done|]. split; [|lia]. apply Exists_cons in Hseed as [E|?]; done.
          -- right. split; [done|]. split; [done|]. lia.
  Qed.
  Lemma vinv_exec a n out b : vinv 0 [] a -> lexec own h net a n out b -> vinv n out b.
  Proof.
    intros Ha. induction 1 as [a|a n out b resps dg out' c H IH Hnd Hnet Hst]; [done|].
    destruct (vinv_step n out b resps dg (IH Ha) Hnd Hnet) as (c2 & out2 & E & Hc). rewrite Hst in E. simplify_eq. done.
  Qed.
  Lemma vinv_start A c f : synced c f A -> c_dir c = dir -> A !! h = Some a0 -> a_chunk a0 = Z.of_nat cs ->
    can_write f (a_path a0) -> right_so_far content cs f a0 -> old = default [] (file_at f (a_path a0)) ->
    vinv 0 [] (mkL LCheck c f ∅).
  Proof.
    intros Hs Hd Ha Hc Hw Hr Hold. exists A, a0, []. cbn [l_pc l_cat l_fs l_active].
    repeat (split; [done|]). split. { split; [|intros; congruence]. intros k Hk Hj. apply Hr; done. }
    split; [done|]. split; [done|]. split; [constructor|]. split.
    { unfold todo in Hi0. apply elem_of_list_filter in Hi0 as [? _]. done. }
    split; [intros d Hd2; by apply elem_of_nil in Hd2|]. right. lia.
  Qed.
  Lemma vinv_fetched n out b : vinv n out b -> (4 + K) * length (todo_before i0 a0) <= n ->
    forall k, k < length content -> k < N.to_nat i0 * cs -> default [] (file_at (l_fs b) (a_path a0)) !! k = content !! k.
  Proof.
    intros (A & a & is & Hs & Hd & Ha & Hp & Hc & Hn & Hw & Hh & Hact & Ht & His & Hni & Hout & Hpc) Hbig k Hk Hki.
    apply Hh; [done|]. set (j := N.of_nat (k / cs)).
    assert (Z.of_nat (k / cs) < a_count a0)%Z as Hj.
    { rewrite Hcount. enough (k / cs < (length content + cs - 1) / cs) by lia. apply Nat.div_lt_upper_bound; [lia|].
      pose proof (Nat.div_mod (length content + cs - 1) cs ltac:(lia)). pose proof (Nat.mod_upper_bound (length content + cs - 1) cs ltac:(lia)). nia. }
    assert (j < i0)%N as Hji.
    { enough (k / cs < N.to_nat i0) by lia. apply Nat.div_lt_upper_bound; [lia|]. nia. }
    destruct (decide (j ∈ a_held a)) as [?|Hnj]; [done|]. exfalso.
    assert (j ∈ todo a) as Hjt.
    { unfold todo. apply elem_of_list_filter. split; [done|]. apply elem_of_list_fmap. exists (k / cs). split; [done|]. apply elem_of_seq. rewrite Hn. lia. }
    assert (length is + 1 <= length (todo_before i0 a0)) as Hlen.
    { unfold todo_before. rewrite Ht, filter_app, app_length.
      assert (filter (fun i => (i < i0)%N) is = is) as ->.
      { clear -His. induction His as [|x l Hx _ IH]; [done|]. rewrite filter_cons_True by done. by rewrite IH. }
      assert (j ∈ filter (fun i => (i < i0)%N) (todo a)) as Hf by (apply elem_of_list_filter; done).
      destruct (filter _ (todo a)); [by apply elem_of_nil in Hf|]. cbn [length]. lia. }
    assert (~ fetched a) as Hnf by (intros Hf; apply Hnj, Hf; done).
    destruct (l_pc b) as [| |i|i hs|].
    - destruct Hpc; [done|]. nia.
    - destruct Hpc; [done|]. nia.
    - destruct Hpc as [_ [?|?]]; [done|]. nia.
    - destruct Hpc as [[_ ?]|(_ & _ & m & Hm & [(_ & _ & ?)|(_ & ? & ?)])]; [done|nia|nia].
    - done.
  Qed.
  Lemma vinv_possible n out b hs0 : (forall ip i, has ip i \/ ~ has ip i) -> Forall (good own) hs0 -> length hs0 <= K ->
    (forall i, (i < i0)%N -> someone_has has i hs0) -> vinv n out b -> exists resps dg, net (l_pc b) resps dg.
  Proof.
    intros Hdec Hgood Hk Hsome (A & a & is & Hs & Hd & Ha & Hp & Hc & Hn & Hw & Hh & Hact & Ht & His & Hni & Hout & Hpc).
    pose proof (synced_facts _ _ _ _ _ Hs Ha) as [Hch _]. pose proof (i0_todo a is Ht His) as Hin.
    assert (Z.of_N i0 < a_count a0)%Z as Hi0n.
    { unfold todo in Hin. apply elem_of_list_filter in Hin as [_ Hin]. apply elem_of_list_fmap in Hin as (y & -> & Hy%elem_of_seq). lia. }
    destruct (l_pc b) as [| |i|i [|r hs]|]; cbn [offers]; try (exists [], None; done).
    - exists hs0, None, hs0. split; [apply selected_good; done|]. split; [done|]. apply Hsome.
    - destruct (Hdec (h_addr r) i) as [Hhas|Hhas]; [|exists [], (Some []), []; split; [done|]; by right].
      assert (Z.of_N i < a_count a0)%Z as Hi by (destruct Hpc as [[-> _]|[? _]]; lia).
      destruct (delivered_exists content cs (N.to_nat i)) as (ds & Hds); [lia|lia| |].
      { apply chunk_nonempty; [done|]. rewrite Hcount in Hi. lia. }
      exists [], (Some ds), ds. split; [done|]. left. done.
  Qed.
  Lemma vinv_runs a hs0 n : (forall ip i, has ip i \/ ~ has ip i) -> Forall (good own) hs0 -> length hs0 <= K ->
    (forall i, (i < i0)%N -> someone_has has i hs0) -> vinv 0 [] a -> exists out b, lexec own h net a n out b.
  Proof.
    intros Hdec Hgood Hk Hsome Ha. induction n as [|n (out & b & IH)]; [exists [], a; constructor|].
    pose proof (vinv_exec a n out b Ha IH) as Hb.
    assert (l_pc b <> LDone) as Hnd. { destruct Hb as (? & ? & ? & Hb). intros E. rewrite E in Hb. naive_solver. }
    destruct (vinv_possible n out b hs0 Hdec Hgood Hk Hsome Hb) as (resps & dg & Hnet).
    destruct (vinv_step n out b resps dg Hb Hnd Hnet) as (c & out' & Hst & _).
    eexists _, c. eapply le_step; done.
  Qed.
End offer_download.

Lemma C86_offered_lemma cwd dir dl A c f h a cs content own has i0 K n out b :
  reached cwd dir dl A c f -> A !! h = Some a ->
  0 < cs -> a_chunk a = Z.of_nat cs -> a_count a = Z.of_nat ((length content + cs - 1) / cs) -> (a_count a <= 65536)%Z ->
  can_write f (a_path a) -> parent (a_path a) <> dir -> right_so_far content cs f a ->
  (forall i, ~ ragged cs (chunk_bytes content cs i) \/ first_empty (chunk_bytes content cs i) <= 1024) ->
  i0 ∈ todo a -> (forall ip, ~ has ip i0) ->
  lexec own h (offers own has i0 K content cs) (mkL LCheck c f ∅) n out b ->
  ((4 + K) * length (todo_before i0 a) <= n ->
     forall k, k < length content -> k < N.to_nat i0 * cs -> default [] (file_at (l_fs b) (a_path a)) !! k = content !! k)
  /\ (forall d, d ∈ out -> exists host port i, d = request host port h i /\ i ∈ todo a /\ (i <= i0)%N)
  /\ l_pc b <> LDone
  /\ (forall resps dg, offers own has i0 K content cs (l_pc b) resps dg -> is_Some (lstep own h resps dg b)).
Proof.
  intros H Ha Hcs Hc Hn Hmax Hw Hpar Hr Hfit Hi0 Hnone Hex.
  pose proof (reached_synced _ _ _ _ _ _ H) as (_ & Hs & Hd & _).
  set (old := default [] (file_at f (a_path a))).
  assert (vinv dir h has i0 K content cs a old 0 [] (mkL LCheck c f ∅)) as H0.
  { eapply vinv_start; try done. }
  assert (vinv dir h has i0 K content cs a old n out b) as Hb.
  { eapply vinv_exec; [exact Hcs|exact Hn|exact Hmax|exact Hpar|apply fit_bounded; exact Hfit|exact Hi0|exact Hnone|exact H0|exact Hex]. }
  assert (l_pc b <> LDone) as Hnd.
  { destruct Hb as (? & ? & ? & Hb). intros E. rewrite E in Hb. naive_solver. }
  split; [eapply vinv_fetched; try done; apply fit_bounded; done|]. split; [|split; [done|]].
  - destruct Hb as (? & ? & ? & _ & _ & _ & _ & _ & _ & _ & _ & _ & _ & _ & _ & Hout & _). exact Hout.
  - intros resps dg Hnet.
    destruct (vinv_step dir h own has i0 K content cs a old Hcs Hn Hmax Hpar (fit_bounded _ _ _ Hfit) Hi0 Hnone n out b resps dg Hb Hnd Hnet)
      as (c2 & more & E & _). rewrite E. by eexists.
Qed.
Lemma C86_offered_runs_lemma cwd dir dl A c f h a cs content own has i0 K hs n :
  reached cwd dir dl A c f -> A !! h = Some a ->
  0 < cs -> a_chunk a = Z.of_nat cs -> a_count a = Z.of_nat ((length content + cs - 1) / cs) -> (a_count a <= 65536)%Z ->
  can_write f (a_path a) -> parent (a_path a) <> dir -> right_so_far content cs f a ->
  (forall i, ~ ragged cs (chunk_bytes content cs i) \/ first_empty (chunk_bytes content cs i) <= 1024) ->
  i0 ∈ todo a -> (forall ip, ~ has ip i0) ->
  (forall ip i, has ip i \/ ~ has ip i) -> Forall (good own) hs -> length hs <= K -> (forall i, (i < i0)%N -> someone_has has i hs) ->
  exists out b, lexec own h (offers own has i0 K content cs) (mkL LCheck c f ∅) n out b.
Proof.
  intros H Ha Hcs Hc Hn Hmax Hw Hpar Hr Hfit Hi0 Hnone Hdec Hgood Hk Hsome.
  pose proof (reached_synced _ _ _ _ _ _ H) as (_ & Hs & Hd & _).
  set (old := default [] (file_at f (a_path a))).
  assert (vinv dir h has i0 K content cs a old 0 [] (mkL LCheck c f ∅)) as H0 by (eapply vinv_start; done).
  eapply vinv_runs; [exact Hcs|exact Hn|exact Hmax|exact Hpar|apply fit_bounded; exact Hfit|exact Hi0|exact Hnone|exact Hdec|exact Hgood|exact Hk|exact Hsome|exact H0].
Qed.
