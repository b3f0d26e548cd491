(** Proofs about downloads, part 2: the loop with an honest host (C63). *)
From Verif Require Export DownloadProofs.
From Coq Require Import ZifyBool ZifyNat ZifyN.
Ltac Zify.zify_post_hook ::= Z.div_mod_to_equations.

Lemma chunk_nonempty content cs i : 0 < cs -> i < (length content + cs - 1) / cs -> chunk_bytes content cs i <> [].
Proof.
  intros Hcs Hi E. apply (f_equal length) in E. unfold chunk_bytes in E. rewrite take_length, drop_length in E. cbn in E.
  pose proof (Nat.div_mod_eq (length content + cs - 1) cs).
  pose proof (Nat.mod_upper_bound (length content + cs - 1) cs ltac:(lia)). nia.
Qed.
Lemma synced_write_again c f A h a new f' : synced c f A -> A !! h = Some a -> can_write f (a_path a) ->
  parent (a_path a) <> c_dir c -> same_user (c_dir c) (<[a_path a := NFile new]> f) f' -> can_write f' (a_path a).
Proof.
  intros Hs Ha Hw Hpar Hsu. pose proof (synced_entry_clean _ _ _ _ _ Hs Ha) as Hcl.
  assert (a_path a <> [slash]) as Hroot.
  { intros E. destruct Hw as [Hw1 Hw2]. rewrite E in *. apply Hw2. exact Hw1. }
  split.
  - rewrite Hsu.
    + rewrite lookup_insert_ne by (apply not_eq_sym, parent_ne; done). apply Hw.
    + apply (sy_dir_outside c f A); [done|apply parent_clean; done|apply Hw|done].
  - rewrite Hsu by done. rewrite lookup_insert. done.
Qed.
Lemma synced_facts c f A h a : synced c f A -> A !! h = Some a -> (0 < a_chunk a < 4294967296)%Z /\ (0 <= a_count a)%Z.
Proof.
  intros H Ha. pose proof (sy_ent _ _ _ H h) as He. rewrite Ha in He.
  destruct (c_index c !! h) as [r0|] eqn:Er; [|done].
  destruct He as (_ & _ & _ & _ & _ & _ & _ & H8 & b & (Hb & Hn & _) & _). cbn [fst snd] in *. split; [done|].
  rewrite <- Hn. destruct Hb. lia.
Qed.

(** chunk [i] is the first one missing *)
Definition first_missing (a : aentry) (i : N) : Prop :=
  (Z.of_N i < a_count a)%Z /\ i ∉ a_held a /\ forall j, (j < i)%N -> j ∈ a_held a.
Lemma missing_step c f A h a : synced c f A -> A !! h = Some a -> (a_count a <= 65536)%Z ->
  exists c' rs, run f (missing_chunks c h 1) = (f, Done (c', rs)) /\ synced c' f A /\ c_dir c' = c_dir c
    /\ match rs with [] => todo a = [] | r :: _ => first_missing a (r_start r) end.
Proof.
  intros Hs Ha Hmax.
  destruct (get_record_ok c f A h a Hs Ha) as (r & b & Hrun & Hp & Hrel & (Hi & Hn & Hb) & Hs' & Hm & Hfile).
  cbn [fst snd] in *. unfold missing_chunks. rewrite run_bind, Hrun. cbn [snd p_bits].
  destruct (bunfilled_ranges_spec b Hi ltac:(lia)) as (ps & H1 & H3 & H2). rewrite H1. cbn [run].
  eexists _, _. split; [reflexivity|]. split; [done|]. split; [done|].
  assert (forall x, covered ps x <-> (Z.of_N x < a_count a)%Z /\ x ∉ a_held a) as H4.
  { intros x. rewrite H2, Hn, Hb. destruct (bits b x); naive_solver. }
  destruct ps as [|[s e] ps]; cbn [map].
  - apply (todo_nil a); [apply (synced_facts _ _ _ _ _ Hs Ha)|]. intros x Hx. apply elem_of_all_below in Hx.
    destruct (decide (x ∈ a_held a)) as [?|Hnx]; [done|]. exfalso.
    assert (covered [] x) as (? & ? & Hy & _) by (apply H4; done). set_solver.
  - cbn [r_start fst].
    assert (covered ((s, e) :: ps) s) as Hc.
    { exists s, e. split; [set_solver|]. cbn [separated] in H3. lia. }
    apply H4 in Hc as [Hc1 Hc2]. split; [done|]. split; [done|]. intros i Hi'.
    destruct (decide (i ∈ a_held a)) as [?|Hnx]; [done|]. exfalso.
    assert (covered ((s, e) :: ps) i) as Hci by (apply H4; split; [lia|done]).
    apply (separated_lowest _ _ _ H3) in Hci. lia.
Qed.
Lemma todo_first a i : first_missing a i -> todo a = i :: todo (hold a i).
Proof. intros (H1 & H2 & H3). apply todo_next; done. Qed.

Section honest_download.
  Context (dir : path) (h own host : list byte) (port : N) (content : list byte) (cs : nat) (a0 : aentry) (old : list byte).
  Context (Hcs : 0 < cs) (Hcount : a_count a0 = Z.of_nat ((length content + cs - 1) / cs)) (Hmax : (a_count a0 <= 65536)%Z).
  Context (Hpar : parent (a_path a0) <> dir).
  Context (Hfit : forall i, (Z.of_nat i < a_count a0)%Z ->
    ~ ragged cs (chunk_bytes content cs i) \/ first_empty (chunk_bytes content cs i) <= N.to_nat 1024).

  Definition hinv (n : nat) (sent : list N) (b : lworld) : Prop :=
    exists A a, synced (l_cat b) (l_fs b) A /\ c_dir (l_cat b) = dir /\ A !! h = Some a
      /\ a_path a = a_path a0 /\ a_chunk a = Z.of_nat cs /\ a_count a = a_count a0
      /\ todo a0 = sent ++ todo a
      /\ can_write (l_fs b) (a_path a0)
      /\ holds_chunks content old (default [] (file_at (l_fs b) (a_path a0))) cs (fun j => N.of_nat j ∈ a_held a)
      /\ l_active b = ∅
      /\ match l_pc b with
         | LCheck => n = 5 * length sent
         | LMissing => n = 5 * length sent + 1 /\ todo a <> []
         | LHosts i => n = 5 * length sent + 2 /\ first_missing a i
         | LChunk i [r] => n = 5 * length sent + 3 /\ first_missing a i /\ h_addr r = host /\ h_port r = port
         | LChunk i [] => S n = 5 * length sent
         | LChunk i _ => False
         | LDone => n = 5 * length sent + 1 /\ todo a = []
         end.

  Lemma hinv_step n sent b resps dg : hinv n sent b -> l_pc b <> LDone -> honest own host port content cs (l_pc b) resps dg ->
    exists c out, lstep own h resps dg b = Some (c, map (request host port h) out) /\ hinv (S n) (sent ++ out) c.
  Proof.
    intros (A & a & Hs & Hd & Ha & Hp & Hc & Hn & Ht & Hw & Hh & Hact & Hpc) Hnd Hnet.
    destruct b as [pc c f D]. cbn [l_pc l_cat l_fs l_active] in *. subst D.
    assert (0 <= a_count a)%Z as Hpos by (apply (synced_facts _ _ _ _ _ Hs Ha)).
    assert (a_chunk a < 4294967296)%Z as Hbig by (apply (synced_facts _ _ _ _ _ Hs Ha)).
    unfold lstep. cbn [l_pc l_cat l_fs l_active]. destruct pc as [| |i|i hs|]; cbn [loop_step]; [| | | |done].
    - (* check *)
      destruct (file_complete_ok c f A h a Hs Ha) as (c' & Hrun & Hs' & Hd' & _). rewrite run_bind, Hrun. cbn [run].
      eexists _, []. cbn [map]. split; [reflexivity|]. rewrite app_nil_r. exists A, a. cbn [l_pc l_cat l_fs l_active].
      split_and!; try done; [congruence|]. destruct (decide (todo a = [])) as [E|E].
      + rewrite bool_decide_true by (apply todo_nil; done). split; [lia|done].
      + rewrite bool_decide_false by (rewrite <- todo_nil; done). split; [lia|done].
    - (* missing chunks *)
      destruct Hpc as [-> Hne].
      destruct (missing_step c f A h a Hs Ha ltac:(lia)) as (c' & rs & Hrun & Hs' & Hd' & Hrs). rewrite run_bind, Hrun.
      destruct rs as [|r rs]; [done|]. cbn [run]. eexists _, []. cbn [map]. split; [reflexivity|]. rewrite app_nil_r.
      exists A, a. cbn [l_pc l_cat l_fs l_active]. split_and!; try done; try congruence; try lia; apply Hrs.
    - (* hosts *)
      destruct Hpc as [-> Hf]. destruct Hnet as (r & Hsel & Hra & Hrp).
      destruct (C62_lemma own resps) as (hs & Hgh & Hsel').
      assert (hs = [r]) as -> by (eapply selected_unique; done). rewrite Hgh. cbn [run].
      eexists _, []. cbn [map]. split; [reflexivity|]. rewrite app_nil_r.
      exists A, a. cbn [l_pc l_cat l_fs l_active]. split_and!; try done; try lia; apply Hf.
    - destruct hs as [|r [|r2 hs]]; [| |done].
      + (* no host left *)
        cbn [run]. eexists _, []. cbn [map]. split; [reflexivity|]. rewrite app_nil_r.
        exists A, a. cbn [l_pc l_cat l_fs l_active]. split_and!; done.
      + (* one chunk *)
        destruct Hpc as (-> & Hf & Hra & Hrp). destruct Hnet as (ds & -> & Hdel).
        rewrite decide_False by set_solver. unfold download_chunk.
        pose proof Hf as (Hi1 & Hi2 & Hi3).
        rewrite (delivered_saves content cs (N.to_nat i)); [|lia|lia| | |done].
        2:{ apply chunk_nonempty; [done|]. rewrite Hn, Hcount in Hi1. lia. }
        2:{ apply Hfit. lia. }
        destruct (save_ok c f A h a i (chunk_bytes content cs (N.to_nat i)) Hs Ha) as (r' & new & f' & Hrun & Hov & Hs' & Hf' & Hsu).
        { rewrite Hp. done. }
        { lia. }
        { rewrite Hp, Hd. done. }
        rewrite run_bind, run_bind, Hrun. cbn [run]. rewrite Hra, Hrp.
        eexists _, [i]. cbn [map]. split; [reflexivity|].
        exists (<[h := hold a i]> A), (hold a i). cbn [l_pc l_cat l_fs l_active hold a_path a_chunk].
        split_and!; try done.
        * apply lookup_insert.
        * cbn [hold a_count]. lia.
        * rewrite Ht, <- app_assoc. f_equal. cbn [app]. apply todo_first. done.
        * rewrite <- Hp. eapply synced_write_again; [exact Hs|exact Ha|rewrite Hp; done|rewrite Hp, Hd; done|exact Hsu].
        * unfold file_at. rewrite <- Hp, Hf'. cbn [default].
          replace (N.to_nat i * Z.to_nat (a_chunk a)) with (N.to_nat i * cs) in Hov by (rewrite Hc; lia).
          rewrite Hp in Hov. destruct (holds_step content old _ new cs (N.to_nat i) _ Hcs Hh Hov) as [G1 G2].
          split; [|done]. intros k Hk Hj. apply G1; [done|]. cbn [hold a_held] in Hj. apply elem_of_union in Hj as [Hj|Hj]; [|by right].
          left. apply elem_of_singleton in Hj. lia.
        * set_solver.
        * rewrite app_length. cbn [length]. lia.
  Qed.
  Lemma hinv_exec a n out b : hinv 0 [] a -> lexec own h (honest own host port content cs) a n out b ->
    exists sent, out = map (request host port h) sent /\ hinv n sent b.
  Proof.
    intros Ha. induction 1 as [a|a n out b resps dg out' c H IH Hnd Hnet Hst].
    - exists []. done.
    - destruct (IH Ha) as (sent & -> & Hb). destruct (hinv_step n sent b resps dg Hb Hnd Hnet) as (c2 & out2 & E & Hc).
      rewrite Hst in E. simplify_eq. exists (sent ++ out2). split; [rewrite map_app; done|done].
  Qed.
  Lemma hinv_start A c f : synced c f A -> c_dir c = dir -> A !! h = Some a0 -> a_chunk a0 = Z.of_nat cs ->
    can_write f (a_path a0) -> right_so_far content cs f a0 -> old = default [] (file_at f (a_path a0)) ->
    hinv 0 [] (mkL LCheck c f ∅).
  Proof.
    intros Hs Hd Ha Hc Hw Hr Hold. exists A, a0. cbn [l_pc l_cat l_fs l_active]. 
    repeat (split; [done|]). split; [|done]. split; [|intros; congruence]. intros k Hk Hj. apply Hr; done.
  Qed.
  Lemma hinv_done n sent b : hinv n sent b -> l_pc b = LDone -> sent = todo a0
    /\ default [] (file_at (l_fs b) (a_path a0)) = content ++ drop (length content) old.
  Proof.
    intros (A & a & Hs & Hd & Ha & Hp & Hc & Hn & Ht & Hw & Hh & Hact & Hpc) E. rewrite E in Hpc. destruct Hpc as [_ Hnil].
    rewrite Hnil, app_nil_r in Ht. split; [done|]. eapply holds_all; [done| |exact Hh].
    intros i Hi. cbn beta. apply todo_nil in Hnil; [|rewrite Hn; lia]. apply Hnil, elem_of_all_below. rewrite Hn. lia.
  Qed.
  Lemma hinv_bound n sent b : hinv n sent b -> n <= 5 * length (todo a0) + 1 /\ exists rest, todo a0 = sent ++ rest.
  Proof.
    intros (A & a & Hs & Hd & Ha & Hp & Hc & Hn & Ht & Hw & Hh & Hact & Hpc). split; [|eauto].
    pose proof (f_equal length Ht) as Hl. rewrite app_length in Hl.
    assert (forall i, first_missing a i -> 0 < length (todo a)) as Hlt.
    { intros i Hf. rewrite (todo_first a i Hf). cbn. lia. }
    destruct (l_pc b) as [| |i|i [|r [|r2 hs]]|].
    - lia.
    - destruct Hpc as [-> Hne]. destruct (todo a); [done|]. cbn [length] in Hl. lia.
    - destruct Hpc as [-> Hf]. specialize (Hlt i Hf). lia.
    - lia.
    - destruct Hpc as (-> & Hf & _). specialize (Hlt i Hf). lia.
    - done.
    - lia.
  Qed.
  (** the network can always answer like that *)
  Lemma hinv_possible n sent b : host <> own -> hinv n sent b -> exists resps dg, honest own host port content cs (l_pc b) resps dg.
  Proof.
    intros Hho (A & a & Hs & Hd & Ha & Hp & Hc & Hn & Ht & Hw & Hh & Hact & Hpc).
    pose proof (synced_facts _ _ _ _ _ Hs Ha) as [Hch _].
    destruct (l_pc b) as [| |i|i [|r hs]|]; cbn [honest]; try (exists [], None; done).
    - exists [mkResp host port 0 [0%N]], None. eexists. split; [apply sel_take; [|apply sel_nil]|done]. done.
    - destruct hs; [|done]. destruct Hpc as (_ & (Hi & _) & _).
      destruct (delivered_exists content cs (N.to_nat i)) as (ds & Hds); [lia|lia| |].
      { apply chunk_nonempty; [done|]. rewrite Hn, Hcount in Hi. lia. }
      exists [], (Some ds), ds. done.
  Qed.
  Lemma hinv_completes a : host <> own -> hinv 0 [] a ->
    exists n out b, lexec own h (honest own host port content cs) a n out b /\ l_pc b = LDone.
  Proof.
    intros Hho Ha.
    assert (forall m, (exists n out b, lexec own h (honest own host port content cs) a n out b /\ l_pc b = LDone)
      \/ exists out b, lexec own h (honest own host port content cs) a m out b) as H.
    { induction m as [|m [IH|(out & b & IH)]]; [right; exists [], a; constructor|by left|].
      destruct (hinv_exec a m out b Ha IH) as (sent & -> & Hb).
      assert (l_pc b = LDone \/ l_pc b <> LDone) as [Hdone|Hnd] by (destruct (l_pc b); try (by left); by right); [left; eauto|].
      destruct (hinv_possible m sent b Hho Hb) as (resps & dg & Hnet).
      destruct (hinv_step m sent b resps dg Hb Hnd Hnet) as (c & out' & Hst & _).
      right. eexists _, c. eapply le_step; done. }
    destruct (H (5 * length (todo a0) + 2)) as [?|(out & b & Hb)]; [done|].
    destruct (hinv_exec _ _ _ _ Ha Hb) as (sent & _ & Hinv). apply hinv_bound in Hinv as [Hinv _]. lia.
  Qed.
End honest_download.

Lemma C63_lemma cwd dir dl A c f h a cs content own host port n out b :
  reached cwd dir dl A c f -> A !! h = Some a ->
  0 < cs -> a_chunk a = Z.of_nat cs -> a_count a = Z.of_nat ((length content + cs - 1) / cs) -> (a_count a <= 65536)%Z ->
  can_write f (a_path a) -> parent (a_path a) <> dir -> right_so_far content cs f a ->
  (forall i, ~ ragged cs (chunk_bytes content cs i) \/ first_empty (chunk_bytes content cs i) <= 1024) ->
  lexec own h (honest own host port content cs) (mkL LCheck c f ∅) n out b ->
  n <= 5 * length (todo a) + 1
  /\ (exists sent rest, todo a = sent ++ rest /\ out = map (request host port h) sent)
  /\ (forall resps dg, l_pc b <> LDone -> honest own host port content cs (l_pc b) resps dg -> is_Some (lstep own h resps dg b))
  /\ (l_pc b = LDone -> out = map (request host port h) (todo a)
      /\ default [] (file_at (l_fs b) (a_path a)) = content ++ drop (length content) (default [] (file_at f (a_path a)))).
Proof.
  intros H Ha Hcs Hc Hn Hmax Hw Hpar Hr Hfit Hex.
  pose proof (reached_synced _ _ _ _ _ _ H) as (_ & Hs & Hd & _).
  assert (forall i, (Z.of_nat i < a_count a)%Z ->
    ~ ragged cs (chunk_bytes content cs i) \/ first_empty (chunk_bytes content cs i) <= N.to_nat 1024) as Hfit'.
  { intros i _. destruct (Hfit i) as [?|?]; [by left|]. right. lia. }
  pose proof (hinv_start dir h host port content cs a (default [] (file_at f (a_path a))) A c f Hs Hd Ha Hc Hw Hr eq_refl) as H0.
  destruct (hinv_exec dir h own host port content cs a _ Hcs Hn Hmax Hpar Hfit' _ n out b H0 Hex) as (sent & -> & Hb).
  destruct (hinv_bound _ _ _ _ _ _ _ _ Hcs Hn Hfit' n sent b Hb) as [H1 (rest & H2)].
  split; [done|]. split; [exists sent, rest; done|]. split.
  - intros resps dg Hnd Hnet.
    destruct (hinv_step dir h own host port content cs a _ Hcs Hn Hmax Hpar Hfit' n sent b resps dg Hb Hnd Hnet) as (c2 & out2 & E & _).
    rewrite E. done.
  - intros E. destruct (hinv_done _ _ _ _ _ _ _ _ Hcs Hn Hfit' n sent b Hb E) as [-> ->]. done.
Qed.

Lemma fit_bounded content cs n :
  (forall i, ~ ragged cs (chunk_bytes content cs i) \/ first_empty (chunk_bytes content cs i) <= 1024) ->
  forall i, (Z.of_nat i < n)%Z -> ~ ragged cs (chunk_bytes content cs i) \/ first_empty (chunk_bytes content cs i) <= N.to_nat 1024.
Proof. intros Hfit i _. destruct (Hfit i) as [?|?]; [by left|]. right. lia. Qed.
Lemma C63_completes_lemma cwd dir dl A c f h a cs content own host port :
  reached cwd dir dl A c f -> A !! h = Some a ->
  0 < cs -> a_chunk a = Z.of_nat cs -> a_count a = Z.of_nat ((length content + cs - 1) / cs) -> (a_count a <= 65536)%Z ->
  can_write f (a_path a) -> parent (a_path a) <> dir -> right_so_far content cs f a ->
  (forall i, ~ ragged cs (chunk_bytes content cs i) \/ first_empty (chunk_bytes content cs i) <= 1024) ->
  host <> own ->
  exists n out b, lexec own h (honest own host port content cs) (mkL LCheck c f ∅) n out b /\ l_pc b = LDone.
Proof.
  intros H Ha Hcs Hc Hn Hmax Hw Hpar Hr Hfit Hho.
  pose proof (reached_synced _ _ _ _ _ _ H) as (_ & Hs & Hd & _).
  pose proof (hinv_start dir h host port content cs a (default [] (file_at f (a_path a))) A c f Hs Hd Ha Hc Hw Hr eq_refl) as H0.
  exact (hinv_completes dir h own host port content cs a _ Hcs Hn Hmax Hpar (fit_bounded _ _ _ Hfit) _ Hho H0).
Qed.

(** *** C75: a second download of the same file *)
Lemma C75_lemma cwd dir dl A c f h a cs content own host port resps0 dg0 :
  reached cwd dir dl A c f -> A !! h = Some a ->
  0 < cs -> a_chunk a = Z.of_nat cs -> a_count a = Z.of_nat ((length content + cs - 1) / cs) -> (a_count a <= 65536)%Z ->
  can_write f (a_path a) -> parent (a_path a) <> dir -> right_so_far content cs f a ->
  (forall i, ~ ragged cs (chunk_bytes content cs i) \/ first_empty (chunk_bytes content cs i) <= 1024) ->
  host <> own -> todo a <> [] ->
  exists b1 n out b2, lstep own h resps0 dg0 (mkL LCheck c f ∅) = Some (b1, []) /\ l_pc b1 = LMissing
    /\ lexec own h (honest own host port content cs) (mkL LCheck (l_cat b1) (l_fs b1) (l_active b1)) n out b2
    /\ l_pc b2 = LDone
    /\ lstep own h resps0 dg0 (mkL (l_pc b1) (l_cat b2) (l_fs b2) (l_active b2)) = None.
Proof.
  intros H Ha Hcs Hc Hn Hmax Hw Hpar Hr Hfit Hho Htodo.
  pose proof (reached_synced _ _ _ _ _ _ H) as (_ & Hs & Hd & _).
  assert (0 <= a_count a)%Z as Hpos by (apply (synced_facts _ _ _ _ _ Hs Ha)).
  destruct (file_complete_ok c f A h a Hs Ha) as (c1 & Hrun & Hs1 & Hd1 & _).
  rewrite bool_decide_false in Hrun by (rewrite <- todo_nil; done).
  pose proof (hinv_start dir h host port content cs a (default [] (file_at f (a_path a))) A c1 f Hs1 ltac:(congruence) Ha Hc Hw Hr eq_refl) as H0.
  destruct (hinv_completes dir h own host port content cs a _ Hcs Hn Hmax Hpar (fit_bounded _ _ _ Hfit) _ Hho H0) as (n & out & b2 & Hex & Hdone).
  exists (mkL LMissing c1 f ∅), n, out, b2. cbn [l_pc l_cat l_fs l_active].
  split; [|split; [done|split; [done|split; [done|]]]].
  - unfold lstep. cbn [l_pc l_cat l_fs l_active loop_step]. rewrite run_bind, Hrun. done.
  - destruct (hinv_exec dir h own host port content cs a _ Hcs Hn Hmax Hpar (fit_bounded _ _ _ Hfit) _ _ _ _ H0 Hex) as (sent & _ & Hb).
    destruct Hb as (A2 & a2 & Hs2 & Hd2 & Ha2 & Hp2 & Hc2 & Hn2 & Ht2 & Hw2 & Hh2 & Hact2 & Hpc2). rewrite Hdone in Hpc2.
    destruct Hpc2 as [_ Hnil]. unfold lstep. cbn [l_pc l_cat l_fs l_active loop_step]. rewrite run_bind.
    destruct (missing_step _ _ A2 h a2 Hs2 Ha2 ltac:(lia)) as (c' & rs & Hrun' & _ & _ & Hrs). rewrite Hrun'.
    destruct rs as [|r rs]; [done|]. rewrite (todo_first a2 _ Hrs) in Hnil. done.
Qed.

(** *** a chunk that is requested again and again *)
Lemma lexec_app own h net a n out b m out' c : lexec own h net a n out b -> lexec own h net b m out' c ->
  lexec own h net a (n + m) (out ++ out') c.
Proof.
  intros H1 H2. induction H2 as [b|b m out' c resps dg out2 d H2 IH Hnd Hnet Hst].
  - rewrite Nat.add_0_r, app_nil_r. done.
  - rewrite Nat.add_succ_r, app_assoc. eapply le_step; [apply IH|..]; done.
Qed.
Lemma lexec_one own h (net : network) a resps dg out b : l_pc a <> LDone -> net (l_pc a) resps dg -> lstep own h resps dg a = Some (b, out) ->
  lexec own h net a 1 out b.
Proof. intros H1 H2 H3. change out with ([] ++ out). eapply le_step; [apply le_nil|done..]. Qed.
Lemma C63_round A c f h a cs content own host port i : synced c f A -> A !! h = Some a ->
  0 < cs -> a_chunk a = Z.of_nat cs -> a_count a = Z.of_nat ((length content + cs - 1) / cs) -> (a_count a <= 65536)%Z ->
  host <> own -> first_missing a i ->
  ragged cs (chunk_bytes content cs (N.to_nat i)) -> 1024 < first_empty (chunk_bytes content cs (N.to_nat i)) ->
  exists c', synced c' f A /\
    lexec own h (honest own host port content cs) (mkL LCheck c f ∅) 5 [request host port h i] (mkL LCheck c' f ∅).
Proof.
  intros Hs Ha Hcs Hc Hn Hmax Hho Hf Hrag Hbig.
  pose proof (synced_facts _ _ _ _ _ Hs Ha) as [Hch Hpos].
  destruct (file_complete_ok c f A h a Hs Ha) as (c1 & Hrun & Hs1 & Hd1 & _).
  rewrite bool_decide_false in Hrun by (rewrite <- todo_nil by done; rewrite (todo_first a i Hf); done).
  destruct (missing_step c1 f A h a Hs1 Ha Hmax) as (c2 & rs & Hrun2 & Hs2 & Hd2 & Hrs).
  destruct rs as [|r rs]. { rewrite (todo_first a i Hf) in Hrs. done. }
  assert (r_start r = i) as Hri.
  { pose proof (todo_first a i Hf). pose proof (todo_first a _ Hrs). congruence. }
  pose proof Hf as (Hi1 & Hi2 & Hi3).
  destruct (lost_exists content cs (N.to_nat i)) as (ds & rc & Hdel & Hlost); [lia|lia| |done|lia|].
  { apply chunk_nonempty; [done|]. rewrite Hn in Hi1. lia. }
  pose (hr := mkResp host port 0 [0%N]).
  assert (selected (good own) [hr] [hr]) as Hsel by (apply sel_take; [done|apply sel_nil]).
  destruct (C62_lemma own [hr]) as (hs & Hgh & Hsel'). assert (hs = [hr]) as -> by (eapply selected_unique; done).
  exists c2. split; [done|].
  change [request host port h i] with ([] ++ [] ++ [] ++ [request host port h i] ++ []).
  change 5 with (1 + (1 + (1 + (1 + 1)))).
  eapply (lexec_app _ _ _ _ 1 [] (mkL LMissing c1 f ∅)).
  { apply (lexec_one _ _ _ _ [] None); [done|done|]. unfold lstep. cbn [l_pc l_cat l_fs l_active loop_step]. rewrite run_bind, Hrun. done. }
  eapply (lexec_app _ _ _ _ 1 [] (mkL (LHosts i) c2 f ∅)).
  { apply (lexec_one _ _ _ _ [] None); [done|done|]. unfold lstep. cbn [l_pc l_cat l_fs l_active loop_step]. rewrite run_bind, Hrun2. cbn [run]. rewrite Hri. done. }
  eapply (lexec_app _ _ _ _ 1 [] (mkL (LChunk i [hr]) c2 f ∅)).
  { apply (lexec_one _ _ _ _ [hr] None); [done|exists hr; done|]. unfold lstep. cbn [l_pc l_cat l_fs l_active loop_step]. rewrite Hgh. done. }
  eapply (lexec_app _ _ _ _ 1 _ (mkL (LChunk i []) c2 f ∅)).
  { apply (lexec_one _ _ _ _ [] (Some ds)); [done|exists ds; done|]. unfold lstep. cbn [l_pc l_cat l_fs l_active loop_step].
    rewrite decide_False by set_solver. rewrite run_bind. unfold download_chunk. rewrite Hlost. cbn [run].
    unfold request, open_request. cbn [hr h_addr h_port]. do 3 f_equal. set_solver. }
  apply (lexec_one _ _ _ _ [] None); [done|done|]. done.
Qed.
Lemma C63_never_lemma cwd dir dl A c f h a cs content own host port i k :
  reached cwd dir dl A c f -> A !! h = Some a ->
  0 < cs -> a_chunk a = Z.of_nat cs -> a_count a = Z.of_nat ((length content + cs - 1) / cs) -> (a_count a <= 65536)%Z ->
  host <> own -> (Z.of_N i < a_count a)%Z -> i ∉ a_held a -> (forall j, (j < i)%N -> j ∈ a_held a) ->
  ragged cs (chunk_bytes content cs (N.to_nat i)) -> 1024 < first_empty (chunk_bytes content cs (N.to_nat i)) ->
  exists b, lexec own h (honest own host port content cs) (mkL LCheck c f ∅) (5 * k) (replicate k (request host port h i)) b
    /\ l_pc b = LCheck /\ l_fs b = f.
Proof.
  intros H Ha Hcs Hc Hn Hmax Hho Hi1 Hi2 Hi3 Hrag Hbig.
  pose proof (reached_synced _ _ _ _ _ _ H) as (_ & Hs & _).
  cut (exists c', synced c' f A /\ lexec own h (honest own host port content cs) (mkL LCheck c f ∅) (5 * k) (replicate k (request host port h i)) (mkL LCheck c' f ∅)).
  { intros (c' & _ & Hx). eexists. split; [exact Hx|]. done. }
  clear H. induction k as [|k IH].
  - exists c. split; [done|]. constructor.
  - destruct IH as (c1 & Hs1 & H1).
    destruct (C63_round A c1 f h a cs content own host port i) as (c2 & Hs2 & H2); try done.
    exists c2. split; [done|]. replace (5 * S k) with (5 * k + 5) by lia.
    replace (replicate (S k) (request host port h i)) with (replicate k (request host port h i) ++ [request host port h i])
      by (rewrite <- replicate_cons_app; done).
    eapply lexec_app; done.
Qed.
