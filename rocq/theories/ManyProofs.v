(** Proofs about several downloads at the same time. *)
From Verif Require Export ManySpec SwarmProofs.
From Coq Require Import ZifyBool ZifyNat ZifyN.
Ltac Zify.zify_post_hook ::= Z.div_mod_to_equations.

(** ** The abstract catalogue is determined by memory and disk *)
Lemma synced_unique c f A1 A2 : synced c f A1 -> synced c f A2 -> A1 = A2.
Proof.
  intros H1 H2. apply map_eq. intros h.
  pose proof (sy_ent _ _ _ H1 h) as E1. pose proof (sy_ent _ _ _ H2 h) as E2.
  destruct (c_index c !! h) as [r|], (A1 !! h) as [a1|], (A2 !! h) as [a2|]; try done.
  destruct E1 as (_ & _ & P1 & _ & S1 & _ & C1 & _ & b1 & (I1 & N1 & B1) & F1 & _).
  destruct E2 as (_ & _ & P2 & _ & S2 & _ & C2 & _ & b2 & (I2 & N2 & B2) & F2 & _).
  cbn [fst snd] in *. assert (b1 = b2) as <- by (apply bserialize_inj; [done|done|congruence]).
  f_equal. destruct a1 as [p1 s1 k1 n1 d1], a2 as [p2 s2 k2 n2 d2]. cbn in *. f_equal; [congruence..|].
  apply leibniz_equiv. intros x. rewrite B1, B2. done.
Qed.

(** ** Counting what is missing *)
Definition lack (a : aentry) (i : N) : nat := if decide (i ∈ a_held a) then 0 else 1.
Lemma filter_without (P : N -> Prop) `{forall x, Decision (P x)} (i : N) (l : list N) : i ∉ l ->
  length (filter P l) = length (filter (fun x => P x /\ x <> i) l).
Proof.
  induction l as [|x l IH]; intros Hi; [done|]. apply not_elem_of_cons in Hi as [Hx Hi]. specialize (IH Hi).
  destruct (decide (P x)).
  - rewrite filter_cons_True by done. rewrite filter_cons_True by done. cbn [length]. rewrite IH. done.
  - rewrite filter_cons_False by done. rewrite filter_cons_False by tauto. done.
Qed.
Lemma filter_out (P : N -> Prop) `{forall x, Decision (P x)} (i : N) (l : list N) : NoDup l -> P i -> i ∈ l ->
  length (filter P l) = S (length (filter (fun x => P x /\ x <> i) l)).
Proof.
  induction l as [|x l IH]; intros Hnd Hi Hin; [set_solver|]. apply NoDup_cons in Hnd as [Hx Hnd].
  destruct (decide (x = i)) as [->|Hne].
  - rewrite filter_cons_True by done. rewrite filter_cons_False by naive_solver. cbn [length]. f_equal.
    apply filter_without. done.
  - assert (i ∈ l) as Hil by set_solver. destruct (decide (P x)).
    + rewrite filter_cons_True by done. rewrite filter_cons_True by done. cbn [length]. rewrite IH by done. done.
    + rewrite filter_cons_False by done. rewrite filter_cons_False by tauto. apply IH; done.
Qed.
Lemma filter_length_ext (P Q : N -> Prop) `{forall x, Decision (P x)} `{forall x, Decision (Q x)} l :
  (forall x, P x <-> Q x) -> length (filter P l) = length (filter Q l).
Proof. intros HPQ. f_equal. apply list_filter_iff. done. Qed.
Lemma todo_hold a i : (Z.of_N i < a_count a)%Z -> length (todo (hold a i)) + lack a i = length (todo a).
Proof.
  intros Hi. unfold lack. destruct (decide (i ∈ a_held a)) as [Hin|Hout]; [rewrite todo_again by done; lia|].
  unfold todo. cbn [hold a_count a_held]. rewrite Z.max_l by lia.
  rewrite (filter_out (fun x => x ∉ a_held a) i); [| |done|].
  - rewrite Nat.add_1_r. f_equal. apply filter_length_ext. intros x. rewrite elem_of_union, elem_of_singleton. tauto.
  - apply NoDup_fmap_2; [intros ??; lia|]. apply NoDup_seq.
  - apply elem_of_list_fmap. exists (N.to_nat i). split; [lia|]. apply elem_of_seq. lia.
Qed.
Lemma lack_first a i : i ∉ a_held a -> lack a i = 1.
Proof. intros H. unfold lack. rewrite decide_False by done. done. Qed.
Lemma lack_held a i : i ∈ a_held a -> lack a i = 0.
Proof. intros H. unfold lack. rewrite decide_True by done. done. Qed.
Lemma lack_le a i : (Z.of_N i < a_count a)%Z -> lack a i <= length (todo a).
Proof. intros H. pose proof (todo_hold a i H). lia. Qed.
Lemma lack_hold a i j : lack (hold a i) j <= lack a j.
Proof. unfold lack. destruct (decide (j ∈ a_held (hold a i))) as [?|Hn]; [lia|]. rewrite decide_False; [lia|]. intros Hj. apply Hn. cbn. set_solver. Qed.
(** the number of chunks other than [j] that are missing never grows *)
Lemma rest_hold a i j : (Z.of_N i < a_count a)%Z -> (Z.of_N j < a_count a)%Z ->
  length (todo (hold a i)) - lack (hold a i) j <= length (todo a) - lack a j.
Proof.
  intros Hi Hj. pose proof (todo_hold a i Hi) as H. pose proof (lack_hold a i j). pose proof (lack_le a j Hj).
  destruct (decide (i = j)) as [->|Hne]; [lia|]. assert (lack (hold a i) j = lack a j); [|lia].
  unfold lack. apply decide_ext. cbn [hold a_held]. set_solver.
Qed.

(** ** One step of a loop *)
(** how many more steps a loop takes at most *)
Definition mu (K : nat) (a : aentry) (pc : lpc) : nat :=
  match pc with
  | LCheck => (4 + K) * length (todo a) + 1
  | LMissing => (4 + K) * length (todo a)
  | LHosts i => (4 + K) * (length (todo a) - lack a i) + 3 + K
  | LChunk i hs => (4 + K) * (length (todo a) - lack a i) + 2 + length hs
  | LDone => 0
  end.
(** what a loop knows *)
Definition knows (has : list byte -> N -> Prop) (K : nat) (a : aentry) (pc : lpc) : Prop :=
  match pc with
  | LCheck | LMissing => True
  | LHosts i => (Z.of_N i < a_count a)%Z
  | LChunk i hs => (Z.of_N i < a_count a)%Z /\ length hs <= K /\ (i ∈ a_held a \/ someone_has has i hs)
  | LDone => todo a = []
  end.
Lemma mu_hold K a i pc has : (Z.of_N i < a_count a)%Z -> knows has K a pc -> mu K (hold a i) pc <= mu K a pc.
Proof.
  intros Hi. pose proof (todo_hold a i Hi) as Ht.
  destruct pc as [| |j|j hs|]; cbn [knows mu]; intros Hk.
  - nia.
  - nia.
  - pose proof (rest_hold a i j Hi Hk). nia.
  - destruct Hk as [Hj _]. pose proof (rest_hold a i j Hi Hj). nia.
  - lia.
Qed.
Lemma knows_hold K a i pc has : (Z.of_N i < a_count a)%Z -> knows has K a pc -> knows has K (hold a i) pc.
Proof.
  intros Hi. pose proof (todo_hold a i Hi) as Ht.
  destruct pc as [| |j|j hs|]; cbn [knows]; [done|done| | |].
  - cbn [hold a_count]. lia.
  - intros (H1 & H2 & H3). cbn [hold a_count a_held]. split; [lia|]. split; [done|]. destruct H3; [left; set_solver|by right].
  - intros E. rewrite E in Ht. cbn [length] in Ht. destruct (todo (hold a i)); [done|cbn [length] in Ht; lia].
Qed.

(** the part of the invariant about one target *)
Record tok (f : fs) (t : target) (a0 a : aentry) (old : list byte) : Prop := {
  tk_path : a_path a = a_path a0;
  tk_chunk : a_chunk a = Z.of_nat (t_cs t);
  tk_count : a_count a = a_count a0;
  tk_write : can_write f (a_path a0);
  tk_holds : holds_chunks (t_content t) old (default [] (file_at f (a_path a0))) (t_cs t) (fun j => N.of_nat j ∈ a_held a) }.

Lemma missing_reached cwd dir dl A c f h a : reached cwd dir dl A c f -> A !! h = Some a -> (a_count a <= 65536)%Z ->
  exists c' rs, run f (missing_chunks c h 1) = (f, Done (c', rs)) /\ reached cwd dir dl A c' f
    /\ match rs with [] => todo a = [] | r :: _ => first_missing a (r_start r) end.
Proof.
  intros H Ha Hmax. pose proof (reached_synced _ _ _ _ _ _ H) as (_ & Hs & _ & _).
  destruct (missing_step c f A h a Hs Ha Hmax) as (c' & rs & Hrun & _ & _ & Hrs).
  destruct (contains_known cwd dir dl A c f h a H Ha) as (c2 & x & Hrun2 & _ & _ & H2).
  exists c', rs. split; [done|]. split; [|done].
  destruct (get_record_ok c f A h a Hs Ha) as (r & b & Hg & _).
  unfold missing_chunks in Hrun. unfold contains in Hrun2. rewrite run_bind, Hg in Hrun. rewrite run_bind, Hg in Hrun2. cbn [snd p_bits] in Hrun, Hrun2.
  destruct (bunfilled_ranges b) as [u|u|u]; cbn [run on_ok] in Hrun, Hrun2; simplify_eq. done.
Qed.

Section one_loop.
  Context (cwd dir dl : path) (own : list byte) (h : list byte) (t : target) (a0 : aentry) (old : list byte).
  Context (f0 : fs) (Hfits : fits dir f0 t a0).

  Lemma one_step A c f a pc resps dg : reached cwd dir dl A c f -> A !! h = Some a -> tok f t a0 a old ->
    knows (t_has t) (t_K t) a pc -> pc <> LDone -> t_net own t pc resps dg ->
    (pc = LMissing /\ todo a = [] /\ lstep own h resps dg (mkL pc c f ∅) = None)
    \/ exists pc' c' f' a' out, lstep own h resps dg (mkL pc c f ∅) = Some (mkL pc' c' f' ∅, out)
         /\ reached cwd dir dl (<[h := a']> A) c' f' /\ tok f' t a0 a' old
         /\ knows (t_has t) (t_K t) a' pc' /\ mu (t_K t) a' pc' < mu (t_K t) a pc
         /\ (pc' = LMissing -> todo a' <> [])
         /\ (a' = a /\ f' = f \/ exists i new, (Z.of_N i < a_count a)%Z /\ a' = hold a i
               /\ same_user dir (<[a_path a0 := NFile new]> f) f').
  Proof.
    intros H Ha Htok Hk Hnd Hnet. destruct Htok as [Hp Hc Hn Hw Hh].
    destruct Hfits as (Hcs & _ & Hcount & Hmax & _ & Hpar & _ & Hfit & HK).
    pose proof (reached_synced _ _ _ _ _ _ H) as (_ & Hs & Hd & Hdl).
    assert (0 <= a_count a)%Z as Hpos by (apply (synced_facts _ _ _ _ _ Hs Ha)).
    assert (a_chunk a < 4294967296)%Z as Hbig by (apply (synced_facts _ _ _ _ _ Hs Ha)).
    assert (<[h := a]> A = A) as Hid by (apply insert_id; done).
    assert (tok f t a0 a old) as Htok by (split; done).
    unfold lstep. cbn [l_pc l_cat l_fs l_active]. destruct pc as [| |i|i hs|]; cbn [loop_step]; [| | | |done].
    - right. destruct (reached_call _ _ _ _ _ _ (CComplete h) H) as (c' & f' & A' & ans & Hr & Hsp & Hre); [cbn; congruence|].
      destruct (file_complete_ok c f A h a Hs Ha) as (c2 & Hrun & _). cbn [crun] in Hr. rewrite Hrun in Hr. cbn [finish fst snd] in Hr.
      simplify_eq. cbn [aspec] in Hsp. rewrite run_bind, Hrun. cbn [run].
      destruct Hsp as (_ & -> & _). eexists _, _, _, a, []. split; [reflexivity|]. rewrite Hid. split; [done|]. split; [done|].
      destruct (decide (todo a = [])) as [E|E].
      + rewrite bool_decide_true by (apply todo_nil; done). split; [done|]. split; [cbn [mu]; lia|]. split; [done|]. left. done.
      + rewrite bool_decide_false by (rewrite <- todo_nil; done). split; [done|]. split; [cbn [mu]; lia|]. split; [done|]. left. done.
    - destruct (missing_reached _ _ _ _ _ _ _ _ H Ha ltac:(lia)) as (c' & rs & Hrun & Hre & Hrs). rewrite run_bind, Hrun.
      destruct rs as [|r rs]; [left; done|]. right. cbn [run]. eexists _, _, _, a, []. split; [reflexivity|]. rewrite Hid.
      split; [done|]. split; [done|]. destruct Hrs as (H1 & H2 & _). split; [done|].
      split; [|split; [done|left; done]]. cbn [mu]. pose proof (lack_le a (r_start r) H1). rewrite (lack_first _ _ H2) in *. nia.
    - right. destruct Hnet as (hs & Hsel & HR & Hseed). destruct (C62_lemma own resps) as (hs' & Hgh & Hsel').
      assert (hs' = hs) as -> by (eapply selected_unique; done). rewrite Hgh. cbn [run].
      eexists _, _, _, a, []. split; [reflexivity|]. rewrite Hid. split; [done|]. split; [done|].
      pose proof (HK hs HR). split; [split; [exact Hk|split; [done|right; done]]|]. split; [cbn [mu]; lia|]. split; [done|left; done].
    - right. destruct Hk as (Hi & Hlen & Hcase). destruct hs as [|r hs].
      + cbn [run]. eexists _, _, _, a, []. split; [reflexivity|]. rewrite Hid. split; [done|]. split; [done|]. split; [done|].
        assert (i ∈ a_held a) as Hheld by (destruct Hcase as [?|Hx]; [done|by apply Exists_nil in Hx]).
        split; [cbn [mu]; rewrite (lack_held _ _ Hheld); cbn [length]; lia|]. split; [done|left; done].
      + destruct Hnet as (ds & -> & Hdel). rewrite decide_False by set_solver. unfold download_chunk. cbn [length] in Hlen.
        assert ((({[(h, h_addr r)]} ∪ ∅) ∖ {[(h, h_addr r)]} : active) = ∅) as Hact by set_solver.
        destruct Hdel as [Hdel|[-> Hns]].
        * rewrite (delivered_saves (t_content t) (t_cs t) (N.to_nat i)); [|lia|lia| | |done].
          2:{ apply chunk_nonempty; [done|]. lia. }
          2:{ apply Hfit. }
          destruct (reached_call _ _ _ _ _ _ (CSave h i (chunk_bytes (t_content t) (t_cs t) (N.to_nat i))) H) as (c' & f' & A' & ans & Hr & Hsp & Hre).
          { split; [lia|]. exists a. rewrite Hp. done. }
          destruct (save_ok c f A h a i (chunk_bytes (t_content t) (t_cs t) (N.to_nat i)) Hs Ha) as (r' & new & f2 & Hrun & Hov & Hs' & Hf' & Hsu).
          { rewrite Hp. done. }
          { lia. }
          { rewrite Hp, Hd. done. }
          cbn [crun] in Hr. rewrite Hrun in Hr. cbn [finish fst snd ans_of] in Hr. simplify_eq. 
          cbn [aspec] in Hsp. rewrite Ha in Hsp. destruct Hsp as [(_ & _ & -> & _)|(? & ? & _)]; [|done].
          rewrite run_bind, run_bind, Hrun. cbn [run]. rewrite Hact.
          eexists _, _, _, (hold a i), [_]. split; [reflexivity|]. split; [exact Hre|]. split.
          { split; [done|done|cbn [hold a_count]; lia| |].
            - rewrite <- Hp. eapply synced_write_again; [exact Hs|exact Ha|rewrite Hp; done|rewrite Hp; done|exact Hsu].
            - unfold file_at. rewrite <- Hp, Hf'. cbn [default].
              replace (N.to_nat i * Z.to_nat (a_chunk a)) with (N.to_nat i * t_cs t) in Hov by (rewrite Hc; lia).
              rewrite Hp in Hov. destruct (holds_step (t_content t) old _ new (t_cs t) (N.to_nat i) _ Hcs Hh Hov) as [G1 G2].
              split; [|done]. intros k Hk Hj. apply G1; [done|]. cbn [hold a_held] in Hj. apply elem_of_union in Hj as [Hj|Hj]; [|by right].
              left. apply elem_of_singleton in Hj. lia. }
          split; [split; [cbn [hold a_count]; lia|split; [lia|left; cbn [hold a_held]; set_solver]]|].
          split. { cbn [mu length]. pose proof (rest_hold a i i Hi Hi). nia. }
          split; [done|]. right. exists i, new. rewrite <- Hp. done.
        * change (recv_datagrams []) with (Ok (RMore new_recv)). rewrite run_bind. cbn [run]. rewrite Hact.
          eexists _, _, _, a, [_]. split; [reflexivity|]. rewrite Hid. split; [done|]. split; [done|].
          split; [|split; [cbn [mu length]; lia|split; [done|left; done]]].
          split; [done|]. split; [lia|]. destruct Hcase as [?|Hseed]; [by left|right].
          apply Exists_cons in Hseed as [E|?]; done.
  Qed.
  Lemma one_possible A c f a pc : reached cwd dir dl A c f -> A !! h = Some a -> tok f t a0 a old ->
    knows (t_has t) (t_K t) a pc -> t_alive own t -> exists resps dg, t_net own t pc resps dg.
  Proof.
    intros H Ha [Hp Hc Hn Hw Hh] Hk Hal.
    destruct Hfits as (Hcs & _ & Hcount & Hmax & _). pose proof (reached_synced _ _ _ _ _ _ H) as (_ & Hs & _).
    pose proof (synced_facts _ _ _ _ _ Hs Ha) as [Hch _].
    destruct pc as [| |i|i [|r hs]|]; unfold t_net; cbn [swarm]; try (exists [], None; done).
    - cbn [knows] in Hk. destruct (Hal i) as (hs0 & HR & Hseed & Hgood); [nia|].
      exists hs0, None, hs0. split; [apply selected_good; done|done].
    - destruct Hk as (Hi & _).
      destruct (delivered_exists (t_content t) (t_cs t) (N.to_nat i)) as (ds & Hds); [lia|lia| |].
      { apply chunk_nonempty; [done|]. lia. }
      exists [], (Some ds), ds. split; [done|]. left. done.
  Qed.
End one_loop.

(** ** All loops *)
Lemma dir_parent c f A p : synced c f A -> clean_abs p -> can_write f p -> parent p <> c_dir c -> parent (parent p) <> c_dir c.
Proof. intros Hs Hp [Hw1 _] Hne. apply (sy_dir_outside c f A (parent p)); try done. apply parent_clean. done. Qed.

Section all_loops.
  Context (cwd dir dl : path) (own : list byte) (T : targets) (A0 : astate) (f0 : fs).
  Context (Hset : well_set dir A0 f0 T).

  Definition old_of (a0 : aentry) : list byte := default [] (file_at f0 (a_path a0)).
  Definition mu_in (A : astate) (x : list byte * lpc) : nat :=
    match T !! x.1, A !! x.1 with Some t, Some a => mu (t_K t) a x.2 | _, _ => 0 end.
  Record minv (A : astate) (b : mworld) : Prop := {
    mi_reached : reached cwd dir dl A (m_cat b) (m_fs b);
    mi_active : m_active b = ∅;
    mi_tok : forall h t a0, T !! h = Some t -> A0 !! h = Some a0 ->
      exists a, A !! h = Some a /\ tok (m_fs b) t a0 a (old_of a0);
    mi_loops : forall j h pc, m_loops b !! j = Some (h, pc) ->
      exists t a, T !! h = Some t /\ A !! h = Some a /\ knows (t_has t) (t_K t) a pc }.
  Definition total (A : astate) (b : mworld) : nat := sum_list_with (mu_in A) (m_loops b).

  Lemma sum_le {X} (g g' : X -> nat) l : (forall x, x ∈ l -> g x <= g' x) -> sum_list_with g l <= sum_list_with g' l.
  Proof.
    induction l as [|x l IH]; intros H; cbn [sum_list_with]; [lia|].
    pose proof (H x ltac:(set_solver)). pose proof (IH ltac:(intros; apply H; set_solver)). lia.
  Qed.
  Lemma sum_insert {X} (g g' : X -> nat) l j x y : l !! j = Some x -> (forall z, z ∈ l -> g' z <= g z) -> g' y < g x ->
    sum_list_with g' (<[j := y]> l) < sum_list_with g l.
  Proof.
    revert j. induction l as [|z l IH]; intros [|j] Hj Hle Hlt; [done|done|..].
    - change (<[0 := y]> (z :: l)) with (y :: l). cbn [sum_list_with]. cbn in Hj. simplify_eq. pose proof (sum_le g' g l ltac:(intros; apply Hle; set_solver)). lia.
    - change (<[S j := y]> (z :: l)) with (z :: <[j := y]> l). cbn [sum_list_with]. cbn in Hj. pose proof (IH j Hj ltac:(intros; apply Hle; set_solver) Hlt). pose proof (Hle z ltac:(set_solver)). lia.
  Qed.

  (** the invariant of a target is about its own place only *)
  Lemma tok_same f f' t a0 a old : tok f t a0 a old -> f' !! a_path a0 = f !! a_path a0 ->
    f' !! parent (a_path a0) = f !! parent (a_path a0) -> tok f' t a0 a old.
  Proof.
    intros [H1 H2 H3 H4 H5] E1 E2. split; [done|done|done| |].
    - unfold can_write. rewrite E1, E2. done.
    - unfold file_at. rewrite E1. exact H5.
  Qed.
  Lemma entry_of h t : T !! h = Some t -> exists a0, A0 !! h = Some a0 /\ fits dir f0 t a0.
  Proof. intros Ht. apply Hset. done. Qed.
  Lemma tok_clean A c f h a t a0 old : reached cwd dir dl A c f -> A !! h = Some a -> tok f t a0 a old ->
    parent (a_path a0) <> dir -> parent (parent (a_path a0)) <> dir.
  Proof.
    intros H Ha Htok Hne. pose proof (reached_synced _ _ _ _ _ _ H) as (_ & Hs & <- & _).
    rewrite <- (tk_path _ _ _ _ _ Htok) in Hne. rewrite <- (tk_path _ _ _ _ _ Htok). apply (dir_parent c f A); [done|eapply synced_entry_clean; done| |done].
    rewrite (tk_path _ _ _ _ _ Htok). apply Htok.
  Qed.

  Definition put (b : mworld) (j : nat) (h : list byte) (d : lworld) : mworld :=
    mkM (l_cat d) (l_fs d) (l_active d) (<[j := (h, l_pc d)]> (m_loops b)).
  Lemma minv_loop A b j h pc t resps dg : minv A b -> m_loops b !! j = Some (h, pc) -> T !! h = Some t -> pc <> LDone ->
    t_net own t pc resps dg ->
    (pc = LMissing /\ (exists a, A !! h = Some a /\ todo a = [])
     /\ lstep own h resps dg (mkL pc (m_cat b) (m_fs b) (m_active b)) = None)
    \/ exists d out A', lstep own h resps dg (mkL pc (m_cat b) (m_fs b) (m_active b)) = Some (d, out)
         /\ minv A' (put b j h d) /\ total A' (put b j h d) < total A b
         /\ (l_pc d = LMissing -> exists a', A' !! h = Some a' /\ todo a' <> [])
         /\ (forall h', h' <> h -> A' !! h' = A !! h').
  Proof.
    intros [Hre Hact Htok Hloops] Hj Ht Hnd Hnet. destruct (entry_of h t Ht) as (a0 & Ha0 & Hfits).
    destruct (Htok h t a0 Ht Ha0) as (a & Ha & Hok).
    destruct (Hloops j h pc Hj) as (t' & a' & Ht' & Ha' & Hk). simplify_eq. rewrite Hact.
    destruct (one_step cwd dir dl own h t a0 _ f0 Hfits A _ _ a pc resps dg Hre Ha Hok Hk Hnd Hnet)
      as [(-> & E & Hst)|(pc' & c' & f' & a' & out & Hst & Hre' & Hok' & Hk' & Hmu & Hmis & Hch)].
    - left. split; [done|]. split; [exists a; done|done].
    - right. eexists _, _, (<[h := a']> A). split; [exact Hst|]. 
      assert (forall h' a'', (<[h := a']> A) !! h' = Some a'' -> exists a', A !! h' = Some a' /\
        (a'' = a' \/ exists i, (Z.of_N i < a_count a')%Z /\ a'' = hold a' i)) as Hold.
      { intros h' a''. destruct (decide (h' = h)) as [->|Hne].
        - rewrite lookup_insert. intros [= <-]. exists a. split; [done|].
          destruct Hch as [[-> _]|(i & new & Hi & -> & _)]; [by left|right; exists i; done].
        - rewrite lookup_insert_ne by done. intros E. exists a''. split; [done|by left]. }
      assert (forall h' pc1 t1 a1, T !! h' = Some t1 -> A !! h' = Some a1 -> knows (t_has t1) (t_K t1) a1 pc1 ->
        exists a2, (<[h := a']> A) !! h' = Some a2 /\ knows (t_has t1) (t_K t1) a2 pc1 /\ mu (t_K t1) a2 pc1 <= mu (t_K t1) a1 pc1) as Hkeep.
      { intros h' pc1 t1 a1 Ht1 Ha1 Hk1. destruct (decide (h' = h)) as [->|Hne].
        - rewrite lookup_insert. simplify_eq. exists a'. split; [done|].
          destruct Hch as [[-> _]|(i & new & Hi & -> & _)]; [split; [done|lia]|].
          split; [apply knows_hold; done|eapply mu_hold; done].
        - rewrite lookup_insert_ne by done. exists a1. split; [done|]. split; [done|lia]. }
      split; [|split; [|split]].
      + split; cbn [put m_cat m_fs m_active m_loops l_cat l_fs l_active l_pc].
        * exact Hre'.
        * done.
        * intros h1 t1 a01 Ht1 Ha01. destruct (decide (h1 = h)) as [->|Hne].
          { simplify_eq. exists a'. rewrite lookup_insert. done. }
          rewrite lookup_insert_ne by done. destruct (Htok h1 t1 a01 Ht1 Ha01) as (a1 & Ha1 & Hok1).
          exists a1. split; [done|]. destruct Hch as [[_ ->]|(i & new & _ & _ & Hsu)]; [done|].
          destruct (entry_of h1 t1 Ht1) as (a02 & E & Hfits1). simplify_eq.
          destruct Hfits as (_ & _ & _ & _ & _ & Hpar & _). destruct Hfits1 as (_ & _ & _ & _ & _ & Hpar1 & _).
          assert (a_path a01 <> a_path a0) as Hpne.
          { apply (proj2 Hset h1 h t1 t a01 a0); done. }
          apply (tok_same (m_fs b)); [done| |].
          -- rewrite Hsu by done. rewrite lookup_insert_ne by done. done.
          -- rewrite Hsu; [|eapply tok_clean; [exact Hre|exact Ha1|exact Hok1|done]]. apply lookup_insert_ne.
             intros E. pose proof (tk_write _ _ _ _ _ Hok) as [_ Hw2]. pose proof (tk_write _ _ _ _ _ Hok1) as [Hw1 _].
             apply Hw2. rewrite E. done.
        * intros j1 h1 pc1 Hj1. destruct (decide (j1 = j)) as [->|Hne].
          { rewrite list_lookup_insert in Hj1 by (eapply lookup_lt_Some; done). simplify_eq.
            exists t, a'. rewrite lookup_insert. done. }
          rewrite list_lookup_insert_ne in Hj1 by done. destruct (Hloops j1 h1 pc1 Hj1) as (t1 & a1 & Ht1 & Ha1 & Hk1).
          destruct (Hkeep h1 pc1 t1 a1 Ht1 Ha1 Hk1) as (a2 & Ha2 & Hk2 & _). exists t1, a2. done.
      + unfold total. cbn [put m_loops l_pc]. eapply sum_insert; [exact Hj| |].
        * intros [h1 pc1] Hin. apply elem_of_list_lookup in Hin as (j1 & Hj1).
          destruct (Hloops j1 h1 pc1 Hj1) as (t1 & a1 & Ht1 & Ha1 & Hk1).
          destruct (Hkeep h1 pc1 t1 a1 Ht1 Ha1 Hk1) as (a2 & Ha2 & _ & Hle).
          unfold mu_in. cbn [fst snd]. rewrite Ht1, Ha1, Ha2. exact Hle.
        * unfold mu_in. cbn [fst snd]. rewrite Ht, Ha, lookup_insert. exact Hmu.
      + cbn [l_pc]. intros E. exists a'. rewrite lookup_insert. split; [done|]. apply Hmis. done.
      + intros h' Hne. apply lookup_insert_ne. done.
  Qed.
  Lemma minv_call A b q c' f' ans : minv A b -> allowed cwd dir dl A (m_fs b) q -> harmless T q ->
    crun cwd (m_cat b) (m_fs b) q = Some (c', f', ans) ->
    exists A', minv A' (mkM c' f' (m_active b) (m_loops b)) /\ (forall h t, T !! h = Some t -> A' !! h = A !! h).
  Proof.
    intros [Hre Hact Htok Hloops] Hal Hq Hr.
    destruct (reached_call _ _ _ _ _ _ _ Hre Hal) as (c2 & f2 & A' & ans2 & Hr2 & Hsp & Hre2). rewrite Hr in Hr2. simplify_eq.
    exists A'. assert (same_user dir (m_fs b) f2 /\ forall h t, T !! h = Some t -> A' !! h = A !! h) as [Hsu HT].
    { assert (forall h t a0, T !! h = Some t -> A0 !! h = Some a0 -> A !! h <> None) as Hin.
      { intros h t a0 Ht Ha0. destruct (Htok h t a0 Ht Ha0) as (a & Ha & _). congruence. }
      assert (forall h x, A !! h = None -> forall h1 t1, T !! h1 = Some t1 -> <[h := x]> A !! h1 = A !! h1) as Hins.
      { intros h x Hn h1 t1 Ht1. apply lookup_insert_ne. intros ->. destruct (entry_of h1 t1 Ht1) as (a0 & Ha0 & _).
        exact (Hin h1 t1 a0 Ht1 Ha0 Hn). }
      destruct q as [p|size count chunk h name|h|h i data|order|h|h|fuel h i|h|pid now]; cbn [harmless] in Hq; cbn [aspec] in Hsp; try done.
      - destruct Hsp as [Hsu Hsp]. split; [done|].
        destruct (file_at (m_fs b) (abs cwd p)) as [l|]; [|destruct Hsp as [-> _]; done].
        destruct (A !! sha1 l) eqn:E; destruct Hsp as [-> _]; [done|]. apply Hins. exact E.
      - destruct Hsp as [Hsu Hsp]. split; [done|]. destruct (A !! h) eqn:E; destruct Hsp as [-> _]; [done|]. apply Hins. exact E.
      - destruct Hsp as (Hsu & -> & _). split; [done|]. intros h1 t1 Ht1. apply lookup_delete_ne. intros ->. congruence.
      - destruct Hsp as (Hsu & -> & _). done.
      - destruct Hsp as (Hsu & -> & _). done.
      - destruct Hsp as (Hsu & -> & _). done.
      - destruct Hsp as (Hsu & -> & _). done.
      - destruct Hsp as (Hsu & -> & _). done. }
    split; [|exact HT]. split; cbn [m_cat m_fs m_active m_loops]; [done|done| |].
    - intros h t a0 Ht Ha0. destruct (Htok h t a0 Ht Ha0) as (a & Ha & Hok). exists a. rewrite (HT h t Ht). split; [done|].
      destruct (entry_of h t Ht) as (a02 & E & Hfits). simplify_eq. destruct Hfits as (_ & _ & _ & _ & _ & Hpar & _).
      apply (tok_same (m_fs b)); [done|apply Hsu; done|]. apply Hsu. eapply tok_clean; [exact Hre|exact Ha|exact Hok|exact Hpar].
    - intros j h pc Hj. destruct (Hloops j h pc Hj) as (t & a & Ht & Ha & Hk). exists t, a. rewrite (HT h t Ht). done.
  Qed.
  Lemma minv_outside A b f' : minv A b -> f' !! dir = m_fs b !! dir -> (forall p, parent p = dir -> f' !! p = m_fs b !! p) ->
    (forall h t a, T !! h = Some t -> A !! h = Some a ->
       f' !! a_path a = m_fs b !! a_path a /\ f' !! parent (a_path a) = m_fs b !! parent (a_path a)) ->
    minv A (mkM (m_cat b) f' (m_active b) (m_loops b)).
  Proof.
    intros [Hre Hact Htok Hloops] Hd Hc Hp. split; cbn [m_cat m_fs m_active m_loops]; [eapply re_outside; done|done| |done].
    intros h t a0 Ht Ha0. destruct (Htok h t a0 Ht Ha0) as (a & Ha & Hok). exists a. split; [done|].
    destruct (Hp h t a Ht Ha) as [E1 E2]. rewrite (tk_path _ _ _ _ _ Hok) in E1, E2. apply (tok_same (m_fs b)); done.
  Qed.
  Lemma minv_unique A1 A2 b : minv A1 b -> reached cwd dir dl A2 (m_cat b) (m_fs b) -> A2 = A1.
  Proof.
    intros H1 H2. pose proof (reached_synced _ _ _ _ _ _ (mi_reached _ _ H1)) as (_ & S1 & _).
    pose proof (reached_synced _ _ _ _ _ _ H2) as (_ & S2 & _). eapply synced_unique; done.
  Qed.
  Lemma total_same A A' b b' : m_loops b' = m_loops b -> (forall h t, T !! h = Some t -> A' !! h = A !! h) -> total A' b' = total A b.
  Proof.
    intros E H. unfold total. rewrite E. clear E. induction (m_loops b) as [|[h pc] l IH]; [done|]. cbn [sum_list_with]. f_equal; [|done].
    unfold mu_in. cbn [fst snd]. destruct (T !! h) as [t|] eqn:Ht; [|done]. rewrite (H h t Ht). done.
  Qed.
  (** no loop will look for missing chunks of a file that is there *)
  Definition ready (A : astate) (b : mworld) : Prop :=
    NoDup (map fst (m_loops b)) /\ forall j h a, m_loops b !! j = Some (h, LMissing) -> A !! h = Some a -> todo a <> [].
  Lemma loops_alone (l : list (list byte * lpc)) j1 j2 h pc1 pc2 : NoDup (map fst l) ->
    l !! j1 = Some (h, pc1) -> l !! j2 = Some (h, pc2) -> j1 = j2.
  Proof.
    intros Hnd H1 H2. apply (NoDup_lookup (fst <$> l) j1 j2 h Hnd); rewrite list_lookup_fmap; [rewrite H1|rewrite H2]; done.
  Qed.
  Lemma ready_put A A' b j h pc d : ready A b -> m_loops b !! j = Some (h, pc) ->
    (l_pc d = LMissing -> exists a', A' !! h = Some a' /\ todo a' <> []) -> (forall h', h' <> h -> A' !! h' = A !! h') ->
    ready A' (put b j h d).
  Proof.
    intros [Hnd Hr] Hj Hm Ho. cbn [put]. split; cbn [put m_loops].
    - replace (map fst (<[j := (h, l_pc d)]> (m_loops b))) with (map fst (m_loops b)); [done|].
      change (fst <$> m_loops b = fst <$> <[j := (h, l_pc d)]> (m_loops b)). apply list_eq. intros k. rewrite !list_lookup_fmap. destruct (decide (k = j)) as [->|Hne].
      + rewrite list_lookup_insert by (eapply lookup_lt_Some; done). rewrite Hj. done.
      + rewrite list_lookup_insert_ne by done. done.
    - intros j1 h1 a1 Hj1 Ha1. destruct (decide (j1 = j)) as [->|Hne].
      + rewrite list_lookup_insert in Hj1 by (eapply lookup_lt_Some; done). simplify_eq.
        destruct Hm as (a' & E & ?); [done|]. congruence.
      + rewrite list_lookup_insert_ne in Hj1 by done. apply (Hr j1 h1); [done|].
        rewrite <- Ho; [done|]. intros ->. apply Hne. eapply loops_alone; done.
  Qed.
  Lemma ready_same A A' b b' : m_loops b' = m_loops b -> minv A b -> (forall h t, T !! h = Some t -> A' !! h = A !! h) ->
    ready A b -> ready A' b'.
  Proof.
    intros E Hm H [Hnd Hr]. split; rewrite E; [done|]. intros j h a Hj Ha.
    destruct (mi_loops _ _ Hm j h _ Hj) as (t & a1 & Ht & Ha1 & _). rewrite (H h t Ht) in Ha. exact (Hr j h a Hj Ha).
  Qed.

  (** along an execution *)
  Lemma mexec_inv a n b A : mexec cwd dir dl own T a n b -> minv A a ->
    exists A', minv A' b /\ n + total A' b <= total A a /\ (ready A a -> ready A' b).
  Proof.
    induction 1 as [a|a n b j h pc t resps dg d out H IH Hj Ht Hnd Hnet Hst|a n b A1 q c' f' ans H IH Hre Hal Hq Hr|a n b A1 f' H IH Hre Hd Hc Hp];
      intros Ha.
    - exists A. split; [done|]. split; [lia|done].
    - destruct (IH Ha) as (A' & Hb & Hle & Hrd).
      destruct (minv_loop A' b j h pc t resps dg Hb Hj Ht Hnd Hnet) as [(_ & _ & E)|(d' & out' & A2 & E & Hb2 & Hlt & Hm & Ho)]; [congruence|].
      rewrite Hst in E. simplify_eq. exists A2. split; [exact Hb2|]. split; [unfold put in Hlt; lia|].
      intros Hr. eapply (ready_put A'); [apply Hrd; done|exact Hj|done|done].
    - destruct (IH Ha) as (A' & Hb & Hle & Hrd). pose proof (minv_unique _ _ _ Hb Hre) as ->.
      destruct (minv_call A' b q c' f' ans Hb Hal Hq Hr) as (A2 & Hb2 & HT). exists A2. split; [done|].
      split; [rewrite (total_same A' A2 b); done|]. intros Hr0. eapply (ready_same A' A2 b); [done|done|done|auto].
    - destruct (IH Ha) as (A' & Hb & Hle & Hrd). pose proof (minv_unique _ _ _ Hb Hre) as ->.
      exists A'. split; [apply minv_outside; done|]. split; [rewrite (total_same A' A' b); done|].
      intros Hr0. eapply (ready_same A' A' b); [done|done|done|auto].
  Qed.
  Lemma minv_start c hs : reached cwd dir dl A0 c f0 -> (forall h, h ∈ hs -> is_Some (T !! h)) ->
    minv A0 (mkM c f0 ∅ (starting hs)).
  Proof.
    intros H Hhs. split; cbn [m_cat m_fs m_active m_loops]; [done|done| |].
    - intros h t a0 Ht Ha0. exists a0. split; [done|]. destruct (entry_of h t Ht) as (a02 & E & Hfits). simplify_eq.
      destruct Hfits as (Hcs & Hch & Hn & Hmax & Hw & Hpar & Hr & _). split; done.
    - intros j h pc Hj. unfold starting in Hj. rewrite list_lookup_fmap in Hj. destruct (hs !! j) as [h1|] eqn:E; [|done].
      cbn in Hj. simplify_eq. destruct (Hhs h) as [t Ht]; [eapply elem_of_list_lookup_2; done|].
      destruct (entry_of h t Ht) as (a0 & Ha0 & _). exists t, a0. done.
  Qed.
  Lemma total_start c hs : total A0 (mkM c f0 ∅ (starting hs)) = sum_list_with (steps_for T A0) hs.
  Proof. unfold total, starting. cbn [m_loops]. induction hs as [|h hs IH]; [done|]. cbn [map sum_list_with]. rewrite IH. done. Qed.
  Lemma ready_start c hs : NoDup hs -> ready A0 (mkM c f0 ∅ (starting hs)).
  Proof.
    intros H. split; cbn [m_loops]; unfold starting.
    - rewrite map_map. cbn. rewrite map_id. done.
    - intros j h a Hj. rewrite list_lookup_fmap in Hj. destruct (hs !! j); cbn in Hj; simplify_eq.
  Qed.
  Lemma tok_done f t a0 a old : fits dir f0 t a0 -> tok f t a0 a old -> (0 <= a_count a)%Z -> todo a = [] ->
    default [] (file_at f (a_path a0)) = t_content t ++ drop (length (t_content t)) old.
  Proof.
    intros (Hcs & _ & Hn & _) [_ _ Hn2 _ Hh] Hpos Ht. eapply holds_all; [done| |exact Hh].
    intros i Hi. cbn beta. apply todo_nil in Ht; [|done]. apply Ht, elem_of_all_below. lia.
  Qed.
  Lemma minv_done A b h t a0 : minv A b -> T !! h = Some t -> A0 !! h = Some a0 ->
    (exists a, A !! h = Some a /\ todo a = []) ->
    default [] (file_at (m_fs b) (a_path a0)) = t_content t ++ drop (length (t_content t)) (old_of a0).
  Proof.
    intros Hb Ht Ha0 (a & Ha & Hn). destruct (mi_tok _ _ Hb h t a0 Ht Ha0) as (a' & E & Hok). simplify_eq.
    destruct (entry_of h t Ht) as (a02 & E & Hfits). simplify_eq. eapply tok_done; [done|exact Hok| |done].
    pose proof (reached_synced _ _ _ _ _ _ (mi_reached _ _ Hb)) as (_ & Hs & _). apply (synced_facts _ _ _ _ _ Hs Ha).
  Qed.
  Lemma minv_completes A b : (forall h t, T !! h = Some t -> t_alive own t) -> minv A b -> ready A b ->
    exists n b', mexec cwd dir dl own T b n b' /\ Forall (fun x => x.2 = LDone) (m_loops b').
  Proof.
    intros Hal Hb Hr.
    assert (forall m, (exists n b', mexec cwd dir dl own T b n b' /\ Forall (fun x => x.2 = LDone) (m_loops b'))
      \/ exists b', mexec cwd dir dl own T b m b') as H.
    { induction m as [|m [IH|(b' & IH)]]; [right; exists b; constructor|by left|].
      assert (Forall (fun x => x.2 = LDone) (m_loops b') \/ Exists (fun x => x.2 <> LDone) (m_loops b')) as [Hd|Hd].
      { clear. induction (m_loops b') as [|[h pc] l [IH|IH]]; [left; constructor| |right; apply Exists_cons_tl; done].
        destruct pc; [right; apply Exists_cons_hd; done..|left; constructor; done]. }
      { left. exists m, b'. done. }
      destruct (mexec_inv _ _ _ _ IH Hb) as (A' & Hb' & _ & Hr'). specialize (Hr' Hr).
      apply Exists_exists in Hd as ([h pc] & Hin & Hnd). cbn [snd] in Hnd. apply elem_of_list_lookup in Hin as (j & Hj).
      destruct (mi_loops _ _ Hb' j h pc Hj) as (t & a & Ht & Ha & Hk). destruct (entry_of h t Ht) as (a0 & Ha0 & Hfits).
      destruct (mi_tok _ _ Hb' h t a0 Ht Ha0) as (a1 & E & Hok). rewrite Ha in E. injection E as <-.
      destruct (one_possible cwd dir dl own h t a0 _ f0 Hfits A' _ _ a pc (mi_reached _ _ Hb') Ha Hok Hk (Hal h t Ht)) as (resps & dg & Hnet).
      destruct (minv_loop A' b' j h pc t resps dg Hb' Hj Ht Hnd Hnet) as [(-> & (a2 & E & Hn) & _)|(d & out & A2 & Hst & _)].
      { destruct Hr' as [_ Hr']. exfalso. exact (Hr' j h a2 Hj E Hn). }
      right. eexists. eapply me_loop; done. }
    destruct (H (total A b + 1)) as [?|(b' & Hb')]; [done|].
    destruct (mexec_inv _ _ _ _ Hb' Hb) as (A' & _ & Hle & _). lia.
  Qed.
End all_loops.

Lemma mexec_reached cwd dir dl own T A c f hs n b : reached cwd dir dl A c f -> well_set dir A f T ->
  (forall h, h ∈ hs -> is_Some (T !! h)) -> mexec cwd dir dl own T (mkM c f ∅ (starting hs)) n b ->
  exists A', minv cwd dir dl T A f A' b /\ n + total T A' b <= sum_list_with (steps_for T A) hs
    /\ (NoDup hs -> ready A' b).
Proof.
  intros H Hset Hhs Hex. pose proof (minv_start cwd dir dl T A f Hset c hs H Hhs) as H0.
  destruct (mexec_inv cwd dir dl own T A f Hset _ _ _ _ Hex H0) as (A' & Hb & Hle & Hr).
  exists A'. split; [done|]. split; [rewrite <- (total_start T A f c); done|].
  intros Hnd. apply Hr. apply ready_start. done.
Qed.

(** *** C109 *)
Lemma C109_lemma cwd dir dl own T A c f hs n b : reached cwd dir dl A c f -> well_set dir A f T ->
  (forall h, h ∈ hs -> is_Some (T !! h)) -> mexec cwd dir dl own T (mkM c f ∅ (starting hs)) n b ->
  n <= sum_list_with (steps_for T A) hs
  /\ (exists A', reached cwd dir dl A' (m_cat b) (m_fs b))
  /\ (forall j h t a, m_loops b !! j = Some (h, LDone) -> T !! h = Some t -> A !! h = Some a ->
        default [] (file_at (m_fs b) (a_path a))
          = t_content t ++ drop (length (t_content t)) (default [] (file_at f (a_path a))))
  /\ (forall j h pc t resps dg, m_loops b !! j = Some (h, pc) -> T !! h = Some t -> pc <> LDone -> t_net own t pc resps dg ->
        lstep own h resps dg (mkL pc (m_cat b) (m_fs b) (m_active b)) = None ->
        pc = LMissing /\ ~ NoDup hs /\ forall a, A !! h = Some a ->
          default [] (file_at (m_fs b) (a_path a))
            = t_content t ++ drop (length (t_content t)) (default [] (file_at f (a_path a)))).
Proof.
  intros H Hset Hhs Hex. destruct (mexec_reached _ _ _ _ _ _ _ _ _ _ _ H Hset Hhs Hex) as (A' & Hb & Hle & Hr).
  split; [lia|]. split; [exists A'; apply Hb|]. split.
  - intros j h t a Hj Ht Ha. eapply (minv_done cwd dir dl T A f Hset A' b h t a); [done..|].
    destruct (mi_loops _ _ _ _ _ _ _ _ Hb j h _ Hj) as (t' & a' & Ht' & Ha' & Hk). exists a'. done.
  - intros j h pc t resps dg Hj Ht Hnd Hnet Hst.
    destruct (minv_loop cwd dir dl own T A f Hset A' b j h pc t resps dg Hb Hj Ht Hnd Hnet) as [(-> & Hn & _)|(d & out & A2 & E & _)]; [|congruence].
    split; [done|]. split.
    + intros Hd. destruct (Hr Hd) as [_ Hr2]. destruct Hn as (a & Ha & Hn). exact (Hr2 j h a Hj Ha Hn).
    + intros a Ha. eapply (minv_done cwd dir dl T A f Hset A' b h t a); done.
Qed.
Lemma C109_finish_lemma cwd dir dl own T A c f hs n b : reached cwd dir dl A c f -> well_set dir A f T ->
  (forall h, h ∈ hs -> is_Some (T !! h)) -> NoDup hs -> (forall h t, T !! h = Some t -> t_alive own t) ->
  mexec cwd dir dl own T (mkM c f ∅ (starting hs)) n b ->
  exists m b', mexec cwd dir dl own T b m b' /\ Forall (fun x => x.2 = LDone) (m_loops b').
Proof.
  intros H Hset Hhs Hnd Hal Hex. destruct (mexec_reached _ _ _ _ _ _ _ _ _ _ _ H Hset Hhs Hex) as (A' & Hb & _ & Hr).
  eapply (minv_completes cwd dir dl own T A f Hset A' b); [done|done|auto].
Qed.
