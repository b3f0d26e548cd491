(** Facts about clean absolute paths. *)
From Verif Require Export Path.
From Coq Require Import ZifyBool ZifyNat ZifyN.
Ltac Zify.zify_post_hook ::= Z.div_mod_to_equations.

(** an ordinary file name: non-empty, no '/', neither "." nor ".." *)
Definition normal (c : list byte) : Prop := c <> [] /\ c <> dot /\ c <> dotdot /\ slash ∉ c.
(** the clean absolute path with the given components *)
Definition render (cs : list (list byte)) : path := slash :: join_slash cs.
(** a clean absolute path *)
Definition clean_abs (p : path) : Prop := exists cs, Forall normal cs /\ p = render cs.

Lemma split_no_slash c : slash ∉ c -> split_slash c = [c].
Proof.
  induction c as [|b c IH]; [done|]. intros H. cbn [split_slash].
  rewrite decide_False by set_solver. rewrite IH by set_solver. done.
Qed.
Lemma split_app_slash c p : slash ∉ c -> split_slash (c ++ slash :: p) = c :: split_slash p.
Proof.
  induction c as [|b c IH]; intros H.
  - cbn [app split_slash]. rewrite decide_True by done. done.
  - cbn [app split_slash]. rewrite decide_False by set_solver. rewrite IH by set_solver. done.
Qed.
Lemma split_join cs : cs <> [] -> Forall (fun c => slash ∉ c) cs -> split_slash (join_slash cs) = cs.
Proof.
  induction cs as [|c cs IH]; [done|]. intros _ H. inversion H as [|? ? H1 H2]; subst.
  destruct cs as [|c' cs'].
  - apply split_no_slash. done.
  - change (join_slash (c :: c' :: cs')) with (c ++ slash :: join_slash (c' :: cs')).
    rewrite split_app_slash by done. rewrite IH by done. done.
Qed.
Lemma split_no_slash_in p : Forall (fun c => slash ∉ c) (split_slash p).
Proof.
  induction p as [|b p IH]; cbn [split_slash].
  - constructor; [set_solver|constructor].
  - destruct (decide (b = slash)); [constructor; [set_solver|done]|].
    destruct (split_slash p) as [|w ws]; [constructor; [set_solver|done]|].
    inversion IH; subst. constructor; [set_solver|done].
Qed.
Lemma split_nonempty p : split_slash p <> [].
Proof. destruct p as [|b p]; [done|]. cbn [split_slash]. case_decide; [done|]. destruct (split_slash p); done. Qed.
Lemma join_split p : join_slash (split_slash p) = p.
Proof.
  induction p as [|b p IH]; [done|]. cbn [split_slash]. pose proof (split_nonempty p) as Hn.
  destruct (decide (b = slash)) as [->|Hb].
  - destruct (split_slash p) as [|w ws] eqn:E; [done|].
    change (join_slash ([] :: w :: ws)) with (slash :: join_slash (w :: ws)). rewrite IH. done.
  - destruct (split_slash p) as [|w ws] eqn:E; [done|].
    destruct ws as [|w' ws']; cbn [join_slash] in *; rewrite <- IH; done.
Qed.
Lemma normal_no_slash cs : Forall normal cs -> Forall (fun c => slash ∉ c) cs.
Proof. intros H. eapply Forall_impl; [exact H|]. intros c (_&_&_&?). done. Qed.

Lemma split_render cs : Forall normal cs ->
  split_slash (render cs) = [] :: (if decide (cs = []) then [[]] else cs).
Proof.
  intros H. unfold render. cbn [split_slash]. rewrite decide_True by done. f_equal.
  destruct (decide (cs = [])) as [->|Hn]; [done|]. apply split_join; [done|]. apply normal_no_slash; done.
Qed.

Lemma clean_stack_app r stk a b : clean_stack r stk (a ++ b) = clean_stack r (clean_stack r stk a) b.
Proof.
  revert stk; induction a as [|c a IH]; intros stk; [done|]. cbn [app clean_stack].
  repeat case_decide; try apply IH. destruct stk; [apply IH|]. case_decide; apply IH.
Qed.
Lemma clean_stack_normal r stk cs : Forall normal cs -> clean_stack r stk cs = rev cs ++ stk.
Proof.
  revert stk; induction cs as [|c cs IH]; intros stk H; [done|].
  inversion H as [|? ? (H1&H2&H3&H4) H5]; subst. cbn [clean_stack rev].
  rewrite decide_False by naive_solver. rewrite decide_False by done.
  rewrite IH by done. rewrite <- app_assoc. done.
Qed.
Lemma clean_stack_rooted_normal stk cs : Forall normal stk -> Forall (fun c => slash ∉ c) cs ->
  Forall normal (clean_stack true stk cs).
Proof.
  revert stk; induction cs as [|c cs IH]; intros stk Hs Hc; [done|].
  inversion Hc as [|? ? H1 H2]; subst. cbn [clean_stack].
  case_decide as E1; [apply IH; done|]. case_decide as E2.
  - destruct stk as [|top stk']; [apply IH; done|]. inversion Hs as [|? ? Ht Hs']; subst.
    rewrite decide_False by (destruct Ht as (_&_&?&_); done). apply IH; done.
  - apply IH; [|done]. constructor; [|done]. split; [naive_solver|]. split; [naive_solver|]. done.
Qed.
Lemma clean_render cs : Forall normal cs -> clean (render cs) = render cs.
Proof.
  intros H. unfold clean. change (is_rooted (render cs)) with true. cbn iota.
  rewrite split_render by done. unfold render. f_equal.
  cbn [clean_stack]. rewrite decide_True by auto.
  destruct (decide (cs = [])) as [->|Hn].
  - cbn [clean_stack]. rewrite decide_True by auto. done.
  - rewrite clean_stack_normal, app_nil_r, rev_involutive by done. done.
Qed.
Lemma clean_rooted p : is_rooted p = true -> clean_abs (clean p).
Proof.
  intros H. unfold clean. rewrite H. unfold clean_abs.
  exists (rev (clean_stack true [] (split_slash p))). split; [|done].
  apply Forall_rev. apply clean_stack_rooted_normal; [done|apply split_no_slash_in].
Qed.
Lemma clean_abs_clean p : clean_abs p -> clean p = p.
Proof. intros (cs & Hcs & ->). apply clean_render; done. Qed.
Lemma clean_abs_rooted p : clean_abs p -> is_rooted p = true.
Proof. intros (cs & _ & ->). reflexivity. Qed.
Lemma clean_abs_ne p : clean_abs p -> p <> [].
Proof. intros (cs & _ & ->). done. Qed.
Lemma join1_clean p : clean_abs p -> join1 p = p.
Proof. intros H. unfold join1. rewrite decide_False by (apply clean_abs_ne; done). apply clean_abs_clean; done. Qed.

Lemma join2_rooted a b : is_rooted a = true -> clean_abs (join2 a b).
Proof.
  intros H. unfold join2. rewrite decide_False by (destruct a; done).
  case_decide; apply clean_rooted; [done|]. destruct a as [|x a]; done.
Qed.
Lemma abs_clean cwd p : is_rooted cwd = true -> clean_abs (abs cwd p).
Proof.
  intros H. unfold abs. destruct (is_rooted p) eqn:E; [apply clean_rooted; done|apply join2_rooted; done].
Qed.
Lemma abs_id cwd p : clean_abs p -> abs cwd p = p.
Proof. intros H. unfold abs. rewrite clean_abs_rooted by done. apply clean_abs_clean; done. Qed.

(** joining an ordinary name to a clean absolute directory *)
Lemma split_join_app cs b : cs <> [] -> Forall (fun c => slash ∉ c) cs ->
  split_slash (join_slash cs ++ slash :: b) = cs ++ split_slash b.
Proof.
  induction cs as [|c cs IH]; [done|]. intros _ H. inversion H as [|? ? H1 H2]; subst.
  destruct cs as [|c' cs'].
  - cbn [join_slash]. rewrite split_app_slash by done. done.
  - change (join_slash (c :: c' :: cs')) with (c ++ slash :: join_slash (c' :: cs')).
    rewrite <- app_assoc. cbn [app]. rewrite split_app_slash by done. rewrite IH by done. done.
Qed.
Lemma split_render_join cs b : Forall normal cs ->
  split_slash (render cs ++ slash :: b) = [] :: (if decide (cs = []) then [[]] else cs) ++ split_slash b.
Proof.
  intros H. unfold render. cbn [app split_slash]. rewrite decide_True by done. f_equal.
  destruct (decide (cs = [])) as [->|Hn].
  - cbn [join_slash app split_slash]. rewrite decide_True by done. done.
  - apply split_join_app; [done|apply normal_no_slash; done].
Qed.
Lemma join2_render cs b : Forall normal cs -> b <> [] ->
  join2 (render cs) b = render (rev (clean_stack true (rev cs) (split_slash b))).
Proof.
  intros H Hb. unfold join2. rewrite decide_False by done. rewrite decide_False by done.
  unfold clean. change (is_rooted (render cs ++ slash :: b)) with true. cbn iota.
  rewrite split_render_join by done. unfold render. f_equal. f_equal. f_equal.
  cbn [clean_stack]. rewrite decide_True by auto. rewrite clean_stack_app. f_equal.
  destruct (decide (cs = [])) as [->|Hn].
  - cbn [clean_stack]. rewrite decide_True by auto. done.
  - rewrite clean_stack_normal, app_nil_r by done. done.
Qed.
Lemma join2_normal cs b : Forall normal cs -> normal b -> join2 (render cs) b = render (cs ++ [b]).
Proof.
  intros H Hb. destruct Hb as (H1&H2&H3&H4). rewrite join2_render by done.
  rewrite split_no_slash by done. rewrite clean_stack_normal; [|constructor; [done|done]].
  cbn [rev app]. rewrite rev_involutive. done.
Qed.
Lemma join_slash_inj a b : Forall normal a -> Forall normal b -> join_slash a = join_slash b -> a = b.
Proof.
  intros Ha Hb H.
  assert (render a = render b) as E by (unfold render; f_equal; done).
  apply (f_equal split_slash) in E. rewrite !split_render in E by done. injection E as E.
  destruct (decide (a = [])) as [->|Hna], (decide (b = [])) as [->|Hnb]; try done.
  - subst b. inversion Hb as [|? ? (?&_) _]; subst; done.
  - subst a. inversion Ha as [|? ? (?&_) _]; subst; done.
Qed.
Lemma render_inj a b : Forall normal a -> Forall normal b -> render a = render b -> a = b.
Proof. intros Ha Hb [= H]. apply join_slash_inj; done. Qed.

(** for the catalogue: files directly inside a clean absolute directory *)
Lemma join2_inj d b1 b2 : clean_abs d -> normal b1 -> normal b2 -> join2 d b1 = join2 d b2 -> b1 = b2.
Proof.
  intros (cs & Hcs & ->) H1 H2. rewrite !join2_normal by done. intros H.
  apply render_inj in H; [|apply Forall_app; split; [done|constructor; done]..].
  apply app_inj_2 in H; [|done]. destruct H as [_ H]. congruence.
Qed.
Lemma join2_clean d b : clean_abs d -> clean_abs (join2 d b).
Proof. intros H. apply join2_rooted, clean_abs_rooted; done. Qed.
Lemma parent_render cs b : Forall normal cs -> normal b -> parent (render (cs ++ [b])) = render cs.
Proof.
  intros H Hb. unfold parent. rewrite split_render by (apply Forall_app; split; [done|constructor; done]).
  rewrite decide_False by (destruct cs; done). cbn [List.tl].
  rewrite removelast_last. done.
Qed.
Lemma parent_join2 d b : clean_abs d -> normal b -> parent (join2 d b) = d.
Proof. intros (cs & Hcs & ->) Hb. rewrite join2_normal by done. apply parent_render; done. Qed.
Lemma base_name_no_slash p : slash ∉ base_name p.
Proof.
  unfold base_name. pose proof (split_no_slash_in p) as H. pose proof (split_nonempty p) as Hn.
  destruct (exists_last Hn) as (l & c & E). rewrite E in *. rewrite last_last.
  apply Forall_app in H as [_ H]. inversion H; done.
Qed.
Lemma base_name_render cs b : Forall normal cs -> normal b -> base_name (render (cs ++ [b])) = b.
Proof.
  intros H Hb. unfold base_name. rewrite split_render by (apply Forall_app; split; [done|constructor; done]).
  rewrite decide_False by (destruct cs; done).
  rewrite app_comm_cons, last_last. done.
Qed.
Lemma base_name_root : base_name (render []) = [].
Proof. reflexivity. Qed.
Lemma base_name_clean p : clean_abs p -> p = [slash] \/ normal (base_name p).
Proof.
  intros (cs & Hcs & ->). destruct cs as [|c0 cs0] eqn:E; [left; done|right].
  destruct (exists_last (l := c0 :: cs0)) as (l & c & El); [done|]. rewrite El in *.
  apply Forall_app in Hcs as [H1 H2]. inversion H2; subst. rewrite base_name_render by done. done.
Qed.

(** clean is idempotent on rooted paths *)
Lemma clean_idem p : is_rooted p = true -> clean (clean p) = clean p.
Proof. intros H. apply clean_abs_clean, clean_rooted. done. Qed.
