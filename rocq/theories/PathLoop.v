(** filepath.Clean as the byte loop of the library (Go 1.17, path/filepath/path.go, unix), and the
    proof that [clean] of Path.v, which follows its documentation, is the same function.
    The loop's lazybuf is the list of the [out.w] bytes written so far, last byte first; that it
    shares memory with the argument as long as they agree has no effect and is left out. *)
From Verif Require Export PathProofs.

(** the end of the path or a separator is next *)
Definition at_end (p : path) : bool := match p with [] => true | b :: _ => bool_decide (b = slash) end.
(** "out.w--; for out.w > dotdot && !os.IsPathSeparator(out.index(out.w)) { out.w-- }": the byte at
    out.w is the one just removed *)
Fixpoint back (dd : nat) (out : list byte) : list byte :=
  match out with
  | [] => []
  | b :: out' => if decide (dd < length out') then if decide (b = slash) then out' else back dd out' else out'
  end.
(** "for ; r < n && !os.IsPathSeparator(path[r]); r++ { out.append(path[r]) }" *)
Fixpoint copy_name (p : path) (out : list byte) : path * list byte :=
  match p with
  | [] => ([], out)
  | b :: p' => if decide (b = slash) then (p, out) else copy_name p' (b :: out)
  end.
(** "for r < n { switch ... }"; every round takes at least one byte, so [n] = length of the path is
    enough *)
Fixpoint lib_loop (n : nat) (rooted : bool) (p : path) (out : list byte) (dd : nat) : list byte :=
  match n, p with
  | 0, _ | _, [] => out
  | S n', b :: p1 =>
      if decide (b = slash) then lib_loop n' rooted p1 out dd
      else if decide (b = x2e /\ at_end p1 = true) then lib_loop n' rooted p1 out dd
      else if decide (b = x2e /\ head p1 = Some x2e /\ at_end (tail p1) = true) then
        if decide (dd < length out) then lib_loop n' rooted (tail p1) (back dd out) dd
        else if rooted then lib_loop n' rooted (tail p1) out dd
        else let out' := x2e :: x2e :: (if decide (0 < length out) then slash :: out else out) in
             lib_loop n' rooted (tail p1) out' (length out')
      else
        let out1 := if decide ((rooted = true /\ length out <> 1) \/ (rooted = false /\ length out <> 0)) then slash :: out else out in
        let '(p', out') := copy_name p out1 in lib_loop n' rooted p' out' dd
  end.
(** filepath.Clean; the library returns "." for the empty path before the loop, which the last test does
    as well *)
Definition lib_clean (p : path) : path :=
  let rooted := is_rooted p in
  let out := lib_loop (length p) rooted (if rooted then tail p else p) (if rooted then [slash] else []) (if rooted then 1 else 0) in
  if decide (length out = 0) then dot else rev out.
(** filepath.Join of two elements: "for i, e := range elem { if e != "" { return
    Clean(strings.Join(elem[i:], "/")) } } return """ *)
Definition lib_join2 (a b : path) : path :=
  if decide (a <> []) then lib_clean (a ++ slash :: b) else if decide (b <> []) then lib_clean b else [].

(** ** Proofs *)
Lemma at_end_spec p : at_end p = true <-> p = [] \/ exists p', p = slash :: p'.
Proof.
  destruct p as [|b p]; cbn; [naive_solver|]. rewrite bool_decide_eq_true. split; [intros ->; eauto|intros [|(p' & [= -> ->])]; done].
Qed.
Lemma split_cons_ne p : exists w ws, split_slash p = w :: ws.
Proof. induction p as [|b p (w & ws & IH)]; cbn; [eauto|]. rewrite IH. case_decide; eauto. Qed.
Lemma split_name c p : slash ∉ c -> at_end p = true -> split_slash (c ++ p) = c :: tail (split_slash p).
Proof.
  intros Hc Hp. induction c as [|b c IH]; cbn [app].
  - apply at_end_spec in Hp as [->|(p' & ->)]; [done|]. cbn. rewrite decide_True by done. done.
  - cbn [split_slash]. rewrite decide_False by set_solver. rewrite IH by set_solver. done.
Qed.
Lemma stack_skip r stk p : at_end p = true -> clean_stack r stk (tail (split_slash p)) = clean_stack r stk (split_slash p).
Proof.
  intros Hp. apply at_end_spec in Hp as [->|(p' & ->)]; cbn.
  - rewrite decide_True by auto. done.
  - rewrite decide_True by done. cbn. rewrite decide_True by auto. done.
Qed.
Lemma copy_name_spec p out : exists c p', p = c ++ p' /\ slash ∉ c /\ at_end p' = true /\ copy_name p out = (p', rev c ++ out).
Proof.
  revert out. induction p as [|b p IH]; intros out.
  - exists [], []. split; [done|]. split; [set_solver|]. done.
  - cbn [copy_name]. case_decide as Hb.
    + exists [], (b :: p). split; [done|]. split; [set_solver|]. split; [|done]. subst. cbn. rewrite bool_decide_true; done.
    + destruct (IH (b :: out)) as (c & p' & -> & Hc & Hp & E). exists (b :: c), p'. split; [done|]. split; [set_solver|]. split; [done|].
      rewrite E. cbn [rev]. rewrite <- app_assoc. done.
Qed.
(** what has been written when the stack is [stk] *)
Definition written (rooted : bool) (stk : list (list byte)) : list byte := (if rooted then [slash] else []) ++ join_slash (rev stk).
Lemma join_slash_snoc cs c : cs <> [] -> join_slash (cs ++ [c]) = join_slash cs ++ slash :: c.
Proof.
  induction cs as [|a cs IH]; [done|]. intros _. destruct cs as [|b cs]; [done|].
  change (join_slash ((a :: b :: cs) ++ [c])) with (a ++ slash :: join_slash ((b :: cs) ++ [c])). rewrite IH by done.
  change (join_slash (a :: b :: cs)) with (a ++ slash :: join_slash (b :: cs)). rewrite <- app_assoc. done.
Qed.
Lemma written_push r c stk : written r (c :: stk) = written r stk ++ (if decide (stk = []) then [] else [slash]) ++ c.
Proof.
  unfold written. cbn [rev]. destruct stk as [|s stk]; [cbn; rewrite app_nil_r; destruct r; done|].
  rewrite decide_False by done. rewrite join_slash_snoc; [rewrite <- app_assoc; done|]. cbn [rev]. intros E. apply app_eq_nil in E as [_ E]. done.
Qed.
Lemma back_name dd c out : slash ∉ c -> c <> [] -> dd <= length out -> back dd (rev c ++ out) = if decide (dd = length out) then out else back dd out.
Proof.
  intros Hc Hn Hd. assert (slash ∉ rev c) as Hr by (intros G; apply Hc; rewrite elem_of_list_In in *; apply in_rev; done).
  assert (rev c <> []) as Hrn by (intros E; apply Hn; apply (f_equal (@rev byte)) in E; rewrite rev_involutive in E; done).
  clear Hc Hn. induction (rev c) as [|b l IH]; [done|]. cbn [app back]. rewrite app_length.
  destruct l as [|b' l].
  - cbn [length app Nat.add]. destruct (decide (dd < length out)) as [H1|H1]; [|rewrite decide_True by lia; done]. rewrite decide_False by set_solver. rewrite decide_False by lia. done.
  - rewrite decide_True by (cbn; lia). rewrite decide_False by set_solver. apply IH; [set_solver|done].
Qed.
(** components on the stack: ordinary names above "..", which occur only in relative paths; [dd] is
    the position after them *)
Definition stack_ok (rooted : bool) (stk : list (list byte)) (dd : nat) : Prop :=
  exists ns k, stk = ns ++ replicate k dotdot /\ Forall normal ns /\ (rooted = true -> k = 0) /\ dd = length (written rooted (replicate k dotdot)).
Lemma written_app_length r a b : length (written r b) <= length (written r (a ++ b)).
Proof. induction a as [|c a IH]; [done|]. cbn [app]. rewrite written_push, app_length. lia. Qed.
Lemma written_normal_lt r n ns k : normal n -> length (written r (replicate k dotdot)) < length (written r (n :: ns ++ replicate k dotdot)).
Proof.
  intros (H1 & _). rewrite written_push, !app_length. pose proof (written_app_length r ns (replicate k dotdot)). destruct n; [done|]. cbn [length]. lia.
Qed.
Lemma written_empty r stk : Forall (fun c => c <> []) stk -> length (written r stk) = (if r then 1 else 0) <-> stk = [].
Proof.
  intros H. split; [|intros ->; destruct r; done]. destruct stk as [|c stk]; [done|]. inversion H; subst. rewrite written_push, !app_length.
  assert (length (written r stk) >= if r then 1 else 0) by (unfold written; destruct r; cbn; lia).
  destruct c; [done|]. cbn [length]. intros. exfalso. destruct r; lia.
Qed.
Lemma stack_ok_ne r stk dd : stack_ok r stk dd -> Forall (fun c => c <> []) stk.
Proof.
  intros (ns & k & -> & H & _). apply Forall_app. split; [eapply Forall_impl; [exact H|]; intros c (? & _); done|].
  apply Forall_replicate. done.
Qed.
Lemma lib_loop_spec n r p stk dd : length p <= n -> stack_ok r stk dd ->
  lib_loop n r p (rev (written r stk)) dd = rev (written r (clean_stack r stk (split_slash p))).
Proof.
  revert p stk dd. induction n as [n IH] using lt_wf_ind. intros p stk dd Hn Hok.
  destruct p as [|b p1].
  { destruct n; cbn; rewrite decide_True by auto; done. }
  destruct n as [|n]; [cbn in Hn; lia|]. cbn [length] in Hn. cbn [lib_loop].
  case_decide as Hb.
  { subst b. rewrite IH by (lia || done). cbn [split_slash]. rewrite decide_True by done. cbn [clean_stack]. rewrite decide_True by auto. done. }
  case_decide as H1.
  { destruct H1 as [-> H1]. rewrite IH by (lia || done). change (x2e :: p1) with (dot ++ p1). rewrite split_name by (done || (unfold dot; set_solver)).
    cbn [clean_stack]. rewrite (decide_True (P := dot = [] \/ dot = dot)) by auto. rewrite stack_skip by done. done. }
  case_decide as H2.
  { destruct H2 as (-> & H2 & H3). destruct p1 as [|b2 p2]; [done|]. cbn in H2. injection H2 as ->. cbn [tail] in *. cbn [length] in Hn.
    change (x2e :: x2e :: p2) with (dotdot ++ p2). rewrite split_name by (done || (unfold dotdot; set_solver)).
    cbn [clean_stack]. rewrite (decide_False (P := dotdot = [] \/ dotdot = dot)) by (intros [|]; done). rewrite (decide_True (P := dotdot = dotdot)) by done.
    destruct Hok as (ns & k & -> & Hns & Hk & ->). rewrite rev_length. destruct ns as [|c ns].
    - cbn [app] in *. rewrite decide_False by lia. destruct r.
      + rewrite Hk in * by done. cbn [replicate] in *. rewrite IH; [|lia|lia|exists [], 0; done]. rewrite stack_skip by done. done.
      + assert (x2e :: x2e :: (if decide (0 < length (written false (replicate k dotdot))) then slash :: rev (written false (replicate k dotdot)) else rev (written false (replicate k dotdot)))
          = rev (written false (replicate (S k) dotdot))) as ->.
        { cbn [replicate]. rewrite written_push, !rev_app_distr. destruct k as [|k]; [done|].
          rewrite decide_True; [rewrite decide_False by done; done|]. cbn [replicate]. rewrite written_push, !app_length. cbn [length dotdot]. lia. }
        rewrite IH; [|lia|lia|]. 2:{ exists [], (S k). rewrite rev_length. done. }
        destruct k; cbn [replicate]; [|rewrite (decide_True (P := dotdot = dotdot)) by done]; rewrite stack_skip by done; done.
    - cbn [app]. pose proof Hns as Hns'. inversion Hns as [|? ? Hc Hns2]; subst. rewrite decide_True by (apply written_normal_lt; done).
      destruct Hc as (Hc1 & Hc2 & Hc3 & Hc4). rewrite decide_False by done.
      assert (back (length (written r (replicate k dotdot))) (rev (written r (c :: ns ++ replicate k dotdot))) = rev (written r (ns ++ replicate k dotdot))) as ->.
      { rewrite written_push, !rev_app_distr, <- app_assoc. pose proof (written_app_length r ns (replicate k dotdot)) as Hl.
        rewrite back_name; [|done|done|rewrite app_length, !rev_length; lia].
        rewrite app_length, !rev_length. destruct (ns ++ replicate k dotdot) as [|s l] eqn:E.
        - apply app_eq_nil in E as [-> E]. rewrite (decide_True (P := @nil (list byte) = [])) by done. cbn [length rev app]. rewrite E. rewrite decide_True by done. done.
        - rewrite (decide_False (P := s :: l = [])) by done. cbn [length]. rewrite decide_False by lia. cbn [rev app back]. rewrite rev_length. case_decide; [|done]. rewrite decide_True by done. done. }
      rewrite IH; [|lia|lia|exists ns, k; done]. rewrite stack_skip by done. done. }
  (* an ordinary name *)
  set (out1 := if decide _ then slash :: rev (written r stk) else rev (written r stk)).
  destruct (copy_name_spec (b :: p1) out1) as (c & p' & E & Hc & Hp & Ec). rewrite Ec.
  assert (c <> []) as Hc1. { intros ->. cbn in E. apply at_end_spec in Hp as [->|(p2 & ->)]; [done|]. injection E as -> _. done. }
  assert (c <> dot) as Hc2. { intros ->. cbn in E. injection E as -> ->. apply H1. done. }
  assert (c <> dotdot) as Hc3. { intros ->. cbn in E. injection E as -> ->. apply H2. done. }
  assert (rev c ++ out1 = rev (written r (c :: stk))) as ->.
  { rewrite written_push, !rev_app_distr, <- app_assoc. f_equal. unfold out1. rewrite rev_length. pose proof (written_empty r stk (stack_ok_ne _ _ _ Hok)) as Hw.
    destruct r; case_decide as HA; case_decide as HB; try done; exfalso; tauto || (subst; naive_solver). }
  rewrite E, split_name by done. cbn [clean_stack]. rewrite decide_False by naive_solver. rewrite decide_False by done.
  assert (length p' <= n). { apply (f_equal length) in E. rewrite app_length in E. cbn [length] in E. destruct c; [done|]. cbn [length] in E. lia. }
  rewrite IH; [|lia|lia|]. { rewrite stack_skip by done. done. }
  destruct Hok as (ns & k & -> & Hns & Hk & ->). exists (c :: ns), k. split; [done|]. split; [|done]. constructor; [|done]. split; [done|]. done.
Qed.
Theorem lib_clean_is_clean p : lib_clean p = clean p.
Proof.
  unfold lib_clean, clean. destruct (is_rooted p) eqn:Er.
  - destruct p as [|b p]; [done|]. cbn in Er. apply bool_decide_eq_true in Er as ->. cbn [tail length].
    change [slash] with (rev (written true [])). rewrite lib_loop_spec; [|lia|exists [], 0; done].
    rewrite rev_length, rev_involutive. cbn [split_slash]. rewrite (decide_True (P := slash = slash)) by done. cbn [clean_stack]. rewrite (decide_True (P := [] = [] \/ [] = dot)) by auto.
    unfold written. cbn [app length]. rewrite decide_False by lia. done.
  - pose proof (lib_loop_spec (length p) false p [] 0 (Nat.le_refl _)) as H. change (rev (written false [])) with (@nil byte) in H. rewrite H by (exists [], 0; done). clear H.
    rewrite rev_length, rev_involutive. unfold written. cbn [app]. destruct (join_slash _) as [|x l]; [done|]. rewrite !decide_False by done. done.
Qed.
Theorem lib_join2_is_join2 a b : lib_join2 a b = join2 a b.
Proof.
  unfold lib_join2, join2. rewrite !lib_clean_is_clean. destruct (decide (a = [])) as [->|Ha].
  - rewrite decide_False by auto. destruct (decide (b = [])) as [->|Hb]; [rewrite decide_False by auto; done|]. rewrite decide_True by done. done.
  - rewrite decide_True by done. destruct (decide (b = [])) as [->|Hb]; [|done]. unfold clean.
    assert (is_rooted (a ++ [slash]) = is_rooted a) as -> by (destruct a; done).
    assert (split_slash (a ++ [slash]) = split_slash a ++ [[]]) as ->.
    { clear Ha. induction a as [|x a IH]; cbn [app split_slash]; [rewrite decide_True by done; done|]. rewrite IH.
      destruct (split_cons_ne a) as (w & ws & ->). case_decide; done. }
    rewrite clean_stack_app. cbn [clean_stack]. rewrite decide_True by auto. done.
Qed.
