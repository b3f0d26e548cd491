(** Proofs about downloads. *)
From Verif Require Import SysProofs.
From Verif Require Export DownloadSpec ServerProofs7.
From Coq Require Import ZifyBool ZifyNat ZifyN.
Ltac Zify.zify_post_hook ::= Z.div_mod_to_equations.

(** ** What arrives *)
Lemma ystep_kinds a b : ystep a b ->
  (exists p r, y_data a = p :: y_data b /\ y_recv a = RRun r /\
     match recv_packet r p with
     | Ok (RMore r') => y_recv b = RRun r'
     | Ok (RSave buf ok) => y_recv b = RDone buf ok
     | Panic _ => y_recv b = RCrash
     | Err _ => False
     end)
  \/ (exists more, y_data b = y_data a ++ more /\ y_recv b = y_recv a).
Proof.
  destruct 1 as [s e s' ps d u x He Hs|s s' d u x Hs|s p d u rc rc' Hp|s p d u rc buf ok Hp|s p d u rc w Hp];
    cbn [y_data y_recv].
  - right. exists ps. done.
  - right. exists []. rewrite app_nil_r. done.
  - left. exists p, rc. rewrite Hp. done.
  - left. exists p, rc. rewrite Hp. done.
  - left. exists p, rc. rewrite Hp. done.
Qed.
Lemma not_both {X} (d d' : list X) p more : d = p :: d' -> d' = d ++ more -> False.
Proof. intros -> H. apply (f_equal length) in H. cbn in H. rewrite app_length in H. lia. Qed.
Lemma rtc_ytrace a b : rtc ystep a b -> exists ps, ytrace a ps b.
Proof.
  induction 1 as [a|a a' b H _ (ps & IH)]; [exists []; constructor|].
  destruct (ystep_kinds _ _ H) as [(p & r & Hd & _)|(more & Hd & _)].
  - exists (p :: ps). eapply yt_take; done.
  - exists ps. eapply yt_other; done.
Qed.
Lemma ytrace_rtc a ps b : ytrace a ps b -> rtc ystep a b.
Proof. induction 1; [done|eapply rtc_l; done|eapply rtc_l; done]. Qed.
(** the result of the loop on packets that end in state [x] *)
Definition rresult (x : rstate) (o : res rstep) : Prop :=
  match x with
  | RRun r => o = Ok (RMore r)
  | RDone buf ok => o = Ok (RSave buf ok)
  | RTimeout => False
  | RCrash => exists w, o = Panic w
  end.
Lemma ytrace_recv a ps b : ytrace a ps b ->
  match y_recv a with
  | RRun r => rresult (y_recv b) (recv_all r ps)
  | x => ps = [] /\ y_recv b = x
  end.
Proof.
  induction 1 as [a|a a' p ps b Hs Hd _ IH|a a' more ps b Hs Hd _ IH].
  - destruct (y_recv a); done.
  - destruct (ystep_kinds _ _ Hs) as [(p' & r & Hd' & Hr & Hm)|(more & Hd' & _)]; [|exfalso; eapply not_both; done].
    rewrite Hr. rewrite Hd in Hd'. simplify_eq. cbn [recv_all].
    destruct (recv_packet r p') as [[r'|buf ok]|w|w]; cbn [rbind]; [| |done|].
    + rewrite Hm in IH. done.
    + rewrite Hm in IH. destruct IH as [-> ->]. done.
    + rewrite Hm in IH. destruct IH as [-> ->]. exists w. done.
  - destruct (ystep_kinds _ _ Hs) as [(p' & r & Hd' & Hr & Hm)|(more' & Hd' & Hr)]; [exfalso; eapply not_both; done|].
    rewrite Hr in IH. done.
Qed.

Section one_chunk.
  Context (l : list byte) (cs i : nat) (Hcs : (Z.of_nat cs < 4294967296)%Z) (Hi : (Z.of_nat i < 65536)%Z).
  Notation B := (chunk_bytes l cs i).
  Notation pk := (stream (sha1 (chunk_bytes l cs i)) (chunk_bytes l cs i)).
  Context (HBne : B <> []).
  Local Notation cap := 1024%N.

  Lemma ytrace_packets a ps b : (exists r, yinv l cs i cap r a) -> ytrace a ps b -> exists ks, ps = map pk ks.
  Proof.
    intros Ha H. induction H as [a|a a' p ps b Hs Hd _ IH|a a' more ps b Hs Hd _ IH].
    - exists []. done.
    - destruct Ha as (r & Ha). destruct (ystep_inv l cs i Hcs cap ltac:(done) HBne r a a' Ha Hs) as (r' & Ha' & _).
      destruct IH as (ks & ->); [eauto|]. destruct Ha as (m & n & _ & _ & _ & Hda & _).
      rewrite Hd in Hda. apply (data_cons l cs i 1024%N ltac:(done)) in Hda as (-> & _). exists (r :: ks). done.
    - destruct Ha as (r & Ha). destruct (ystep_inv l cs i Hcs cap ltac:(done) HBne r a a' Ha Hs) as (r' & Ha' & _).
      apply IH. eauto.
  Qed.
  Lemma datagrams_result a ps b : ystart l cs i cap a -> ytrace a ps b ->
    rresult (y_recv b) (recv_datagrams (map wire ps)).
  Proof.
    intros Ha Hs. destruct (ytrace_packets a ps b) as (ks & ->); [|done|].
    { apply (ystart_inv l cs i Hcs Hi cap) in Ha as [Ha _]; [|done]. eauto. }
    unfold recv_datagrams. rewrite wire_ok; [|apply sha1_length|pose proof (B_len l cs i); lia]. cbn [rbind].
    pose proof (ytrace_recv _ _ _ Hs) as H. destruct Ha as (? & ? & ? & ? & _ & _ & ->). done.
  Qed.
  Lemma trace_saves a ps b : ~ ragged cs B \/ first_empty B <= N.to_nat cap -> ystart l cs i cap a -> ytrace a ps b -> (forall c, ~ ystep b c) ->
    recv_datagrams (map wire ps) = Ok (RSave B true).
  Proof.
    intros Hr Ha Hs Hend. pose proof (datagrams_result _ _ _ Ha Hs) as H.
    rewrite (live_lemma l cs i Hcs Hi cap ltac:(done) HBne a b Hr Ha (ytrace_rtc _ _ _ Hs) Hend) in H. exact H.
  Qed.
  Lemma ystep_dec a : (exists b, ystep a b) \/ forall b, ~ ystep a b.
  Proof.
    destruct a as [s d u x].
    destruct (sstep s (SKick None)) as [|s' ps|ps] eqn:E1; [|left; eexists; eapply ys_work; [left; reflexivity|done]|].
    all: destruct (sstep s SCancel) as [|s2 ps2|ps2] eqn:E2; [|left; eexists; eapply ys_work; [right; reflexivity|done]|].
    all: destruct u as [|u]; [|left; eexists; apply ys_ack; done].
    all: destruct x as [r| | |]; [destruct d as [|p d]; [|destruct (recv_packet r p) as [[r'|buf ok]|w|w] eqn:E3;
      [left; eexists; by apply ys_more|left; eexists; by apply ys_save| |left; eexists; by eapply ys_crash]]| | |].
    all: right; intros b Hb; inversion Hb as [? e ? ? ? ? ? He Hs| | | |]; subst; try congruence; destruct He as [-> | ->]; congruence.
  Qed.
  Lemma run_to_end a : ystart l cs i cap a -> exists b, rtc ystep a b /\ forall c, ~ ystep b c.
  Proof.
    intros Ha.
    assert (forall k, (exists b, rtc ystep a b /\ forall c, ~ ystep b c) \/ exists b, nsteps ystep k a b) as H.
    { induction k as [|k [IH|(b & IH)]]; [right; exists a; constructor|by left|].
      destruct (ystep_dec b) as [(c & Hc)|Hn].
      - right. exists c. eapply nsteps_r; done.
      - left. exists b. split; [|done]. apply rtc_nsteps. eauto. }
    destruct (H (S (3 * first_empty B + 4))) as [?|(b & Hb)]; [done|].
    pose proof (bounded_lemma l cs i Hcs Hi cap ltac:(done) HBne a b _ Ha Hb). lia.
  Qed.
  Lemma delivered_exists : exists ds, delivered l cs i ds.
  Proof.
    destruct (start_exists l cs i Hcs Hi cap) as (a & Ha); [done..|].
    destruct (run_to_end a Ha) as (b & Hb & Hend). destruct (rtc_ytrace _ _ Hb) as (ps & Hp).
    exists (map wire ps), l, a, ps, b. done.
  Qed.
  Lemma lost_exists : ragged cs B -> N.to_nat cap < first_empty B ->
    exists ds r, delivered l cs i ds /\ recv_datagrams ds = Ok (RMore r).
  Proof.
    intros Hr Hm. destruct (lost_lemma l cs i Hcs Hi cap ltac:(done) HBne Hr Hm) as (a & b & Ha & Hb & Hend & r & Hx).
    destruct (rtc_ytrace _ _ Hb) as (ps & Hp). exists (map wire ps), r. split; [exists l, a, ps, b; done|].
    pose proof (datagrams_result _ _ _ Ha Hp) as H. rewrite Hx in H. exact H.
  Qed.
End one_chunk.
Lemma delivered_saves l cs i : (Z.of_nat cs < 4294967296)%Z -> (Z.of_nat i < 65536)%Z -> chunk_bytes l cs i <> [] ->
  forall ds, ~ ragged cs (chunk_bytes l cs i) \/ first_empty (chunk_bytes l cs i) <= N.to_nat 1024 -> delivered l cs i ds ->
  recv_datagrams ds = Ok (RSave (chunk_bytes l cs i) true).
Proof.
  intros Hcs Hi Hne ds Hr (l' & a & ps & b & E & Ha & Hs & Hend & ->). rewrite <- E in *. eapply trace_saves; done.
Qed.

(** ** What is left to do *)
Lemma filter_none {X} (P : X -> Prop) `{!forall x, Decision (P x)} (l : list X) : (forall x, P x -> x ∉ l) -> filter P l = [].
Proof.
  induction l as [|x l IH]; intros Hn; [done|]. rewrite filter_cons. rewrite decide_False.
  - apply IH. intros y Hy. specialize (Hn y Hy). set_solver.
  - intros Hx. specialize (Hn x Hx). set_solver.
Qed.
Lemma filter_same {X} (P Q : X -> Prop) `{!forall x, Decision (P x)} `{!forall x, Decision (Q x)} (l : list X) :
  Forall (fun x => P x <-> Q x) l -> filter P l = filter Q l.
Proof.
  induction 1 as [|x l Hx _ IH]; [done|]. rewrite !filter_cons, IH.
  destruct (decide (P x)), (decide (Q x)); tauto.
Qed.
Lemma todo_next a i : (Z.of_N i < a_count a)%Z -> i ∉ a_held a -> (forall j, (j < i)%N -> j ∈ a_held a) ->
  todo a = i :: todo (hold a i).
Proof.
  intros H1 H2 H3. unfold todo. cbn [hold a_held a_count].
  replace (Z.to_nat (a_count a `max` (Z.of_N i + 1))) with (Z.to_nat (a_count a)) by lia.
  replace (Z.to_nat (a_count a)) with (N.to_nat i + S (Z.to_nat (a_count a) - S (N.to_nat i))) by lia.
  rewrite seq_app, map_app, !filter_app. cbn [seq map Nat.add].
  assert (forall X : gset N, (forall j, (j < i)%N -> j ∈ X) -> filter (fun j => j ∉ X) (map N.of_nat (seq 0 (N.to_nat i))) = []) as Hz.
  { intros X HX. apply filter_none. intros j Hj Hin. apply Hj, HX.
    apply elem_of_list_fmap in Hin as (k & -> & Hk). apply elem_of_seq in Hk. lia. }
  rewrite (Hz (a_held a) H3), (Hz ({[i]} ∪ a_held a)) by set_solver. cbn [app].
  replace (N.of_nat (N.to_nat i)) with i by lia.
  rewrite !filter_cons. rewrite decide_True by done. rewrite decide_False by set_solver. f_equal.
  apply filter_same. apply Forall_forall. intros j Hj. apply elem_of_list_fmap in Hj as (k & -> & Hk).
  apply elem_of_seq in Hk. assert (N.of_nat k <> i) by lia. set_solver.
Qed.
Lemma todo_nil a : (0 <= a_count a)%Z -> (todo a = [] <-> all_below (a_count a) ⊆ a_held a).
Proof.
  intros Hc. unfold todo. split.
  - intros H x Hx. apply elem_of_all_below in Hx. destruct (decide (x ∈ a_held a)) as [?|Hn]; [done|]. exfalso.
    assert (x ∈ filter (fun i => i ∉ a_held a) (map N.of_nat (seq 0 (Z.to_nat (a_count a))))) as Hin.
    { apply elem_of_list_filter. split; [done|]. apply elem_of_list_fmap. exists (N.to_nat x). split; [lia|]. apply elem_of_seq. lia. }
    rewrite H in Hin. set_solver.
  - intros H. apply filter_none. intros j Hj Hin. apply Hj, H, elem_of_all_below.
    apply elem_of_list_fmap in Hin as (k & -> & Hk). apply elem_of_seq in Hk. lia.
Qed.
