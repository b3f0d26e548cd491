(** Proofs about textual addresses. *)
From Verif Require Export NetIP NetIPSpec.
From Verif Require Import HashProofs.
From Coq Require Import ZifyBool ZifyNat ZifyN.
Ltac Zify.zify_post_hook ::= Z.div_mod_to_equations.

(** ** Numbers *)
Fixpoint toi_loop (base : N) (s : list byte) (n : N) (i : nat) : option (N * nat) :=
  match s with
  | b :: s' =>
      match digit_value b with
      | Some d =>
          if (d <? base)%N then
            let n' := (n * base + d)%N in if (big <=? n')%N then None else toi_loop base s' n' (S i)
          else Some (n, i)
      | None => Some (n, i)
      end
  | [] => Some (n, i)
  end.
Definition dig (base : N) (b : byte) : Prop := exists d, digit_value b = Some d /\ (d < base)%N.
Definition stops (base : N) (s : list byte) : Prop := forall b, s !! 0 = Some b -> ~ dig base b.

Lemma dtoi_gen s : forall n i, dtoi_loop s n i = toi_loop 10 s n i.
Proof.
  induction s as [|b s IH]; intros n i; [done|]. cbn [dtoi_loop toi_loop]. unfold in_range, digit_value.
  destruct ((48 <=? bN b)%N && (bN b <=? 57)%N) eqn:E.
  - rewrite IH. destruct (N.ltb_spec (bN b - 48) 10); [done|lia].
  - destruct ((97 <=? bN b) && (bN b <=? 102))%N eqn:E1.
    { destruct (N.ltb_spec (bN b - 87) 10); [lia|done]. }
    destruct ((65 <=? bN b) && (bN b <=? 70))%N eqn:E2; [|done].
    destruct (N.ltb_spec (bN b - 55) 10); [lia|done].
Qed.
Lemma from_hex_value b : from_hex_char b = digit_value b.
Proof. destruct b; vm_compute; reflexivity. Qed.
Lemma digit_value_lt b d : digit_value b = Some d -> (d < 16)%N.
Proof. rewrite <- from_hex_value. apply from_hex_char_lt. Qed.
Lemma xtoi_gen s : forall n i, xtoi_loop s n i = toi_loop 16 s n i.
Proof.
  induction s as [|b s IH]; intros n i; [done|]. cbn [xtoi_loop toi_loop]. rewrite from_hex_value.
  destruct (digit_value b) as [d|] eqn:E; [|done]. apply digit_value_lt in E.
  destruct (N.ltb_spec d 16); [|lia]. cbn zeta. rewrite IH. done.
Qed.
Lemma numeral_ge base s : (1 < base)%N -> forall acc n, numeral base acc s = Some n -> (acc <= n)%N.
Proof.
  intros Hb. induction s as [|b s IH]; intros acc n H; cbn in H; [simplify_eq; lia|].
  destruct (digit_value b) as [d|]; [|done]. destruct (d <? base)%N; [|done]. apply IH in H. nia.
Qed.
Lemma toi_run base t : (1 < base)%N -> forall rest acc n i, numeral base acc t = Some n -> (n < big)%N -> stops base rest ->
  toi_loop base (t ++ rest) acc i = Some (n, length t + i).
Proof.
  intros Hb. induction t as [|b t IH]; intros rest acc n i H Hn Hr; cbn in H.
  - simplify_eq. cbn. destruct rest as [|b rest]; [done|]. cbn. specialize (Hr b eq_refl).
    destruct (digit_value b) as [d|] eqn:E; [|done]. destruct (N.ltb_spec d base); [|done].
    destruct Hr. exists d. done.
  - cbn. destruct (digit_value b) as [d|] eqn:E; [|done]. destruct (d <? base)%N eqn:Ed; [|done].
    pose proof (numeral_ge base t Hb _ _ H). destruct (N.leb_spec big (acc * base + d)); [lia|].
    rewrite (IH rest _ n) by done. f_equal. f_equal. lia.
Qed.
Lemma toi_inv base s : (1 < base)%N -> forall acc n i j, (acc < big)%N -> toi_loop base s acc i = Some (n, j) ->
  exists t rest, s = t ++ rest /\ j = length t + i /\ numeral base acc t = Some n /\ (n < big)%N /\ stops base rest.
Proof.
  intros Hb. induction s as [|b s IH]; intros acc n i j Ha H; cbn in H.
  - simplify_eq. exists [], []. repeat split; try done.
  - destruct (digit_value b) as [d|] eqn:E.
    + destruct (d <? base)%N eqn:Ed.
      * destruct (N.leb_spec big (acc * base + d)); [done|]. apply IH in H; [|done].
        destruct H as (t & rest & -> & -> & Hn & Hlt & Hst). exists (b :: t), rest. cbn. rewrite E, Ed.
        repeat split; try done.
      * simplify_eq. exists [], (b :: s). repeat split; try done. intros b' Hb'. cbn in Hb'. simplify_eq.
        intros (d' & Hd' & Hlt). simplify_eq. lia.
    + simplify_eq. exists [], (b :: s). repeat split; try done. intros b' Hb'. cbn in Hb'. simplify_eq.
      intros (d' & Hd' & Hlt). simplify_eq.
Qed.
Lemma dtoi_run t rest n : t <> [] -> numeral 10 0 t = Some n -> (n < big)%N -> stops 10 rest -> dtoi (t ++ rest) = Some (n, length t).
Proof.
  intros Ht Hn Hb Hr. unfold dtoi. rewrite dtoi_gen, (toi_run 10 t ltac:(lia) rest 0 n 0 Hn Hb Hr).
  rewrite Nat.add_0_r. destruct t; done.
Qed.
Lemma dtoi_inv s n i : dtoi s = Some (n, i) ->
  exists t rest, s = t ++ rest /\ i = length t /\ t <> [] /\ numeral 10 0 t = Some n /\ (n < big)%N /\ stops 10 rest.
Proof.
  unfold dtoi. rewrite dtoi_gen. destruct (toi_loop 10 s 0 0) as [[n' [|i']]|] eqn:E; try done. intros [= -> <-].
  apply toi_inv in E; [|lia|unfold big; lia]. destruct E as (t & rest & -> & Hl & H1 & H2 & H3).
  exists t, rest. rewrite Nat.add_0_r in Hl. repeat split; try done. intros ->. done.
Qed.
Lemma xtoi_run t rest n : t <> [] -> numeral 16 0 t = Some n -> (n < big)%N -> stops 16 rest -> xtoi (t ++ rest) = Some (n, length t).
Proof.
  intros Ht Hn Hb Hr. unfold xtoi. rewrite xtoi_gen, (toi_run 16 t ltac:(lia) rest 0 n 0 Hn Hb Hr).
  rewrite Nat.add_0_r. destruct t; done.
Qed.
Lemma xtoi_inv s n i : xtoi s = Some (n, i) ->
  exists t rest, s = t ++ rest /\ i = length t /\ t <> [] /\ numeral 16 0 t = Some n /\ (n < big)%N /\ stops 16 rest.
Proof.
  unfold xtoi. rewrite xtoi_gen. destruct (toi_loop 16 s 0 0) as [[n' [|i']]|] eqn:E; try done. intros [= -> <-].
  apply toi_inv in E; [|lia|unfold big; lia]. destruct E as (t & rest & -> & Hl & H1 & H2 & H3).
  exists t, rest. rewrite Nat.add_0_r in Hl. repeat split; try done. intros ->. done.
Qed.
Lemma stops_nil base : stops base [].
Proof. intros b H. done. Qed.
Lemma stops_colon base s : stops base (x3a :: s).
Proof. intros b H. cbn in H. simplify_eq. intros (d & H & _). vm_compute in H. done. Qed.
Lemma stops_dot base s : stops base (x2e :: s).
Proof. intros b H. cbn in H. simplify_eq. intros (d & H & _). vm_compute in H. done. Qed.

(** ** IPv4 *)
Lemma octet_run t n rest : octet t n -> stops 10 rest ->
  dtoi (t ++ rest) = Some (n, length t) /\ (255 <? n)%N = false /\ ~ (1 < length t /\ (t ++ rest) !! 0 = Some x30).
Proof.
  intros (H1 & H2 & H3 & H4) Hr. split; [apply dtoi_run; try done; unfold big; lia|]. split; [lia|].
  intros [Hl H0]. destruct t as [|b t]; [done|]. cbn in H0. simplify_eq. specialize (H4 eq_refl). simplify_eq. cbn in Hl. lia.
Qed.
Lemma octet_inv s n i : dtoi s = Some (n, i) -> (255 <? n)%N = false -> ~ (1 < i /\ s !! 0 = Some x30) ->
  exists t rest, s = t ++ rest /\ i = length t /\ octet t n /\ stops 10 rest.
Proof.
  intros H Hn H0. apply dtoi_inv in H. destruct H as (t & rest & -> & -> & Ht & Hv & _ & Hr).
  exists t, rest. split; [done|]. split; [done|]. split; [|done]. split; [done|]. split; [done|]. split; [lia|].
  intros Hz. destruct t as [|b [|b' t]]; try done; [cbn in Hz; simplify_eq; done|].
  destruct H0. split; [cbn; lia|]. done.
Qed.
(** [k] more octets, each after a dot *)
Fixpoint tail4 (k : nat) (s q : list byte) : Prop :=
  match k with
  | O => s = [] /\ q = []
  | S k' => exists t n s' q', s = x2e :: t ++ s' /\ octet t n /\ tail4 k' s' q' /\ q = Nb n :: q'
  end.
Lemma tail4_stops base k s q : tail4 k s q -> stops base s.
Proof.
  destruct k; cbn; [intros [-> _]; apply stops_nil|]. intros (t & n & s' & q' & -> & _). apply stops_dot.
Qed.
Lemma ipv4_loop k : forall s p q, p <> [] -> parse_ipv4_loop k s p = Some q <-> exists q', q = p ++ q' /\ tail4 k s q'.
Proof.
  induction k as [|k IH]; intros s p q Hp; cbn [parse_ipv4_loop tail4].
  - destruct (decide (s = [])) as [->|Hs].
    + split; [intros [= <-]; exists []; rewrite app_nil_r; done|]. intros (q' & -> & _ & ->). rewrite app_nil_r. done.
    + split; [done|]. intros (q' & _ & ? & _). done.
  - split.
    + destruct s as [|c s1]; [done|]. rewrite decide_False by done. destruct (decide (c = x2e)) as [->|]; [|done].
      destruct (dtoi s1) as [[n i]|] eqn:E; [|done]. destruct (255 <? n)%N eqn:En; [done|].
      destruct (decide _) as [|Hz]; [done|]. intros H. apply IH in H; [|destruct p; done].
      destruct H as (q' & -> & Ht). apply octet_inv in E; try done. destruct E as (t & rest & -> & -> & Ho & Hr).
      rewrite drop_app in Ht. exists (Nb n :: q'). rewrite <- app_assoc. split; [done|]. exists t, n, rest, q'. done.
    + intros (q' & -> & t & n & s' & q'' & -> & Ho & Ht & ->). rewrite decide_False by done. rewrite decide_True by done.
      destruct (octet_run t n s' Ho (tail4_stops _ _ _ _ Ht)) as (-> & -> & Hz). rewrite decide_False by exact Hz.
      rewrite drop_app. apply IH; [destruct p; done|]. exists q''. rewrite <- app_assoc. done.
Qed.
Lemma ipv4_first s : parse_ipv4_loop 4 s [] =
  match s with
  | [] => None
  | _ =>
      match dtoi s with
      | Some (n, i) =>
          if (255 <? n)%N then None
          else if decide (1 < i /\ s !! 0 = Some x30) then None
          else parse_ipv4_loop 3 (drop i s) [Nb n]
      | None => None
      end
  end.
Proof. cbn. destruct s; done. Qed.
Lemma parse_ipv4_spec s q : parse_ipv4 s = Some q <-> dotted s q.
Proof.
  unfold parse_ipv4. rewrite ipv4_first. split.
  - destruct s as [|c s1]; [done|].
    destruct (dtoi (c :: s1)) as [[n i]|] eqn:E; [|done]. destruct (255 <? n)%N eqn:En; [done|].
    destruct (decide _) as [|Hz]; [done|]. intros H. apply (ipv4_loop 3) in H; [|done].
    apply octet_inv in E; try done. destruct E as (t & rest & E & -> & Ho & Hr). rewrite E in *. rewrite drop_app in H.
    destruct H as (q' & -> & t1 & n1 & s2 & q1 & -> & Ho1 & (t2 & n2 & s3 & q2 & -> & Ho2 & (t3 & n3 & s4 & q3 & -> & Ho3 & (-> & ->) & ->) & ->) & ->).
    exists t, t1, t2, t3, n, n1, n2, n3. rewrite app_nil_r. repeat (split; [done|]). done.
  - intros (a & b & c & d & na & nb & nc & nd & -> & Ha & Hb & Hc & Hd & ->).
    destruct (a ++ x2e :: b ++ x2e :: c ++ x2e :: d) as [|c0 s1] eqn:Es; [destruct a; done|].
    rewrite <- Es. clear Es c0 s1.
    destruct (octet_run a na (x2e :: b ++ x2e :: c ++ x2e :: d) Ha (stops_dot _ _)) as (-> & -> & Hz).
    rewrite decide_False by exact Hz. rewrite drop_app. apply (ipv4_loop 3); [done|].
    exists [Nb nb; Nb nc; Nb nd]. split; [done|]. exists b, nb, (x2e :: c ++ x2e :: d), [Nb nc; Nb nd]. repeat (split; [done|]).
    split; [|done]. exists c, nc, (x2e :: d), [Nb nd]. repeat (split; [done|]). split; [|done].
    exists d, nd, [], []. rewrite app_nil_r. done.
Qed.

(** ** IPv6 *)
Lemma numeral_dig base s : forall acc n, numeral base acc s = Some n -> Forall (dig base) s.
Proof.
  induction s as [|b s IH]; intros acc n H; cbn in H; [constructor|].
  destruct (digit_value b) as [d|] eqn:E; [|done]. destruct (N.ltb_spec d base); [|done].
  constructor; [exists d; done|]. eapply IH. done.
Qed.
Lemma group_head s n : v6group s n -> exists b s', s = b :: s' /\ dig 16 b.
Proof.
  intros (H1 & H2 & _). apply numeral_dig in H2. destruct s as [|b s]; [done|]. inversion H2; subst. eauto.
Qed.
Lemma octet_hex t n : octet t n -> exists x, numeral 16 0 t = Some x /\ (x < 65536)%N.
Proof.
  intros (H1 & H2 & H3 & H4). destruct t as [|b1 t]; [done|]. cbn in H2 |- *.
  destruct (digit_value b1) as [d1|] eqn:E1; [|done]. destruct (N.ltb_spec d1 10); [|done]. destruct (N.ltb_spec d1 16); [|lia].
  destruct t as [|b2 t]; [exists d1; cbn; split; [done|lia]|]. cbn in H2 |- *.
  assert (1 <= d1)%N as Hd1.
  { destruct (decide (b1 = x30)) as [->|Hne]; [specialize (H4 eq_refl); done|]. 
    destruct (decide (d1 = 0%N)) as [->|]; [|lia]. destruct b1; vm_compute in E1; simplify_eq. }
  destruct (digit_value b2) as [d2|] eqn:E2; [|done]. destruct (N.ltb_spec d2 10); [|done]. destruct (N.ltb_spec d2 16); [|lia].
  destruct t as [|b3 t]; [eexists; cbn; split; [done|lia]|]. cbn in H2 |- *.
  destruct (digit_value b3) as [d3|] eqn:E3; [|done]. destruct (N.ltb_spec d3 10); [|done]. destruct (N.ltb_spec d3 16); [|lia].
  destruct t as [|b4 t]; [eexists; cbn; split; [done|lia]|]. cbn in H2.
  destruct (digit_value b4) as [d4|] eqn:E4; [|done]. destruct (N.ltb_spec d4 10); [|done].
  apply numeral_ge in H2; [|lia]. lia.
Qed.
Lemma group_run t n rest : v6group t n -> stops 16 rest -> xtoi (t ++ rest) = Some (n, length t) /\ (65535 <? n)%N = false.
Proof. intros (H1 & H2 & H3) Hr. split; [apply xtoi_run; try done; unfold big; lia|lia]. Qed.
Lemma dotted_run s q : dotted s q -> exists x c, xtoi s = Some (x, c) /\ (65535 <? x)%N = false /\ s !! c = Some x2e.
Proof.
  intros (a & b & c & d & na & nb & nc & nd & -> & Ha & _). pose proof Ha as Ha'. apply octet_hex in Ha as (x & Hx & Hlt).
  exists x, (length a). split; [apply xtoi_run; try done; [apply Ha'|unfold big; lia|apply stops_dot]|].
  split; [lia|]. rewrite list_lookup_middle by done. done.
Qed.
Lemma dotted_length s q : dotted s q -> length q = 4.
Proof. intros (a & b & c & d & na & nb & nc & nd & -> & _ & _ & _ & _ & ->). done. Qed.
Lemma dotted_head s q : dotted s q -> exists b s', s = b :: s' /\ dig 16 b.
Proof.
  intros (a & b & c & d & na & nb & nc & nd & -> & (H1 & H2 & _) & _). apply numeral_dig in H2.
  destruct a as [|b1 a]; [done|]. inversion H2 as [|? ? (d1 & Hd & Hl)]; subst. exists b1. eexists. split; [done|]. exists d1. split; [done|lia].
Qed.
Lemma ending_head s q : ending s q -> exists b s', s = b :: s' /\ dig 16 b.
Proof.
  destruct 1 as [s n H|s q H|s n s' q H]; [eapply group_head; done|eapply dotted_head; done|].
  apply group_head in H as (b & s1 & -> & Hb). exists b. eexists. done.
Qed.
Lemma groups_head s q : groups s q -> exists b s', s = b :: s' /\ dig 16 b.
Proof.
  destruct 1 as [s n H|s n s' q H]; [eapply group_head; done|].
  apply group_head in H as (b & s1 & -> & Hb). exists b. eexists. done.
Qed.
Lemma ending_even s q : ending s q -> exists k, length q = 2 * k /\ 1 <= k.
Proof.
  induction 1 as [s n H|s q H|s n s' q H He IH].
  - exists 1. done.
  - exists 2. rewrite (dotted_length _ _ H). lia.
  - destruct IH as (k & E & Hk). exists (S k). cbn. rewrite E. lia.
Qed.
Lemma groups_even s q : groups s q -> exists k, length q = 2 * k /\ 1 <= k.
Proof.
  induction 1 as [s n H|s n s' q H He IH]; [exists 1; done|].
  destruct IH as (k & E & Hk). exists (S k). cbn. rewrite E. lia.
Qed.
Lemma colon_no_dig base : ~ dig base x3a.
Proof. intros (d & H & _). vm_compute in H. done. Qed.

(** one iteration of the loop *)
Lemma loop_group m t n s1 ip ell : v6group t n -> s1 <> [] ->
  parse_ipv6_loop (S m) (t ++ x3a :: s1) ip ell =
    match s1 with
    | x3a :: s2 =>
        match ell with
        | Some _ => None
        | None => match s2 with
                  | [] => Some (ip ++ [Nb (n / 256); Nb n], Some (length (ip ++ [Nb (n / 256); Nb n])), [])
                  | _ => parse_ipv6_loop m s2 (ip ++ [Nb (n / 256); Nb n]) (Some (length (ip ++ [Nb (n / 256); Nb n])))
                  end
        end
    | _ => parse_ipv6_loop m s1 (ip ++ [Nb (n / 256); Nb n]) ell
    end.
Proof.
  intros Hg Hs1. cbn [parse_ipv6_loop]. destruct (group_run t n (x3a :: s1) Hg (stops_colon _ _)) as [-> ->].
  rewrite list_lookup_middle by done. rewrite decide_False by done. rewrite drop_app. cbn zeta.
  rewrite decide_False by (intros [?|?]; done). done.
Qed.
Lemma loop_last m t n ip ell : v6group t n ->
  parse_ipv6_loop (S m) t ip ell = Some (ip ++ [Nb (n / 256); Nb n], ell, []).
Proof.
  intros Hg. cbn [parse_ipv6_loop]. destruct (group_run t n [] Hg (stops_nil _)) as [E1 E2]. rewrite app_nil_r in E1.
  rewrite E1, E2. rewrite lookup_ge_None_2 by lia. rewrite decide_False by done. rewrite drop_all. done.
Qed.
Lemma loop_v4 m s q ip ell : dotted s q ->
  parse_ipv6_loop (S m) s ip ell =
    if decide (ell = None /\ length ip <> 12) then None
    else if decide (16 < length ip + 4) then None else Some (ip ++ q, ell, []).
Proof.
  intros Hd. cbn [parse_ipv6_loop]. destruct (dotted_run s q Hd) as (x & c & -> & -> & Hc). rewrite decide_True by done.
  apply parse_ipv4_spec in Hd. rewrite Hd. done.
Qed.
(** the first group of what the loop accepts *)
Lemma loop_cases m s ip ell r : parse_ipv6_loop (S m) s ip ell = Some r ->
  (exists n, v6group s n) \/ (exists q, dotted s q) \/ (exists t n s1, s = t ++ x3a :: s1 /\ v6group t n /\ s1 <> []).
Proof.
  cbn [parse_ipv6_loop]. destruct (xtoi s) as [[n c]|] eqn:E; [|done]. destruct (65535 <? n)%N eqn:En; [done|].
  apply xtoi_inv in E as (t & rest & -> & -> & Ht & Hn & _ & Hr).
  assert (v6group t n) as Hg by (split; [done|split; [done|lia]]).
  destruct (decide ((t ++ rest) !! length t = Some x2e)) as [Hd|Hd].
  - destruct (decide _); [done|]. destruct (decide _); [done|]. destruct (parse_ipv4 (t ++ rest)) as [q|] eqn:Eq; [|done].
    intros _. right. left. exists q. apply parse_ipv4_spec. done.
  - rewrite drop_app. destruct rest as [|b s1]; [rewrite app_nil_r; eauto|]. cbn zeta.
    destruct (decide _) as [|Hb]; [done|]. intros _. right. right. exists t, n, s1.
    destruct (decide (b = x3a)) as [->|]; [|destruct Hb; auto]. split; [done|]. split; [done|]. intros ->. destruct Hb. auto.
Qed.
Lemma skip_colon {X} (s1 : list byte) (a : list byte -> X) (b : X) : (forall s2, s1 <> x3a :: s2) ->
  match s1 with x3a :: s2 => a s2 | _ => b end = b.
Proof. intros H. destruct s1 as [|[] s1]; try done. destruct (H s1 eq_refl). Qed.

Definition filled (ip : list byte) (e : nat) : list byte := take e ip ++ replicate (16 - length ip) x00 ++ drop e ip.
Lemma loop_with m : forall s ip e r, length ip + 2 * m = 16 -> e <= length ip -> s <> [] ->
  parse_ipv6_end (parse_ipv6_loop m s ip (Some e)) = Some r <->
    exists q, ending s q /\ length ip + length q <= 14 /\ r = filled (ip ++ q) e.
Proof.
  induction m as [|m IH]; intros s ip e r Hl He Hs.
  { cbn. destruct s; [done|]. split; [done|]. intros (q & Hq & Hle & _). lia. }
  split.
  - destruct (parse_ipv6_loop (S m) s ip (Some e)) as [r0|] eqn:E; [|done]. pose proof (loop_cases _ _ _ _ _ E) as [[n Hg]|[[q Hd]|(t & n & s1 & -> & Hg & Hs1)]].
    + rewrite (loop_last m s n) in E by done. injection E as <-. cbn [parse_ipv6_end]. destruct (decide _) as [Hlt|]; [|done].
      intros [= <-]. exists [Nb (n / 256); Nb n]. split; [constructor; done|]. rewrite app_length in *. cbn [length] in *. split; [lia|]. 
      unfold filled. rewrite app_length. done.
    + rewrite (loop_v4 m s q) in E by done. rewrite decide_False in E by (intros [? _]; done). destruct (decide _); [done|].
      injection E as <-. cbn [parse_ipv6_end]. destruct (decide _) as [Hlt|]; [|done]. intros [= <-]. exists q. split; [constructor; done|].
      rewrite app_length in *. rewrite (dotted_length _ _ Hd) in *. split; [lia|]. unfold filled. rewrite app_length, (dotted_length _ _ Hd). done.
    + rewrite loop_group with (n := n) in E by done. destruct (match s1 with x3a :: _ => true | _ => false end) eqn:Ec.
      { destruct s1 as [|[] s1]; done. }
      rewrite skip_colon in E by (intros s2 ->; done). rewrite <- E. intros H. apply IH in H; [|rewrite app_length; cbn; lia|rewrite app_length; lia|done].
      destruct H as (q & Hq & Hle & ->). exists ([Nb (n / 256); Nb n] ++ q). split; [constructor; done|].
      rewrite app_length in Hle. cbn [app length] in *. split; [lia|]. rewrite <- app_assoc. done.
  - intros (q & Hq & Hle & ->). inversion Hq as [s0 n Hg|s0 q0 Hd|t n s1 q0 Hg Hq0]; subst.
    + rewrite (loop_last m s n) by done. cbn [parse_ipv6_end]. cbn [length] in Hle. rewrite app_length. cbn [length].
      rewrite decide_True by lia. unfold filled. rewrite app_length. done.
    + rewrite (loop_v4 m s q) by done. rewrite decide_False by (intros [? _]; done). rewrite (dotted_length _ _ Hd) in Hle.
      rewrite decide_False by lia. cbn [parse_ipv6_end]. rewrite app_length, (dotted_length _ _ Hd). rewrite decide_True by lia.
      unfold filled. rewrite app_length, (dotted_length _ _ Hd). done.
    + destruct (ending_head _ _ Hq0) as (b & s2 & Es & Hb). 
      assert (s1 <> []) as Hs1 by (rewrite Es; done).
      rewrite loop_group with (n := n) by done. rewrite skip_colon.
      2: { intros s3 E. rewrite Es in E. injection E as -> _. apply colon_no_dig in Hb. done. }
      cbn [app length] in Hle. apply IH; [rewrite app_length; cbn; lia|rewrite app_length; lia|done|].
      exists q0. split; [done|]. rewrite app_length. cbn [length]. split; [lia|]. rewrite <- app_assoc. done.
Qed.

Ltac samerep :=
  match goal with
  | |- ?L = ?R =>
      match L with context [replicate ?a x00] => match R with context [replicate ?b x00] => replace a with b by lia end end
  end; done.
Lemma loop_without m : forall s ip r, length ip + 2 * m = 16 -> s <> [] ->
  parse_ipv6_end (parse_ipv6_loop m s ip None) = Some r <->
    (exists q, ending s q /\ r = ip ++ q /\ length r = 16)
    \/ (exists l rr il ir, s = l ++ x3a :: x3a :: rr /\ groups l il /\ (rr = [] /\ ir = [] \/ ending rr ir)
         /\ length ip + length il + length ir <= 14
         /\ r = ip ++ il ++ replicate (16 - length ip - length il - length ir) x00 ++ ir).
Proof.
  induction m as [|m IH]; intros s ip r Hl Hs.
  { cbn. destruct s; [done|]. split; [done|]. intros [(q & Hq & -> & Hle)|(l & rr & il & ir & _ & Hg & _ & Hle & _)].
    - destruct (ending_even _ _ Hq) as (k & Hk & ?). rewrite app_length in Hle. lia.
    - destruct (groups_even _ _ Hg) as (k & Hk & ?). lia. }
  split.
  - destruct (parse_ipv6_loop (S m) s ip None) as [r0|] eqn:E; [|done]. pose proof (loop_cases _ _ _ _ _ E) as [[n Hg]|[[q Hd]|(t & n & s1 & -> & Hg & Hs1)]].
    + rewrite (loop_last m s n) in E by done. injection E as <-. cbn [parse_ipv6_end]. rewrite app_length. cbn [length].
      destruct (decide _) as [Hlt|Hge]; [done|]. intros [= <-]. left. exists [Nb (n / 256); Nb n].
      split; [constructor; done|]. split; [done|]. rewrite app_length. cbn. lia.
    + rewrite (loop_v4 m s q) in E by done. destruct (decide _) as [|Hn]; [done|]. destruct (decide _) as [|Hn2]; [done|].
      injection E as <-. cbn [parse_ipv6_end]. rewrite app_length, (dotted_length _ _ Hd). destruct (decide _) as [Hlt|Hge]; [done|].
      intros [= <-]. left. exists q. split; [constructor; done|]. split; [done|]. rewrite app_length, (dotted_length _ _ Hd). lia.
    + rewrite loop_group with (n := n) in E by done. destruct (match s1 with x3a :: _ => true | _ => false end) eqn:Ec.
      * destruct s1 as [|[] s2]; try done. destruct s2 as [|b s2].
        -- injection E as <-. cbn [parse_ipv6_end]. rewrite app_length. cbn [length]. destruct (decide _) as [Hlt|]; [|done].
           intros [= <-]. right. exists t, [], [Nb (n / 256); Nb n], []. split; [done|]. split; [constructor; done|]. split; [auto|].
           cbn [length]. split; [lia|]. rewrite take_ge, drop_ge by (rewrite app_length; cbn; lia).
           rewrite <- app_assoc. cbn [app]; samerep.
        -- rewrite <- E. intros H. apply loop_with in H; [|rewrite app_length; cbn; lia|lia|done].
           destruct H as (q & Hq & Hle & ->). right. exists t, (b :: s2), [Nb (n / 256); Nb n], q.
           split; [done|]. split; [constructor; done|]. split; [auto|]. rewrite app_length in Hle. cbn [length] in Hle |- *. split; [lia|].
           unfold filled. rewrite take_app, drop_app. rewrite !app_length. cbn [length]. rewrite <- app_assoc. cbn [app]; samerep.
      * rewrite skip_colon in E by (intros s2 ->; done). rewrite <- E. intros H. apply IH in H; [|rewrite app_length; cbn; lia|done].
        destruct H as [(q & Hq & -> & Hle)|(l & rr & il & ir & -> & Hgl & Hrr & Hle & ->)].
        -- left. exists ([Nb (n / 256); Nb n] ++ q). split; [constructor; done|]. split; [rewrite <- app_assoc; done|done].
        -- right. exists (t ++ x3a :: l), rr, ([Nb (n / 256); Nb n] ++ il), ir. split; [rewrite <- app_assoc; done|].
           split; [constructor; done|]. split; [done|]. rewrite app_length in Hle. cbn [app length] in *. split; [lia|].
           rewrite <- app_assoc. rewrite app_length. cbn [app length]. cbn [app]; samerep.
  - intros [(q & Hq & -> & Hle)|(l & rr & il & ir & -> & Hgl & Hrr & Hle & ->)].
    + rewrite app_length in Hle. inversion Hq as [s0 n Hg|s0 q0 Hd|t n s1 q0 Hg Hq0]; subst.
      * rewrite (loop_last m s n) by done. cbn [parse_ipv6_end]. rewrite app_length. rewrite decide_False by lia. done.
      * rewrite (loop_v4 m s q) by done. rewrite (dotted_length _ _ Hd) in Hle. rewrite decide_False by (intros [_ ?]; lia).
        rewrite decide_False by lia. cbn [parse_ipv6_end]. rewrite app_length, (dotted_length _ _ Hd). rewrite decide_False by lia. done.
      * destruct (ending_head _ _ Hq0) as (b & s2 & Es & Hb).
        assert (s1 <> []) as Hs1 by (rewrite Es; done).
        rewrite loop_group with (n := n) by done. rewrite skip_colon.
        2: { intros s3 E. rewrite Es in E. injection E as -> _. apply colon_no_dig in Hb. done. }
        cbn [app length] in Hle. apply IH; [rewrite app_length; cbn; lia|done|]. left. exists q0. split; [done|].
        split; [rewrite <- app_assoc; done|]. rewrite app_length. cbn [app length]. lia.
    + inversion Hgl as [t n Hg|t n l' il' Hg Hgl']; subst.
      * cbn [length] in *. rewrite loop_group with (n := n) by done. destruct Hrr as [[-> ->]|Hrr].
        -- cbn [parse_ipv6_end]. rewrite app_length. cbn [length] in *. rewrite decide_True by lia.
           rewrite take_ge, drop_ge by (rewrite app_length; cbn; lia). rewrite <- app_assoc. cbn [app]; samerep.
        -- destruct (ending_head _ _ Hrr) as (b & s2 & Es & Hb). destruct rr as [|b' s3]; [done|].
           apply loop_with; [rewrite app_length; cbn; lia|lia|done|]. exists ir. split; [done|]. split; [rewrite app_length; cbn; lia|].
           unfold filled. rewrite take_app, drop_app. rewrite !app_length. cbn [length]. rewrite <- app_assoc. cbn [app]; samerep.
      * destruct (groups_head _ _ Hgl') as (b & s2 & Es & Hb). rewrite <- app_assoc. cbn [app].
        rewrite loop_group with (n := n) by (try done; rewrite Es; done). rewrite skip_colon.
        2: { intros s3 E. rewrite Es in E. injection E as -> _. apply colon_no_dig in Hb. done. }
        cbn [app length] in Hle. apply IH; [rewrite app_length; cbn; lia|rewrite Es; done|]. right. exists l', rr, il', ir.
        split; [done|]. split; [done|]. split; [done|]. rewrite app_length. cbn [app length]. split; [lia|].
        rewrite <- app_assoc. cbn [app]. cbn [app]; samerep.
Qed.

Lemma parse_ipv6_other s : (forall s', s <> x3a :: x3a :: s') ->
  parse_ipv6 s = parse_ipv6_end (parse_ipv6_loop 8 s [] None).
Proof.
  intros H. unfold parse_ipv6. generalize (parse_ipv6_end (parse_ipv6_loop 8 s [] None)). intros X.
  destruct s as [|b s1]; [done|]. destruct (decide (b = x3a)) as [->|Hb].
  - destruct s1 as [|b1 s2]; [done|]. destruct (decide (b1 = x3a)) as [->|Hb1]; [destruct (H s2); done|]. destruct b1; done.
  - destruct b; done.
Qed.
Lemma parse_ipv6_colons s : s <> [] ->
  parse_ipv6 (x3a :: x3a :: s) = parse_ipv6_end (parse_ipv6_loop 8 s [] (Some 0)).
Proof. intros H. unfold parse_ipv6. generalize (parse_ipv6_loop 8). intros X. destruct s; done. Qed.
Lemma parse_ipv6_only : parse_ipv6 [x3a; x3a] = Some (replicate 16 x00).
Proof. unfold parse_ipv6. generalize (parse_ipv6_loop 8). intros X. done. Qed.
Lemma parse_ipv6_nil : parse_ipv6_end (parse_ipv6_loop 8 [] [] None) = None.
Proof. vm_compute. done. Qed.
Lemma two_colons (s : list byte) : (exists s', s = x3a :: x3a :: s') \/ forall s', s <> x3a :: x3a :: s'.
Proof.
  destruct s as [|b [|b1 s]]; [right; done|right; done|]. destruct (decide (b = x3a)) as [->|]; [|right; congruence].
  destruct (decide (b1 = x3a)) as [->|]; [left; eauto|right; congruence].
Qed.
Lemma parse_ipv6_spec s ip : parse_ipv6 s = Some ip <-> v6_text s ip.
Proof.
  destruct (two_colons s) as [[s' ->]|Hno].
  - split.
    + intros H. right. exists [], s'. destruct s' as [|b s'].
      { rewrite parse_ipv6_only in H. injection H as <-. exists [], []. split; [done|]. split; [auto|]. split; [auto|]. split; [cbn; lia|]. done. }
      rewrite parse_ipv6_colons in H by done. apply loop_with in H; [|cbn; lia|cbn; lia|done]. destruct H as (q & Hq & Hle & ->). exists [], q.
      split; [done|]. split; [auto|]. split; [auto|]. split; [done|]. unfold filled. cbn [app length take drop]. rewrite drop_0, Nat.sub_0_r. done.
    + intros [[H _]|(l & r & il & ir & E & Hl & Hr & Hle & ->)].
      { apply ending_head in H as (b & s2 & [= <- <-] & Hb). apply colon_no_dig in Hb. done. }
      destruct Hl as [[-> ->]|Hl]; [|apply groups_head in Hl as (b & s2 & -> & Hb); injection E as <- _; apply colon_no_dig in Hb; done].
      injection E as <-. destruct Hr as [[-> ->]|Hr]; [rewrite parse_ipv6_only; done|]. destruct (ending_head _ _ Hr) as (b & s2 & Es' & Hb).
      assert (s' <> []) as Hne by (rewrite Es'; done).
      assert (parse_ipv6_end (parse_ipv6_loop 8 s' [] (Some 0)) = Some (filled ir 0)) as H.
      { apply loop_with; [done|cbn; lia|done|]. exists ir. split; [done|]. split; [|done]. cbn in *. lia. }
      rewrite parse_ipv6_colons by done. rewrite H. unfold filled. cbn [app length take]. rewrite drop_0, Nat.sub_0_r. done.
  - rewrite parse_ipv6_other by done.
    destruct (decide (s = [])) as [->|Hs].
    + rewrite parse_ipv6_nil. split; [done|]. intros [[H _]|(l & r & il & ir & E & _)]; [apply ending_head in H as (? & ? & ? & _); done|]. destruct l; done.
    + rewrite (loop_without 8) by done. unfold v6_text. split.
      * intros [(q & Hq & -> & Hle)|(l & rr & il & ir & -> & Hgl & Hrr & Hle & ->)]; [left; auto|].
        right. exists l, rr, il, ir. split; [done|]. split; [auto|]. split; [done|]. cbn [length] in *. split; [lia|]. cbn [app]. rewrite Nat.sub_0_r. done.
      * intros [[H Hl]|(l & rr & il & ir & -> & Hgl & Hrr & Hle & ->)]; [left; eauto|].
        destruct Hgl as [[-> ->]|Hgl]; [destruct (Hno rr); done|]. right. exists l, rr, il, ir. split; [done|]. split; [done|]. split; [done|].
        split; [cbn; lia|]. cbn [app length]. rewrite Nat.sub_0_r. done.
Qed.

(** ** ParseIP *)
Lemma kind_app t s : Forall (dig 16) t -> ip_kind (t ++ s) = ip_kind s.
Proof.
  induction 1 as [|b t (d & Hd & _) _ IH]; [done|]. cbn [app ip_kind]. destruct b; try exact IH; vm_compute in Hd; done.
Qed.
Lemma group_dig t n : v6group t n -> Forall (dig 16) t.
Proof. intros (_ & H & _). eapply numeral_dig. done. Qed.
Lemma octet_dig t n : octet t n -> Forall (dig 16) t.
Proof.
  intros (_ & H & _). apply numeral_dig in H. eapply Forall_impl; [done|]. intros b (d & Hd & Hl). exists d. split; [done|]. lia.
Qed.
Lemma dotted_kind s q : dotted s q -> ip_kind s = Some true.
Proof.
  intros (a & b & c & d & na & nb & nc & nd & -> & Ha & _). rewrite kind_app by (eapply octet_dig; done). done.
Qed.
Lemma v6_kind s ip : v6_text s ip -> ip_kind s = Some false.
Proof.
  intros [[H Hl]|(l & r & il & ir & -> & Hl & _)].
  - destruct H as [s n Hg|s q Hd|s n s' q Hg H]; [done|rewrite (dotted_length _ _ Hd) in Hl; done|].
    rewrite kind_app by (eapply group_dig; done). done.
  - destruct Hl as [[-> _]|Hl]; [done|]. destruct Hl as [t n Hg|t n l' il' Hg Hgl'].
    + rewrite kind_app by (eapply group_dig; done). done.
    + rewrite <- app_assoc. rewrite kind_app by (eapply group_dig; done). done.
Qed.
Lemma parse_ip_spec s ip : parse_ip s = Some ip <->
  (exists q, dotted s q /\ ip = replicate 10 x00 ++ [xff; xff] ++ q) \/ v6_text s ip.
Proof.
  unfold parse_ip. split.
  - destruct (ip_kind s) as [[]|]; [| |done].
    + destruct (parse_ipv4 s) as [q|] eqn:E; [|done]. intros [= <-]. apply parse_ipv4_spec in E. left. exists q. done.
    + intros H. right. apply parse_ipv6_spec. done.
  - intros [(q & Hq & ->)|H].
    + rewrite (dotted_kind s q Hq). apply parse_ipv4_spec in Hq. rewrite Hq. done.
    + rewrite (v6_kind _ _ H). apply parse_ipv6_spec. done.
Qed.
Lemma v6_length s ip : v6_text s ip -> length ip = 16.
Proof.
  intros [[_ H]|(l & r & il & ir & _ & _ & _ & Hle & ->)]; [done|]. rewrite !app_length, replicate_length. lia.
Qed.
Lemma parse_ip_length s ip : parse_ip s = Some ip -> length ip = 16.
Proof.
  intros H. apply parse_ip_spec in H as [(q & Hq & ->)|H]; [|eapply v6_length; done].
  rewrite !app_length, replicate_length, (dotted_length _ _ Hq). done.
Qed.
