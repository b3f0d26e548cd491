(** Proofs about the command line. *)
From Verif Require Export CliSpec NetIPProofs.
From Verif Require Import DownloadProofs4 HashProofs CleanProofs ServerProofs2.
From Coq Require Import ZifyBool ZifyNat ZifyN.
Ltac Zify.zify_post_hook ::= Z.div_mod_to_equations.

(** ** Names *)
Lemma split_two q : slash ∈ q -> exists w v ws, split_slash q = w :: v :: ws.
Proof.
  intros H. destruct (split_slash q) as [|w [|v ws]] eqn:E; [destruct (split_nonempty q); done| |eauto].
  exfalso. pose proof (join_split q) as J. pose proof (split_no_slash_in q) as N. rewrite E in J, N. cbn in J.
  rewrite Forall_singleton in N. apply N. rewrite J. exact H.
Qed.
Lemma name_of_base p : name_of p = base_name p.
Proof.
  unfold base_name. induction p as [|b q IH]; [done|]. cbn [name_of split_slash].
  destruct (decide (slash ∈ q)) as [Hq|Hq].
  - rewrite IH. destruct (split_two q Hq) as (w & v & ws & E). rewrite E. case_decide; done.
  - rewrite (split_no_slash q Hq). case_decide; done.
Qed.

(** ** Hashes *)
Lemma numeral_app base a b : forall acc, numeral base acc (a ++ b) = match numeral base acc a with Some n => numeral base n b | None => None end.
Proof.
  induction a as [|c a IH]; intros acc; [done|]. cbn. destruct (digit_value c) as [d|]; [|done]. destruct (d <? base)%N; [|done]. apply IH.
Qed.
Lemma unbe_cons_acc l : forall acc, foldl (fun acc b => acc * 256 + bN b)%N acc l = (acc * 256 ^ N.of_nat (length l) + unbe l)%N.
Proof.
  unfold unbe. induction l as [|b l IH]; intros acc; cbn [foldl length]; [lia|].
  rewrite IH. rewrite (IH (0 * 256 + bN b)%N). rewrite Nat2N.inj_succ, N.pow_succ_r'. lia.
Qed.
Lemma hex_numeral l : forall s acc, hex_decode s = Ok l ->
  length s = 2 * length l /\ numeral 16 acc s = Some (acc * 256 ^ N.of_nat (length l) + unbe l)%N.
Proof.
  induction l as [|b l IH]; intros s acc H.
  - destruct s as [|p [|q s]]; cbn in H; [|done|]; [split; [done|]; cbn; f_equal; lia|].
    destruct (from_hex_char p), (from_hex_char q); try done. destruct (hex_decode s); done.
  - destruct s as [|p [|q s]]; cbn in H; [done|done|]. destruct (from_hex_char p) as [x|] eqn:Ep; [|done].
    destruct (from_hex_char q) as [y|] eqn:Eq; [|done]. destruct (hex_decode s) as [r|e|e] eqn:Er; try done. cbn in H.
    injection H as <- <-. pose proof (from_hex_char_lt _ _ Ep). pose proof (from_hex_char_lt _ _ Eq).
    destruct (IH s ((acc * 16 + x) * 16 + y)%N Er) as [Hl Hn]. split; [cbn; lia|].
    cbn [numeral]. rewrite <- !from_hex_value, Ep, Eq. destruct (N.ltb_spec x 16); [|lia]. destruct (N.ltb_spec y 16); [|lia].
    rewrite Hn. f_equal. unfold unbe at 2. cbn [foldl length]. rewrite unbe_cons_acc. rewrite nibbles by done.
    rewrite bN_Nb, N.mod_small by lia. rewrite Nat2N.inj_succ, N.pow_succ_r'. lia.
Qed.
Lemma numeral_hex s : forall acc n, numeral 16 acc s = Some n -> Nat.even (length s) = true -> exists l, hex_decode s = Ok l.
Proof.
  assert (forall k s, length s <= k -> forall acc n, numeral 16 acc s = Some n -> Nat.even (length s) = true -> exists l, hex_decode s = Ok l) as G.
  { clear s. induction k as [|k IH]; intros s Hk acc n H He; [destruct s; [exists []; done|cbn in Hk; lia]|].
    destruct s as [|p [|q s]]; [exists []; done|done|]. cbn in H, He, Hk |- *. rewrite !from_hex_value.
    destruct (digit_value p) as [x|]; [|done]. destruct (x <? 16)%N; [|done]. destruct (digit_value q) as [y|]; [|done].
    destruct (y <? 16)%N; [|done]. destruct (IH s ltac:(lia) _ _ H He) as [l ->]. cbn. eauto. }
  eapply G. done.
Qed.
Lemma unbe_inj a b : length a = length b -> unbe a = unbe b -> a = b.
Proof.
  intros Hl H. rewrite <- (be_unbe a), <- (be_unbe b), H, Hl. done.
Qed.
Lemma hash_arg h0 s h : length h0 = 20 -> from_string_safe h0 s = (h, None) <-> hash_text s h.
Proof.
  intros H0. unfold from_string_safe, hash_text. split.
  - destruct (hex_decode s) as [l|e|e] eqn:E; [|done|done]. destruct (Nat.eqb_spec (length l) 20) as [Hl|]; [|done].
    rewrite gocopy20 by done. intros [= <-]. apply (hex_numeral _ _ 0) in E as [H1 H2]. split; [lia|]. split; [done|]. rewrite H2. done.
  - intros (H1 & H2 & H3). destruct (numeral_hex s _ _ H3) as [l Hl]; [rewrite H1; done|]. rewrite Hl.
    pose proof (hex_numeral _ _ 0%N Hl) as [G1 G2]. assert (length l = 20) as Hll by lia. rewrite Hll. cbn [Nat.eqb].
    rewrite gocopy20 by done. f_equal. apply unbe_inj; [congruence|]. rewrite H3 in G2. injection G2 as G2. lia.
Qed.
Lemma blank_is : hash_blank zero_hash = replicate 20 xff.
Proof. reflexivity. Qed.
Lemma arg_hash_cases h0 s k : length h0 = 20 ->
  (exists h, hash_text s h /\ arg_hash h0 s k = k h) \/ ((forall h, ~ hash_text s h) /\ arg_hash h0 s k = PRefuse 2).
Proof.
  intros H0. unfold arg_hash. destruct (from_string_safe h0 s) as [h [e|]] eqn:E.
  - right. split; [|done]. intros h' H. apply (hash_arg h0) in H; [|done]. rewrite E in H. done.
  - left. exists h. split; [|done]. apply (hash_arg h0); done.
Qed.
Lemma hash_text_unique s h h' : hash_text s h -> hash_text s h' -> h = h'.
Proof. intros (_ & H1 & H2) (_ & H3 & H4). apply unbe_inj; congruence. Qed.
Lemma address_parse s ip : parse_ip s = Some ip <-> address s ip.
Proof. apply parse_ip_spec. Qed.

(** ** Arguments *)
Ltac no_asks := let Ha := fresh in intros ? Ha; inversion Ha; subst; done.
Lemma C72_lemma argv : ~ too_many argv -> argv <> [str "get"] ->
  (exists q, asks argv q /\ client_parse argv = PSend q)
  \/ ((forall q, ~ asks argv q) /\ exists code, client_parse argv = PRefuse code).
Proof.
  intros Hm Hg. destruct argv as [|cmd args]; [right; split; [intros q H; inversion H|eexists; done]|]. cbn [client_parse].
  destruct (decide (cmd = str "share")) as [->|N1].
  { unfold arg_count. destruct args as [|p [|p2 args]]; cbn.
    - right. split; [intros q H; inversion H|eauto].
    - left. exists (RqShare p). split; [constructor|done].
    - right. split; [intros q H; inversion H|eauto]. }
  destruct (decide (cmd = str "clean")) as [->|N2].
  { unfold arg_count. destruct args as [|p args]; cbn; [left; eexists; split; [constructor|done]|].
    right. split; [intros q H; inversion H|eauto]. }
  destruct (decide (cmd = str "list")) as [->|N3].
  { cbn zeta. rewrite blank_is. destruct args as [|a rest]; [left; eexists; split; [constructor|done]|].
    destruct (parse_ip a) as [ip|] eqn:Ea.
    - pose proof (proj1 (address_parse _ _) Ea) as Had. destruct rest as [|x rest]; [left; eexists; split; [constructor; done|done]|].
      destruct rest as [|y rest]; [|destruct Hm; left; cbn; split; [done|lia]].
      destruct (arg_hash_cases (replicate 20 xff) x (fun h => PSend (RqList ip h)) eq_refl) as [(h & Hh & ->)|[Hn ->]].
      + left. eexists. split; [constructor; done|done].
      + right. split; [|eauto]. intros q H. inversion H; subst. eapply Hn; done.
    - right. split; [|eauto]. intros q H. inversion H as [| | |? ? Had|? ? ? ? Had| | |]; subst;
        apply address_parse in Had; congruence. }
  destruct (decide (cmd = str "get")) as [->|N4].
  { destruct args as [|x rest]; [done|].
    destruct (arg_hash_cases zero_hash x (fun h => arg_count 1 (x :: rest) (PSend (RqGet h))) eq_refl) as [(h & Hh & ->)|[Hn ->]].
    - unfold arg_count. destruct rest as [|y rest]; cbn.
      + left. eexists. split; [constructor; done|done].
      + right. split; [|eauto]. intros q H. inversion H.
    - right. split; [|eauto]. intros q H. inversion H; subst. eapply Hn; done. }
  destruct (decide (cmd = str "chims")) as [->|N5].
  { rewrite blank_is. destruct args as [|x rest]; [left; eexists; split; [constructor|done]|].
    destruct rest as [|y rest]; [|destruct Hm; right; cbn; split; [done|lia]].
    destruct (arg_hash_cases zero_hash x (fun h => PSend (RqChims h)) eq_refl) as [(h & Hh & ->)|[Hn ->]].
    - left. eexists. split; [constructor; done|done].
    - right. split; [|eauto]. intros q H. inversion H; subst. eapply Hn; done. }
  right. split; [|eauto]. intros q H. inversion H; subst; done.
Qed.
Lemma asks_unique argv q q' : asks argv q -> asks argv q' -> q = q'.
Proof.
  assert (forall a ip ip', address a ip -> address a ip' -> ip = ip') as Hu.
  { intros a ip ip' H1 H2. apply address_parse in H1, H2. congruence. }
  destruct 1; inversion 1; subst; try done; f_equal; eauto using hash_text_unique.
Qed.
Lemma C72_extra_lemma argv q rest : asks argv q -> (exists a x, argv = [str "list"; a; x]) \/ (exists x, argv = [str "chims"; x]) ->
  client_parse (argv ++ rest) = PSend q.
Proof.
  intros Ha [(a & x & ->)|(x & ->)]; inversion Ha as [| | | |? ip ? h Had Hh| | |? h Hh]; subst; cbn [client_parse app].
  - rewrite decide_False by done. rewrite decide_False by done. rewrite decide_True by done. cbn zeta.
    apply address_parse in Had. rewrite Had. unfold arg_hash. rewrite (proj2 (hash_arg (hash_blank zero_hash) x h eq_refl) Hh). done.
  - do 4 rewrite decide_False by done. rewrite decide_True by done. unfold arg_hash.
    rewrite (proj2 (hash_arg zero_hash x h eq_refl) Hh). done.
Qed.
