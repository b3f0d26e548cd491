(** More proofs about the command line: hosts, clean, flags, two hosts, and what can
    be read off a listing. *)
From Verif Require Export CliProofs2.
From Verif Require Import JsonProofs JsonProofs2 PathProofs CatalogueProofs ServerProofs7 DownloadProofs4 HashProofs CleanProofs ServerProofs2 MessagesProofs.
From Coq Require Import ZifyBool ZifyNat ZifyN.
Ltac Zify.zify_post_hook ::= Z.div_mod_to_equations.

(** ** chims *)
Lemma chunk_lines_ok cs : forall n, length cs <= n ->
  if Nat.even (length cs) then chunk_lines cs = Ok (concat (map (fun lh => str "  " ++ dec (Z.of_N lh.1) ++ str ":" ++ dec (Z.of_N lh.2) ++ nl) (ranges cs)))
  else is_panic (chunk_lines cs).
Proof.
  intros n. revert cs. induction n as [|n IH]; intros cs Hl; [destruct cs; [done|cbn in Hl; lia]|].
  destruct cs as [|a [|b cs]]; [done|eexists; done|]. cbn [length Nat.even chunk_lines ranges map concat fst snd]. specialize (IH cs ltac:(cbn in Hl; lia)).
  destruct (Nat.even (length cs)).
  - rewrite IH. cbn [rbind]. rewrite <- !app_assoc. done.
  - destruct IH as [w ->]. eexists. done.
Qed.
Lemma chim_text_ok r : length (h_addr r) = 4 -> Nat.even (length (h_chunks r)) = true -> chim_text r = Ok (host_text r).
Proof.
  intros Ha He. pose proof (chunk_lines_ok (h_chunks r) _ (le_n _)) as H. rewrite He in H. unfold chim_text. rewrite H. cbn [rbind].
  unfold host_text. destruct (h_addr r) as [|a [|b [|c [|d [|]]]]]; try done. unfold nth_dec, ip_text. cbn [lookup list_lookup default]. rewrite <- !app_assoc. done.
Qed.
Lemma chim_text_odd r : Nat.even (length (h_chunks r)) = false -> is_panic (chim_text r).
Proof.
  intros He. pose proof (chunk_lines_ok (h_chunks r) _ (le_n _)) as H. rewrite He in H. unfold chim_text. destruct H as [w ->]. eexists. done.
Qed.
Lemma C81_lemma cwd dir dl A s f e argv h :
  srv_reached cwd dir dl A s f -> asks argv (RqChims h) -> Forall (fun r => length (h_addr r) = 4) (ce_resps e) ->
  exists s', srv_reached cwd dir dl A s' f /\
    session true e s f argv = (f, Some s', [mkDgram (replicate 4 xff) (sv_port s) (serialize (DiscReq (Z.to_N (sv_reqid s)) h []))],
      if decide (Forall (fun r => Nat.even (length (h_chunks r)) = true) (ce_resps e)) then Shown (concat (map host_text (ce_resps e))) else Crashed).
Proof.
  intros Hsr Ha Hr. exists (generate_request_id s).2. split; [apply sr_request; done|]. destruct (srv_inv _ _ _ _ _ _ Hsr) as (_ & Hq & _).
  assert (client_parse argv = PSend (RqChims h)) as Hp.
  { assert (~ too_many argv) as G1 by (inversion Ha; subst; cbn; intros [[? ?]|[_ ?]]; [done|lia|done|lia]).
    assert (argv <> [str "get"]) as G2 by (inversion Ha; done).
    destruct (C72_lemma argv G1 G2) as [(q & H1 & ->)|[H1 _]]; [f_equal; eapply asks_unique; done|destruct (H1 _ Ha)]. }
  rewrite (session_cases _ _ _ _ _ Hp). cbn [serve]. destruct (generate_request_id s) as [reqid s'] eqn:E. unfold generate_request_id in E. injection E as <- <-.
  cbn [run response_text snd]. unfold u16_of_int. rewrite (Z.mod_small (sv_reqid s)) by lia. f_equal.
  case_decide as He.
  - rewrite (texts_ok _ host_text); [done|]. apply Forall_forall. intros r Hm. rewrite Forall_forall in He, Hr. apply chim_text_ok; auto.
  - assert (is_panic (texts chim_text (ce_resps e))) as [w ->]; [|done]. apply texts_panic.
    + apply (Forall_impl _ _ _ Hr). intros r Hl. destruct (Nat.even (length (h_chunks r))) eqn:Ee; [right; rewrite chim_text_ok by done; eauto|left; apply chim_text_odd; done].
    + apply not_Forall_Exists in He; [|intros r; apply _]. apply (Exists_impl _ _ _ He). intros r Hn. apply chim_text_odd. cbn in Hn. destruct (Nat.even _); done.
Qed.

(** ** clean *)
Lemma C83_lemma cwd dir dl A s f e :
  srv_reached cwd dir dl A s f -> NoDup (ce_order e) -> (forall h, h ∈ ce_order e <-> A !! h <> None) ->
  (forall h a, A !! h = Some a -> parent (a_path a) <> dir) ->
  exists s' f' A', srv_reached cwd dir dl A' s' f' /\ same_user dir f f' /\ (forall h a, A' !! h = Some a <-> A !! h = Some a /\ stays f h a)
    /\ exists why, session true e s f [str "clean"] = (f', Some s', [],
         Shown (concat (map (fun h => match A !! h with Some a => clean_report f (why h) h a | None => [] end) (ce_order e)))).
Proof.
  intros Hsr Hnd Hin Hpar. assert (set_cat s (sv_cat s) = s) as Hss by (destruct s; done). rewrite <- Hss in Hsr.
  destruct (clean_generic cwd dir dl (fun A c f => srv_reached cwd dir dl A (set_cat s c) f) (fun A c f H => proj1 (srv_inv _ _ _ A (set_cat s c) f H))
    (fun A c => sr_call cwd dir dl A (set_cat s c)) A (sv_cat s) f (ce_order e) Hsr (conj Hnd Hin) Hpar) as (c' & f' & A' & items & Hrun & Hre' & Hu & Hit & HA').
  exists (set_cat s c'), f', A'. split; [done|]. split; [done|]. split; [done|].
  exists (fun h => match A !! h with Some a => ce_why e (mkItem (a_path a) h (verdict f h a).2 (verdict f h a).1) | None => [] end).
  rewrite (session_cases _ RqClean) by reflexivity. cbn [serve]. rewrite run_bind, Hrun. cbn [on_call run response_text].
  rewrite (texts_ok _ (fun iw => match clean_text iw with Ok t => t | _ => [] end)).
  2: { apply Forall_forall. intros [i w] _. cbn. destruct (ci_action i); done. }
  do 2 f_equal. f_equal. rewrite map_map. clear Hrun Hnd Hin. induction Hit as [|i h items order (a & Ha & ->) _ IH]; [done|].
  cbn [map concat]. rewrite IH, Ha. f_equal. unfold clean_text. cbn [ci_path ci_action ci_hash ci_current]. unfold clean_report, verdict.
  destruct (file_at f (a_path a)) as [l|]; cbn [fst snd]; [|done].
  destruct (decide (complete a)); [|done]. destruct (decide (sha1 l = h)); done.
Qed.

(** ** main *)
Lemma cut_eq_inv s : forall n v, cut_eq s = (n, v) -> match v with None => s = n | Some v => s = n ++ x3d :: v end.
Proof.
  induction s as [|b s IH]; intros n v H; [cbn in H; injection H as <- <-; done|].
  destruct (decide (b = x3d)) as [->|Hb]; [cbn in H; injection H as <- <-; done|].
  assert (cut_eq (b :: s) = let (n, v) := cut_eq s in (b :: n, v)) as E by (destruct b; done).
  rewrite E in H. destruct (cut_eq s) as [n' v'] eqn:Es. injection H as <- <-. specialize (IH _ _ eq_refl). destruct v'; rewrite IH; done.
Qed.
Lemma parse_bool_inv v b : parse_bool v = Some b -> exists w, v = str w /\ (w, b) ∈ truths.
Proof.
  unfold parse_bool. case_bool_decide as H1; [|case_bool_decide as H2; [|done]]; intros [= <-].
  - apply elem_of_list_fmap in H1 as (w & -> & Hw). exists w. split; [done|].
    repeat (apply elem_of_cons in Hw as [->|Hw]; [unfold truths; rewrite !elem_of_cons; auto 20|]). inversion Hw.
  - apply elem_of_list_fmap in H2 as (w & -> & Hw). exists w. split; [done|].
    repeat (apply elem_of_cons in Hw as [->|Hw]; [unfold truths; rewrite !elem_of_cons; auto 20|]). inversion Hw.
Qed.
Lemma flag_parse_flag w b rest d : dflag w b -> flag_parse (w :: rest) d = flag_parse rest b.
Proof.
  destruct 1 as [w [-> | ->]|w v b Hv Hw]; [done|done|].
  unfold truths in Hv. repeat (apply elem_of_cons in Hv as [[= -> ->]|Hv]; [destruct Hw as [-> | ->]; done|]). inversion Hv.
Qed.
Lemma flag_parse_end rest d : flags_end rest -> flag_parse rest d = inr d.
Proof.
  destruct rest as [|w rest]; [done|]. intros [[-> |Hw]| ->]; [done| |done].
  destruct w as [|b w]; [done|]. destruct (decide (b = x2d)) as [->|Hb]; [destruct (Hw w); done|]. destruct b; done.
Qed.
Lemma flag_parse_help w rest d : help_flag w -> flag_parse (w :: rest) d = inl 0%Z.
Proof. intros (n & tl & [-> | ->] & [-> |[v ->]] & [-> | ->]); reflexivity. Qed.
Lemma flag_parse_other w rest d : ~ no_flag w -> w <> [dash; dash] ->
  (exists b, dflag w b) \/ flag_parse (w :: rest) d = inl 2%Z \/ help_flag w.
Proof.
  intros Hn Hdd. destruct w as [|b w]; [destruct Hn; right; done|].
  destruct (decide (b = x2d)) as [->|Hb]; [|destruct Hn; right; intros t [= -> _]; done].
  destruct w as [|b w]; [destruct Hn; left; done|]. cbn [flag_parse].
  set (name := if decide (b = x2d) then w else b :: w).
  rewrite decide_False by (intros [-> ->]; done).
  assert (x2d :: b :: w = x2d :: name \/ x2d :: b :: w = x2d :: x2d :: name) as Hname by (unfold name; case_decide; subst; auto).
  destruct name as [|c nm]; [right; left; done|]. clearbody name || idtac.
  destruct (decide (c = x2d)) as [->|N1]; [right; left; done|]. destruct (decide (c = x3d)) as [->|N2]; [right; left; done|].
  assert (forall T (x y : T), match c with x2d => x | x3d => x | _ => y end = y) as Hm by (intros; destruct c; done).
  match goal with |- _ \/ ?X = inl _ \/ _ => set (R := X) end.
  assert (R = let (n, v) := cut_eq (c :: nm) in
                if decide (n = str "d") then
                  match v with
                  | None => flag_parse rest true
                  | Some v => match parse_bool v with Some b' => flag_parse rest b' | None => inl 2%Z end
                  end
                else if decide (n = str "help" \/ n = str "h") then inl 0%Z
                else inl 2%Z) as ->.
  { unfold R. destruct c; done. }
  destruct (cut_eq (c :: nm)) as [n v] eqn:Ec. apply cut_eq_inv in Ec.
  case_decide as Hd; [|case_decide as Hh; [|right; left; done]].
  2:{ right. right. exists (if decide (n = str "help") then "help" else "h")%string, (match v with None => [] | Some v => str "=" ++ v end).
      split; [case_decide; auto|]. split; [destruct v; eauto|].
      assert (str (if decide (n = str "help") then "help" else "h")%string = n) as -> by (case_decide; [done|]; destruct Hh; done).
      assert (c :: nm = n ++ match v with None => [] | Some v => str "=" ++ v end) as <- by (destruct v; [done|rewrite app_nil_r; done]).
      exact Hname. }
  subst n. destruct v as [v|].
  - destruct (parse_bool v) as [b'|] eqn:Eb; [|right; left; done]. left. exists b'. apply parse_bool_inv in Eb as (t & -> & Ht). eapply df_value; [done|].
    rewrite Ec in Hname. exact Hname.
  - left. exists true. apply df_plain. rewrite Ec in Hname. exact Hname.
Qed.
Definition last_value (bs : list bool) : bool := default false (last bs).
Lemma flag_parse_spec argv : forall d v, flag_parse argv d = inr v <->
  exists ws bs rest, argv = ws ++ rest /\ Forall2 dflag ws bs /\ flags_end rest /\ v = default d (last bs).
Proof.
  assert (forall ws bs rest d, Forall2 dflag ws bs -> flags_end rest -> flag_parse (ws ++ rest) d = inr (default d (last bs))) as Hrun.
  { intros ws bs rest d H He. revert d. induction H as [|w b ws bs Hw _ IH]; intros d; [apply flag_parse_end; done|].
    cbn [app]. rewrite (flag_parse_flag _ _ _ _ Hw), IH. f_equal. destruct bs as [|b' bs]; [done|].
    change (last (b :: b' :: bs)) with (last (b' :: bs)). destruct (last (b' :: bs)) eqn:E; [done|]. apply last_None in E. done. }
  induction argv as [|w argv IH]; intros d v.
  - split; [intros [= <-]; exists [], [], []; done|]. intros (ws & bs & rest & E & H & He & ->). rewrite E. apply Hrun; done.
  - split; [|intros (ws & bs & rest & E & H & He & ->); rewrite E; apply Hrun; done].
    intros H. destruct (decide (w = [dash; dash])) as [->|Hdd].
    { exists [], [], ([dash; dash] :: argv). split; [done|]. split; [done|]. split; [right; done|]. cbn in H. injection H as <-. done. }
    assert (no_flag w \/ ~ no_flag w) as [Hn|Hn].
    { unfold no_flag. destruct w as [|b w]; [left; right; done|]. destruct (decide (b = dash)) as [->|Hb]; [|left; right; intros t [= -> _]; done].
      destruct w; [left; left; done|]. right. intros [?|G]; [done|]. destruct (G (b :: w)); done. }
    { exists [], [], (w :: argv). split; [done|]. split; [done|]. split; [left; done|]. rewrite flag_parse_end in H by (left; done). injection H as <-. done. }
    destruct (flag_parse_other w argv d Hn Hdd) as [[b Hb]|[E|Hh]]; [|congruence|rewrite flag_parse_help in H by done; done].
    rewrite (flag_parse_flag _ _ _ _ Hb) in H. apply IH in H as (ws & bs & rest & -> & Hf & He & ->).
    exists (w :: ws), (b :: bs), rest. split; [done|]. split; [constructor; done|]. split; [done|].
    destruct bs as [|b' bs]; [done|]. change (last (b :: b' :: bs)) with (last (b' :: bs)). destruct (last (b' :: bs)) eqn:E; [done|]. apply last_None in E. done.
Qed.
Lemma C80_daemon_lemma argv : main_mode argv = Daemon <->
  exists ws bs rest, argv = ws ++ rest /\ Forall2 dflag ws bs /\ flags_end rest /\ last bs = Some true.
Proof.
  unfold main_mode. split.
  - intros H. destruct (flag_parse argv false) as [|[]] eqn:E; try done. apply flag_parse_spec in E as (ws & bs & rest & ? & ? & ? & E).
    exists ws, bs, rest. split; [done|]. split; [done|]. split; [done|]. destruct (last bs) as [[]|]; done.
  - intros (ws & bs & rest & E & H1 & H2 & H3). assert (flag_parse argv false = inr true) as ->; [|done].
    apply flag_parse_spec. exists ws, bs, rest. rewrite H3. done.
Qed.
Lemma C80_client_lemma argv argv' : main_mode argv = Client argv' <-> argv' = argv /\
  exists ws bs rest, argv = ws ++ rest /\ Forall2 dflag ws bs /\ flags_end rest /\ last bs <> Some true.
Proof.
  unfold main_mode. split.
  - intros H. destruct (flag_parse argv false) as [|[]] eqn:E; try done. injection H as <-. split; [done|]. apply flag_parse_spec in E as (ws & bs & rest & ? & ? & ? & E).
    exists ws, bs, rest. split; [done|]. split; [done|]. split; [done|]. destruct (last bs) as [[]|]; done.
  - intros (-> & ws & bs & rest & E & H1 & H2 & H3). assert (flag_parse argv false = inr false) as ->; [|done].
    apply flag_parse_spec. exists ws, bs, rest. destruct (last bs) as [[]|]; done.
Qed.
Lemma flag_parse_bad w : bad_flag w -> exists c, (forall rest d, flag_parse (w :: rest) d = inl c) /\ (help_flag w /\ c = 0%Z \/ ~ help_flag w /\ c = 2%Z).
Proof.
  intros (Hn & Hdd & Hb). destruct (flag_parse_other w [] false Hn Hdd) as [[b H]|[H|H]].
  - by apply Hb in H.
  - assert (~ help_flag w) as Hh by (intros Hh; rewrite flag_parse_help in H by done; done).
    exists 2%Z. split; [|by right]. intros rest d. destruct (flag_parse_other w rest d Hn Hdd) as [[b H']|[H'|H']]; [by apply Hb in H'|done|done].
  - exists 0%Z. split; [|by left]. intros rest d. apply flag_parse_help. done.
Qed.
Lemma C80_exit_lemma argv code : main_mode argv = Exit code <->
  exists ws bs w rest, argv = ws ++ w :: rest /\ Forall2 dflag ws bs /\ bad_flag w /\ (help_flag w /\ code = 0%Z \/ ~ help_flag w /\ code = 2%Z).
Proof.
  assert (forall d, flag_parse argv d = inl code <->
    exists ws bs w rest, argv = ws ++ w :: rest /\ Forall2 dflag ws bs /\ bad_flag w /\ (help_flag w /\ code = 0%Z \/ ~ help_flag w /\ code = 2%Z)) as H.
  { induction argv as [|w argv IH]; intros d.
    - split; [done|]. intros (ws & bs & w & rest & E & _). destruct ws; done.
    - split.
      + intros H. destruct (decide (w = [dash; dash])) as [->|Hdd]; [done|].
        assert (~ no_flag w) as Hn by (intros Hn; rewrite flag_parse_end in H by (left; done); done).
        destruct (flag_parse_other w [] false Hn Hdd) as [[b Hb]|Hc].
        * rewrite (flag_parse_flag _ _ _ _ Hb) in H. apply IH in H as (ws & bs & w' & rest & -> & Hf & Hr).
          exists (w :: ws), (b :: bs), w', rest. split; [done|]. split; [constructor; done|done].
        * assert (bad_flag w) as Hbad.
          { split; [done|]. split; [done|]. intros b Hb. pose proof (flag_parse_flag w b [] false Hb) as E1. change (flag_parse [] b) with (inr b : Z + bool) in E1. destruct Hc as [Hc|Hc]; [congruence|].
            rewrite flag_parse_help in E1; done. }
          destruct (flag_parse_bad w Hbad) as (cd & E & Hh). rewrite E in H. injection H as <-.
          exists [], [], w, argv. done.
      + intros (ws & bs & w' & rest & E & Hf & Hbad & Hc). destruct Hf as [|w0 b ws bs Hw Hf].
        * injection E as <- <-. destruct (flag_parse_bad w Hbad) as (cd & -> & Hh). destruct Hc as [[Hc ->]|[Hc ->]], Hh as [[Hh ->]|[Hh ->]]; done.
        * injection E as <- ->. rewrite (flag_parse_flag _ _ _ _ Hw). apply IH. exists ws, bs, w', rest. done. }
  unfold main_mode. specialize (H false). rewrite <- H. destruct (flag_parse argv false) as [|[]]; split; congruence.
Qed.
Lemma C80_command_lemma cmd args : no_flag cmd -> main_mode (cmd :: args) = Client (cmd :: args).
Proof. intros H. unfold main_mode. rewrite flag_parse_end by (left; done). done. Qed.
Lemma dflag_unknown w b rest : dflag w b -> client_parse (w :: rest) = PRefuse 0.
Proof.
  destruct 1 as [w [-> | ->]|w v b Hv Hw]; [done|done|].
  unfold truths in Hv. repeat (apply elem_of_cons in Hv as [[= -> ->]|Hv]; [destruct Hw as [-> | ->]; done|]). inversion Hv.
Qed.
Lemma C80_flags_lemma ws bs rest : Forall2 dflag ws bs -> ws <> [] -> flags_end rest -> last bs = Some false ->
  exists argv, main_mode (ws ++ rest) = Client argv /\ client_parse argv = PRefuse 0.
Proof.
  intros Hf Hn He Hl. exists (ws ++ rest). unfold main_mode. assert (flag_parse (ws ++ rest) false = inr false) as ->.
  { apply flag_parse_spec. exists ws, bs, rest. rewrite Hl. done. }
  split; [done|]. destruct Hf as [|w b ws bs Hw _]; [done|]. eapply dflag_unknown. done.
Qed.
