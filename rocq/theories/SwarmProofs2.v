(** Examples of downloads from several hosts. *)
From Verif Require Export SwarmProofs DownloadProofs4.

(** a host that announces chunks and then stays silent *)
Definition ex_silent : list byte := [xc0; xa8; x01; x0a].
Definition ex_two : list hostresp := [mkResp ex_silent 61696 4 [0; 1]%N; mkResp ex_host 61696 4 [0; 1]%N].
Definition ex_many : list hostresp := mkResp ex_own 61696 4 [0; 1]%N :: ex_two.
Definition ex_says (silent : bool) (pc : lpc) : list (list byte) :=
  match pc with
  | LChunk _ (r :: _) => if silent && bool_decide (h_addr r = ex_silent) then [] else ex_ds
  | _ => []
  end.
Fixpoint ex_rounds (silent : bool) (k : nat) (a : lworld) (out : list dgram) : option (lworld * list dgram) :=
  match k with
  | O => Some (a, out)
  | S k' => match lstep ex_own hnew ex_many (Some (ex_says silent (l_pc a))) a with
            | Some (b, o) => ex_rounds silent k' b (out ++ o) | None => None end
  end.
Definition ex_finished (silent : bool) : bool :=
  match ex_rounds silent 7 (mkL LCheck ex3.1.1 ex3.1.2 ∅) [] with
  | Some (b, out) => match l_pc b with LDone => true | _ => false end
      && bool_decide (file_at (l_fs b) (bs "/dl/new") = Some (bs "abcde"))
      && bool_decide (map dg_ip out = [ex_silent; ex_host])
      && forallb (fun d => bool_decide (dg_data d = serialize (OpenReq hnew 0 1024))) out
  | None => false
  end.
Lemma C84_run_lemma : ex_finished true = true.
Proof. vm_compute. reflexivity. Qed.
Lemma C85_run_lemma : ex_finished false = true.
Proof. vm_compute. reflexivity. Qed.
Lemma ex_two_good : Forall (good ex_own) ex_two.
Proof. apply Forall_cons; split; [split; vm_compute; discriminate|]. apply Forall_cons; split; [split; vm_compute; discriminate|constructor]. Qed.
Lemma C84_case_lemma : exists n out b,
  lexec ex_own hnew (swarm ex_own (seeded ex_host) (eq ex_two) (bs "abcde") 3) (mkL LCheck ex3.1.1 ex3.1.2 ∅) n out b
  /\ l_pc b = LDone /\ out = ask_all hnew 0 ex_two
  /\ default [] (file_at (l_fs b) (bs "/dl/new")) = bs "abcde".
Proof.
  destruct C63_case_lemma as (H1 & H2 & H3 & H4 & H5 & H6 & H7 & H8 & H9).
  assert (a_count ex_new <= 65536)%Z as Hmax by (vm_compute; discriminate).
  destruct (C84_completes_lemma _ _ _ _ _ _ _ _ 3 (bs "abcde") ex_own (seeded ex_host) (eq ex_two) 2 H1 H2 ltac:(lia) H3 H4 Hmax H5 H6 H7 H8) as (n & out & b & Hex & Hd).
  { intros hs <-. vm_compute. lia. }
  { intros i _. exists ex_two. split; [reflexivity|]. split; [apply Exists_cons_tl, Exists_cons_hd; reflexivity|exact ex_two_good]. }
  exists n, out, b. split; [exact Hex|]. split; [exact Hd|].
  pose proof (C85_lemma _ _ _ _ _ _ _ _ 3 (bs "abcde") ex_own (seeded ex_host) ex_two n out b H1 H2 ltac:(lia) H3 H4 Hmax H5 H6 H7 H8 Hex Hd) as Ho.
  destruct (C84_lemma _ _ _ _ _ _ _ _ 3 (bs "abcde") ex_own (seeded ex_host) (eq ex_two) 2 n out b H1 H2 ltac:(lia) H3 H4 Hmax H5 H6 H7 H8
    ltac:(intros hs <-; vm_compute; lia) Hex) as (_ & _ & HD). destruct (HD Hd) as [_ HF].
  split; [rewrite Ho, H9; cbn [map concat]; apply app_nil_r|].
  change (bs "/dl/new") with (a_path ex_new). rewrite HF. cbn [ex_new hold entry_new new_entry a_path]. rewrite ex3_new. vm_compute. reflexivity.
Qed.
Lemma C86_case_lemma : reached ex_cwd ex_dir ex_dl A2 ex2.1.1 ex2.1.2 /\ A2 !! hnew = Some entry_new
  /\ todo entry_new = [0; 1]%N
  /\ exists n out b, lexec ex_own hnew (nobody_has 0) (mkL LCheck ex2.1.1 ex2.1.2 ∅) n out b /\ length out = 6.
Proof.
  split; [exact ex2_reached|]. split; [exact A2_new|]. split; [vm_compute; reflexivity|].
  destruct (C86_forever_lemma ex_cwd ex_dir ex_dl A2 ex2.1.1 ex2.1.2 hnew entry_new ex_own 0 ex_two 3) as (b & Hb & _).
  - exact ex2_reached.
  - exact A2_new.
  - vm_compute. discriminate.
  - vm_compute. reflexivity.
  - cbn [entry_new new_entry a_held]. apply not_elem_of_empty.
  - intros j Hj. exfalso. revert Hj. apply N.nlt_0_r.
  - exact ex_two_good.
  - eexists _, _, b. split; [exact Hb|]. reflexivity.
Qed.
