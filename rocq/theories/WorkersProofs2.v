(** Executions of uploads that are requested twice (C111-C113). *)
From Verif Require Export WorkersProofs.
From Verif Require Import HashProofs ChunkProofs.

(** a schedule: an acknowledgement, a further request for the same chunk, or [c] steps of goroutine [j] *)
Inductive kev := VAck | VReq | VGo (j c : nat) (b : bool).
Fixpoint kgo (l : list byte) (cap : N) (j c : nat) (b : bool) (K : kstate) : option kstate :=
  match c with
  | O => Some K
  | S c' => match kmove l cap j b K with Some (Some K') => kgo l cap j c' b K' | _ => None end
  end.
Fixpoint krun (l : list byte) (cap : N) (h : hash) (z : Z) (vs : list kev) (K : kstate) : option kstate :=
  match vs with
  | [] => Some K
  | VAck :: vs' => krun l cap h z vs' (kack K)
  | VReq :: vs' => krun l cap h z vs' (krequest K h z)
  | VGo j c b :: vs' => match kgo l cap j c b K with Some K' => krun l cap h z vs' K' | None => None end
  end.
Definition vacks (vs : list kev) : nat := sum_list_with (fun v => match v with VAck => 1 | _ => 0 end) vs.
Definition vreqs (vs : list kev) : nat := sum_list_with (fun v => match v with VReq => 1 | _ => 0 end) vs.
Lemma kgo_exec l cs i cap j b n rs c : forall K K', kexec l cs i cap K n rs -> kgo l cap j c b K = Some K' ->
  kexec l cs i cap K' n rs.
Proof.
  induction c as [|c IH]; intros K K' H; cbn [kgo]; [intros [= <-]; exact H|].
  destruct (kmove l cap j b K) as [[K1|]|] eqn:E; [|done|done]. apply IH. eapply ke_move; [exact H|exact E].
Qed.
Lemma krun_exec l cs i cap h z vs : forall K K' n rs, kexec l cs i cap K n rs -> krun l cap h z vs K = Some K' ->
  kexec l cs i cap K' (n + vacks vs) (rs ++ replicate (vreqs vs) (h, z)).
Proof.
  induction vs as [|v vs IH]; intros K K' n rs H; cbn [krun].
  - intros [= <-]. unfold vacks, vreqs. cbn. rewrite Nat.add_0_r, app_nil_r. exact H.
  - destruct v as [| |j c b].
    + intros Hr. apply (IH _ _ _ _ (ke_ack _ _ _ _ _ _ _ H)) in Hr.
      change (vacks (VAck :: vs)) with (S (vacks vs)). change (vreqs (VAck :: vs)) with (vreqs vs).
      replace (n + S (vacks vs)) with (S n + vacks vs) by lia. exact Hr.
    + intros Hr. apply (IH _ _ _ _ (ke_request _ _ _ _ _ _ _ h z H)) in Hr.
      change (vacks (VReq :: vs)) with (vacks vs). change (vreqs (VReq :: vs)) with (S (vreqs vs)).
      cbn [replicate]. rewrite <- app_assoc in Hr. exact Hr.
    + destruct (kgo l cap j c b K) as [K1|] eqn:E; [|done]. intros Hr.
      eapply kgo_exec in E; [|exact H]. exact (IH _ _ _ _ E Hr).
Qed.
(** a run that starts with the request, for a file whose hash is not computed *)
Definition kfirst (l : list byte) (cs i : nat) (h : hash) : kstate :=
  mkK (mkWm (sec_at cs i 0) 0 0 false []) [THandler h (Z.of_nat (length (chunk_bytes l cs i))) HReset].
Lemma krun_first l cs i cap vs K : (Z.of_nat cs < 4294967296)%Z -> (Z.of_nat i < 65536)%Z ->
  krun l cap (sha1 (chunk_bytes l cs i)) (Z.of_nat (length (chunk_bytes l cs i))) vs (kfirst l cs i (sha1 (chunk_bytes l cs i))) = Some K ->
  kexec l cs i cap K (vacks vs) (replicate (vreqs vs) (sha1 (chunk_bytes l cs i), Z.of_nat (length (chunk_bytes l cs i)))).
Proof.
  intros Hcs Hi H. destruct (C73_ok_lemma l cs i Hcs Hi) as (fuel & rd & Hrd).
  pose proof (ke_start l cs i cap fuel rd Hrd) as H0.
  rewrite (reader_at l cs i fuel rd Hcs Hi Hrd) in H0.
  exact (krun_exec l cs i cap _ _ vs _ _ 0 [] H0 H).
Qed.

(** 4200 bytes that repeat with period 251; chunk 0 of size 2100 *)
Definition ex_bytes : list byte := map (fun k => Nb (N.of_nat (k mod 251))) (seq 0 4200).
(** both handlers get to their ends, both workers take an acknowledgement; worker 1 stops before
    reading, having noted its offset, while worker 3 sends a packet *)
Definition ex_mix : list kev :=
  [VGo 0 10 true; VReq; VGo 2 10 true; VAck; VAck; VGo 1 5 true; VGo 3 11 true; VGo 1 7 true].
(** what a run with hash [h] leads to *)
Definition on_run (l : list byte) (cs i : nat) (cap : N) (vs : list kev) (h : hash) (f : kstate -> bool) : bool :=
  match krun l cap h (Z.of_nat (length (chunk_bytes l cs i))) vs (kfirst l cs i h) with
  | Some K => f K | None => false end.
Lemma on_run_exec l cs i cap vs f : (Z.of_nat cs < 4294967296)%Z -> (Z.of_nat i < 65536)%Z ->
  on_run l cs i cap vs (sha1 (chunk_bytes l cs i)) f = true ->
  exists K, kexec l cs i cap K (vacks vs) (replicate (vreqs vs) (sha1 (chunk_bytes l cs i), Z.of_nat (length (chunk_bytes l cs i))))
    /\ f K = true.
Proof.
  unfold on_run. intros Hcs Hi. destruct (krun _ _ _ _ _ _) as [K|] eqn:E; [|done].
  intros Hf. exists K. split; [|exact Hf]. apply krun_first; done.
Qed.
Lemma mix_run h : on_run ex_bytes 2100 0 2 ex_mix h
  (fun K => (length (g_sent (k_mem K)) =? 4)%nat
    && match g_sent (k_mem K) !! 3 with
       | Some p => bool_decide (p.1 = 1000%N) && (length p.2 =? 76)%nat
           && bool_decide (~ true_packet (chunk_bytes ex_bytes 2100 0) p)
       | None => false end) = true.
Proof. vm_compute. reflexivity. Qed.
(** worker 1 reads windowSize and stores it only after worker 3 has sent all it may, over and over *)
Definition ex_window : list kev :=
  [VGo 0 10 true; VReq; VGo 2 10 true; VAck; VAck; VGo 1 4 true; VGo 3 4 true; VGo 1 8 true; VGo 3 30 true;
   VGo 1 10 true; VGo 3 20 true; VGo 1 10 true; VGo 3 10 true; VGo 1 10 true; VGo 3 9 true].
Definition ex_long : list byte := replicate (30 * 1000) x61.
Lemma window_run h : on_run ex_long (40 * 1000) 0 4 ex_window h
  (fun K => (length (g_sent (k_mem K)) =? 13)%nat && bool_decide (Forall (fun p => p.2 <> []) (drop 2 (g_sent (k_mem K))))) = true.
Proof. vm_compute. reflexivity. Qed.
(** worker 1 has clipped its buffer, worker 3 has seen that it is not at the end *)
Definition ex_crash : list kev :=
  [VGo 0 10 true; VReq; VGo 2 10 true; VAck; VAck; VGo 1 7 true; VGo 3 16 true; VGo 1 3 true].
Lemma crash_run h : on_run ex_bytes 2100 0 4 ex_crash h
  (fun K => (length (g_sent (k_mem K)) =? 3)%nat
    && match kmove ex_bytes 4 3 true K with Some None => true | _ => false end) = true.
Proof. vm_compute. reflexivity. Qed.
(** the second handler has rewound the reader when worker 1 reads *)
Definition ex_rewound : list kev := [VGo 0 10 true; VAck; VReq; VGo 2 1 true; VGo 1 21 true].
Definition ex_zeros : list byte := replicate 3000 x00.
Lemma rewound_run : on_run ex_zeros 4096 0 4 ex_rewound (sha1 (chunk_bytes ex_zeros 4096 0))
  (fun K => (length (g_sent (k_mem K)) =? 3)%nat
    && match recv_all new_recv (g_sent (k_mem K)) with Panic _ => true | _ => false end) = true.
Proof. vm_compute. reflexivity. Qed.

Lemma C111_refuted_lemma : exists l cs i cap K n,
  kexec l cs i cap K n [(sha1 (chunk_bytes l cs i), Z.of_nat (length (chunk_bytes l cs i)))]
  /\ n <= length (g_sent (k_mem K))
  /\ exists p, p ∈ g_sent (k_mem K) /\ p.1 = 1000%N /\ length p.2 = 76 /\ ~ true_packet (chunk_bytes l cs i) p.
Proof.
  exists ex_bytes, 2100, 0, 2%N.
  destruct (on_run_exec ex_bytes 2100 0 2 ex_mix _ ltac:(reflexivity) ltac:(reflexivity) (mix_run _)) as (K & H & Hf).
  exists K, 2. split; [exact H|]. apply andb_prop in Hf as [Hl Hf]. apply Nat.eqb_eq in Hl.
  split; [lia|]. destruct (g_sent (k_mem K) !! 3) as [p|] eqn:Ep; [|discriminate Hf].
  apply andb_prop in Hf as [Hf H3]. apply andb_prop in Hf as [H1 H2].
  exists p. split; [eapply elem_of_list_lookup_2, Ep|].
  apply bool_decide_eq_true in H1. apply Nat.eqb_eq in H2. apply bool_decide_eq_true in H3. exact (conj H1 (conj H2 H3)).
Qed.
Lemma C112_refuted_lemma : exists l cs i cap K n,
  kexec l cs i cap K n [(sha1 (chunk_bytes l cs i), Z.of_nat (length (chunk_bytes l cs i)))]
  /\ cap = 4%N /\ n = 2 /\ length (g_sent (k_mem K)) = 13.
Proof.
  exists ex_long, (40 * 1000), 0, 4%N.
  destruct (on_run_exec ex_long (40 * 1000) 0 4 ex_window _ ltac:(reflexivity) ltac:(reflexivity) (window_run _)) as (K & H & Hf).
  exists K, 2. split; [exact H|]. apply andb_prop in Hf as [Hl _]. apply Nat.eqb_eq in Hl. exact (conj eq_refl (conj eq_refl Hl)).
Qed.
Lemma C113_refuted_lemma : exists l cs i cap K n,
  kexec l cs i cap K n [(sha1 (chunk_bytes l cs i), Z.of_nat (length (chunk_bytes l cs i)))]
  /\ n <= length (g_sent (k_mem K)) /\ kdies l cap K.
Proof.
  exists ex_bytes, 2100, 0, 4%N.
  destruct (on_run_exec ex_bytes 2100 0 4 ex_crash _ ltac:(reflexivity) ltac:(reflexivity) (crash_run _)) as (K & H & Hf).
  exists K, 2. split; [exact H|]. apply andb_prop in Hf as [Hl Hf]. apply Nat.eqb_eq in Hl. split; [lia|].
  exists 3, true. destruct (kmove ex_bytes 4 3 true K) as [[?|]|]; [discriminate Hf|reflexivity|discriminate Hf].
Qed.
Lemma C113_peer_refuted_lemma : exists l cs i cap K n w,
  kexec l cs i cap K n [(sha1 (chunk_bytes l cs i), Z.of_nat (length (chunk_bytes l cs i)))]
  /\ n <= length (g_sent (k_mem K)) /\ recv_all new_recv (g_sent (k_mem K)) = Panic w.
Proof.
  exists ex_zeros, 4096, 0, 4%N.
  destruct (on_run_exec ex_zeros 4096 0 4 ex_rewound _ ltac:(reflexivity) ltac:(reflexivity) rewound_run) as (K & H & Hf).
  exists K, 1. apply andb_prop in Hf as [Hl Hf]. apply Nat.eqb_eq in Hl.
  destruct (recv_all new_recv (g_sent (k_mem K))) as [?|?|w]; [discriminate Hf|discriminate Hf|].
  exists w. split; [exact H|]. split; [lia|reflexivity].
Qed.
