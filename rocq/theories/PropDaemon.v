(** Properties of starting daemons on a machine (C100, C101, C102). *)
From Verif Require Import DaemonProofs2 ServerCases.

(** *** C100: however many daemons are started and killed, at most one reads the datagrams of the port; *)
Theorem C100_one_receiver :
  forall ifs l h i j, dsteps ifs no_daemon l h -> receives h i -> receives h j -> i = j.
Proof. exact C100_lemma. Qed.
Print Assumptions C100_one_receiver.
(** and once nothing happens any more, at most one is left, and it reads them. *)
Theorem C100_one_left :
  forall ifs l h i, dsteps ifs no_daemon l h -> at_rest ifs h -> alive h i ->
    receives h i /\ forall j, alive h j -> j = i.
Proof. exact C100_rest_lemma. Qed.
Print Assumptions C100_one_left.
Definition ex_ifaces : option (list ifaddr) := Some [IfOther; IfNet (exact_slice [Nb 127; x00; x00; x01]); IfNet (exact_slice ex_own)].
Definition up : dproc := mkProc true CliServe UdpServe.
(** the second daemon dies; a third takes over after the first was killed *)
Example C100_case :
  mach_run ex_ifaces no_daemon [DBoot; DCli 0; DUdp 0; DUdp 0; DCli 0; DBoot; DUdp 1] = Some (mkMachine [up; mkProc false CliRemove UdpBind] (Some 0) (Some 0))
  /\ mach_run ex_ifaces no_daemon [DBoot; DCli 0; DUdp 0; DUdp 0; DCli 0; DKill 0; DBoot; DUdp 1; DCli 1; DUdp 1; DCli 1]
     = Some (mkMachine [mkProc false CliServe UdpServe; up] (Some 1) (Some 1)).
Proof. by vm_compute. Qed.

(** *** C101: a daemon that is up stays up and keeps reading datagrams whatever else is started or killed,
    and commands reach it exactly as long as no later daemon gets to removing the socket
    before it dies. *)
Theorem C101_second_start_partial :
  forall ifs l0 h i l h', dsteps ifs no_daemon l0 h -> at_rest ifs h -> commands h i -> dsteps ifs h l h' -> DKill i ∉ l ->
    alive h' i /\ receives h' i
    /\ (commands h' i <-> forall j, length (mc_procs h) <= j -> ~ removed h' j).
Proof. exact C101_lemma. Qed.
Print Assumptions C101_second_start_partial.
(** A second daemon, started while the first is up, can die and leave the first without commands:
    it has removed the first one's socket, or replaced it by one that nobody listens to. *)
Theorem C101_cut_off_refuted :
  exists l0 h h1 h2, dsteps ex_ifaces no_daemon l0 h /\ at_rest ex_ifaces h /\ commands h 0
    /\ dsteps ex_ifaces h [DBoot; DCli 1; DUdp 1] h1 /\ at_rest ex_ifaces h1 /\ receives h1 0 /\ mc_sock h1 = None
    /\ dsteps ex_ifaces h [DBoot; DCli 1; DCli 1; DUdp 1] h2 /\ at_rest ex_ifaces h2 /\ receives h2 0 /\ mc_sock h2 = Some 1 /\ ~ alive h2 1.
Proof.
  exists [DBoot; DCli 0; DUdp 0; DUdp 0; DCli 0], (mkMachine [up] (Some 0) (Some 0)),
    (mkMachine [up; mkProc false CliListen UdpBind] None (Some 0)), (mkMachine [up; mkProc false CliServe UdpBind] (Some 1) (Some 0)).
  split; [by apply mach_run_steps|]. split; [by apply rest_dec|]. split; [split; [done|by eexists]|].
  split; [by apply mach_run_steps|]. split; [by apply rest_dec|]. split; [by eexists|]. split; [done|].
  split; [by apply mach_run_steps|]. split; [by apply rest_dec|]. split; [by eexists|]. split; [done|]. by intros (p & [= <-] & [=]).
Qed.
Print Assumptions C101_cut_off_refuted.
(** a second daemon that is killed before it gets to the socket does no harm *)
Example C101_case :
  mc_sock <$> mach_run ex_ifaces (mkMachine [up] (Some 0) (Some 0)) [DBoot; DKill 1] = Some (Some 0)
  /\ mc_sock <$> mach_run ex_ifaces (mkMachine [up] (Some 0) (Some 0)) [DBoot; DUdp 1] = Some (Some 0)
  /\ mc_sock <$> mach_run ex_ifaces (mkMachine [up] (Some 0) (Some 0)) [DBoot; DCli 1; DKill 1] = Some None.
Proof. by vm_compute. Qed.

(** *** C102: a daemon that is started while no other is there, whatever its predecessors left behind, takes at
    most four steps; then it is up, for datagrams and for commands, if the machine has an
    IPv4 address, and dead otherwise. *)
Theorem C102_starts_partial :
  forall ifs l0 h h1 n l h', ifs_wf ifs -> dsteps ifs no_daemon l0 h -> nobody h -> n = length (mc_procs h) ->
    dnext ifs h DBoot = Some h1 -> dsteps ifs h1 l h' -> only n l ->
    length l <= 4
    /\ (at_rest ifs h' -> (has_address ifs -> receives h' n /\ commands h' n) /\ (~ has_address ifs -> nobody h')).
Proof. exact C102_lemma. Qed.
Print Assumptions C102_starts_partial.
(** after a kill the socket of the dead daemon is there; without an address the daemon dies *)
Example C102_case :
  mach_run ex_ifaces no_daemon [DBoot; DCli 0; DUdp 0; DCli 0; DKill 0] = Some (mkMachine [mkProc false CliServe UdpShow] (Some 0) None)
  /\ mach_run ex_ifaces no_daemon [DBoot; DCli 0; DUdp 0; DCli 0; DKill 0; DBoot; DCli 1; DCli 1; DUdp 1; DUdp 1]
     = Some (mkMachine [mkProc false CliServe UdpShow; up] (Some 1) (Some 1))
  /\ mach_run (Some [IfOther]) no_daemon [DBoot; DCli 0; DCli 0; DUdp 0; DUdp 0] = Some (mkMachine [mkProc false CliServe UdpShow] (Some 0) None)
  /\ ifs_wf ex_ifaces /\ has_address ex_ifaces.
Proof.
  split; [by vm_compute|]. split; [by vm_compute|]. split; [by vm_compute|].
  assert (Hw : ifs_wf ex_ifaces) by (repeat constructor). split; [done|]. apply (good_address _ Hw). eexists. by vm_compute.
Qed.
(** Two daemons started at the same time, with nobody else there, can both die: one gets the socket,
    the other the port. *)
Theorem C102_both_die_refuted :
  exists h, dsteps ex_ifaces no_daemon [DBoot; DBoot; DCli 0; DCli 1; DCli 0; DUdp 1; DUdp 0; DCli 1] h /\ at_rest ex_ifaces h /\ nobody h.
Proof.
  exists (mkMachine [mkProc false CliServe UdpBind; mkProc false CliListen UdpShow] (Some 0) None).
  split; [by apply mach_run_steps|]. split; [by apply rest_dec|]. intros [|[|i]] (p & [= <-] & [=]).
Qed.
Print Assumptions C102_both_die_refuted.
