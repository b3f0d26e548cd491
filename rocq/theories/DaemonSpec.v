(** Specification vocabulary for starting daemons. *)
From Verif Require Export Daemon ServerSpec.

Definition alive (h : machine) (i : nat) : Prop := exists p, mc_procs h !! i = Some p /\ p_alive p = true.
(** daemon [i] reads the datagrams that arrive at the port *)
Definition receives (h : machine) (i : nat) : Prop :=
  exists p, mc_procs h !! i = Some p /\ p_alive p = true /\ p_udp p = UdpServe.
(** a command typed now reaches daemon [i] *)
Definition commands (h : machine) (i : nat) : Prop :=
  mc_sock h = Some i /\ exists p, mc_procs h !! i = Some p /\ p_alive p = true /\ p_cli p = CliServe.
(** nothing happens any more unless somebody starts or kills a daemon *)
Definition at_rest (ifs : option (list ifaddr)) (h : machine) : Prop :=
  forall i, dnext ifs h (DCli i) = None /\ dnext ifs h (DUdp i) = None.
(** the machine has an IPv4 address other than the loopback *)
Definition has_address (ifs : option (list ifaddr)) : Prop := exists l a, ifs = Some l /\ own_address l a.
(** only daemon [i] runs *)
Definition only (i : nat) (l : list dlabel) : Prop := Forall (fun a => a = DCli i \/ a = DUdp i) l.
(** a daemon that was started got as far as removing the socket *)
Definition removed (h : machine) (j : nat) : Prop := exists p, mc_procs h !! j = Some p /\ p_cli p <> CliRemove.
(** nobody is there *)
Definition nobody (h : machine) : Prop := forall i, ~ alive h i.
(** interface addresses as Go hands them out *)
Definition ifs_wf (ifs : option (list ifaddr)) : Prop := match ifs with Some l => Forall if_wf l | None => True end.
