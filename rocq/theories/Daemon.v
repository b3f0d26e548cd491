(** Model of starting the daemon: main.go:47-107, for any number of daemons started and killed on
    one machine at any time.  Each has two goroutines that race: one makes the socket for commands, the
    other the UDP port.  Simplified: opening the catalogue (main.go:48-55) is in
    Catalogue.v and done before; no other program uses the port or the file of the socket; all daemons
    have the same rights; the profiling server (main.go:32-37) and resolving the address
    (main.go:68, a constant) are left out. *)
From Verif Require Export Server.

(** main.go:64-80: before line 65, before line 74, at line 78 *)
Inductive cli_pc := CliRemove | CliListen | CliServe.
(** main.go:83-101: before line 85, before line 88, in the loop *)
Inductive udp_pc := UdpBind | UdpShow | UdpServe.
#[global] Instance cli_pc_dec : EqDecision cli_pc.
Proof. solve_decision. Defined.
#[global] Instance udp_pc_dec : EqDecision udp_pc.
Proof. solve_decision. Defined.
Record dproc := mkProc { p_alive : bool; p_cli : cli_pc; p_udp : udp_pc }.
(** the daemons ever started, whose socket the file /tmp/flu-network.sock is, and who has port 61696; the
    file stays when its daemon dies, the port does not *)
Record machine := mkMachine { mc_procs : list dproc; mc_sock : option nat; mc_port : option nat }.
Definition no_daemon : machine := mkMachine [] None None.
#[global] Instance dproc_dec : EqDecision dproc.
Proof. solve_decision. Defined.
#[global] Instance machine_dec : EqDecision machine.
Proof. solve_decision. Defined.

Inductive dlabel := DBoot | DKill (i : nat) | DCli (i : nat) | DUdp (i : nat).
(** the process ends: by main.go:109-113 failHard, a panic or a signal *)
Definition dies_ (h : machine) (i : nat) : machine :=
  mkMachine (alter (fun p => mkProc false (p_cli p) (p_udp p)) i (mc_procs h)) (mc_sock h)
    (if decide (mc_port h = Some i) then None else mc_port h).
(** one step of goroutine main.go:64-80 *)
Definition cli_step (h : machine) (i : nat) (p : dproc) : option machine :=
  match p_cli p with
  | CliRemove => Some (mkMachine (<[i := mkProc true CliListen (p_udp p)]> (mc_procs h)) None (mc_port h))
  | CliListen =>
      match mc_sock h with
      | None => Some (mkMachine (<[i := mkProc true CliServe (p_udp p)]> (mc_procs h)) (Some i) (mc_port h))
      | Some _ => Some (dies_ h i)
      end
  | CliServe => None
  end.
(** one step of goroutine main.go:83-101; LocalIP can be nil, then String panics *)
Definition udp_step (ifs : option (list ifaddr)) (h : machine) (i : nat) (p : dproc) : option machine :=
  match p_udp p with
  | UdpBind =>
      match mc_port h with
      | None => Some (mkMachine (<[i := mkProc true (p_cli p) UdpShow]> (mc_procs h)) (mc_sock h) (Some i))
      | Some _ => Some (dies_ h i)
      end
  | UdpShow =>
      match local_ip ifs with
      | Ok (Some _) => Some (mkMachine (<[i := mkProc true (p_cli p) UdpServe]> (mc_procs h)) (mc_sock h) (mc_port h))
      | _ => Some (dies_ h i)
      end
  | UdpServe => None
  end.
(** what happens on the machine: a daemon is started (main.go:31-38), killed, or one of its goroutines (main.go:64, 83) runs *)
Definition dnext (ifs : option (list ifaddr)) (h : machine) (a : dlabel) : option machine :=
  match a with
  | DBoot => Some (mkMachine (mc_procs h ++ [mkProc true CliRemove UdpBind]) (mc_sock h) (mc_port h))
  | DKill i => match mc_procs h !! i with Some p => if p_alive p then Some (dies_ h i) else None | None => None end
  | DCli i => match mc_procs h !! i with Some p => if p_alive p then cli_step h i p else None | None => None end
  | DUdp i => match mc_procs h !! i with Some p => if p_alive p then udp_step ifs h i p else None | None => None end
  end.
Inductive dsteps (ifs : option (list ifaddr)) : machine -> list dlabel -> machine -> Prop :=
| ds_nil h : dsteps ifs h [] h
| ds_cons h a h' l h'' : dnext ifs h a = Some h' -> dsteps ifs h' l h'' -> dsteps ifs h (a :: l) h''.
