(** Specification vocabulary for uploads that are requested more than once. *)
From Verif Require Export Workers TransferSpec.

(** [kexec l cs i cap K n rs]: chunk [i] of file [l] (chunk size [cs]) was requested with window
    [cap]; since then [n] acknowledgements and the further requests [rs] (hash and size of the chunk
    that each of them is for) have come in from the same address and port *)
Inductive kexec (l : list byte) (cs i : nat) (cap : N) : kstate -> nat -> list (hash * Z) -> Prop :=
| ke_start fuel rd : new_chunk_reader fuel (FRegular l) (chunk_section (Z.of_nat i) (Z.of_nat cs)) = Some rd ->
    kexec l cs i cap (kstart rd) 0 []
| ke_ack K n rs : kexec l cs i cap K n rs -> kexec l cs i cap (kack K) (S n) rs
| ke_request K n rs h size : kexec l cs i cap K n rs -> kexec l cs i cap (krequest K h size) n (rs ++ [(h, size)])
| ke_move K n rs j b K' : kexec l cs i cap K n rs -> kmove l cap j b K = Some (Some K') -> kexec l cs i cap K' n rs.
(** some goroutine's next step is a panic *)
Definition kdies (l : list byte) (cap : N) (K : kstate) : Prop := exists j b, kmove l cap j b K = Some None.
(** a packet that is not a header carries the bytes of the chunk at its offset *)
Definition true_packet (bytes : list byte) (p : packet) : Prop :=
  p.1 <> 0%N -> p.2 = take (length p.2) (drop (N.to_nat p.1) bytes).
Global Instance true_packet_dec bytes p : Decision (true_packet bytes p).
Proof. unfold true_packet. apply _. Defined.
(** at most [n] bytes of [l] in a row *)
Definition piece (l : list byte) (n : nat) (d : list byte) : Prop := length d <= n /\ exists o, d = take (length d) (drop o l).
(** a header for a chunk with this hash and size, with bytes of file [l] *)
Definition header_for (l : list byte) (r : hash * Z) (p : packet) : Prop :=
  p.1 = 0%N /\ exists d, piece l 1000 d /\ p.2 = r.1 ++ be 4 (u32_of_int r.2) ++ d.
(** a goroutine that has returned, waits at the select of its worker, or waits to put a token into
    the full cancelChan *)
Definition resting (m : wmem) (t : wthread) : Prop :=
  match t with
  | THandler _ _ HEnd | TWorker WSelect | TWorker WEnd => True
  | TWorker (WTerm (S _)) => g_tok m = true
  | _ => False
  end.
(** how many goroutines are workers at the select, and how many are blocked *)
Definition at_select (t : wthread) : nat := match t with TWorker WSelect => 1 | _ => 0 end.
Definition at_term (t : wthread) : nat := match t with TWorker (WTerm (S _)) => 1 | _ => 0 end.
