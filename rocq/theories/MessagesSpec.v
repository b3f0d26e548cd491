(** Specification vocabulary for the wire-format theorems. *)
From Verif Require Export Messages.

(** what is left of a name on the wire *)
Definition cut_name (e : lfentry) : lfentry :=
  mkEntry (e_size e) (e_count e) (e_chunk e) (e_down e) (e_hash e) (take 255 (e_name e)).

(** Length limits of the format *)
Definition within_limits (m : message) : Prop :=
  match m with
  | DiscReq _ _ cs | DiscResp _ _ _ cs => length cs <= 255
  | ListResp _ fs => (N.of_nat (length fs) <= 65535)%N /\ Forall (fun e => length (e_name e) <= 255) fs
  | _ => True
  end.

(** The receiver's view of a message, whatever its size *)
Definition wire_view (m : message) : message :=
  match m with
  | DiscReq r h cs => DiscReq r h (take (length cs mod 256) cs)
  | DiscResp a p r cs => DiscResp a p r (take (length cs mod 256) cs)
  | ListResp r fs => ListResp r (map cut_name (take (N.to_nat (N.of_nat (length fs) mod 65536)) fs))
  | m => m
  end.
Definition is_data (m : message) : Prop := match m with Data _ _ => True | _ => False end.

(** bytes taken by the entries of a listing, and by a whole message *)
Fixpoint entries_size (fs : list lfentry) : nat :=
  match fs with [] => 0 | e :: fs => 41 + Nat.min 255 (length (e_name e)) + entries_size fs end.

Definition wire_size (m : message) : nat :=
  match m with
  | DiscReq _ _ cs => 24 + 2 * length cs
  | DiscResp _ _ _ cs => 10 + 2 * length cs
  | ListReq _ _ => 23
  | ListResp _ fs => 5 + entries_size fs
  | OpenReq _ _ _ => 32
  | Data _ d => 5 + length d
  | Ack _ => 5
  end.

(** [entries_fit n l]: [l] starts with [n] well-delimited listing entries (40
    fixed bytes, a length byte, that many name bytes). *)
Inductive entries_fit : nat -> list byte -> Prop :=
| fit_0 l : entries_fit 0 l
| fit_S n fixed len name rest :
    length fixed = 40 -> length name = N.to_nat (bN len) -> entries_fit n rest ->
    entries_fit (S n) (fixed ++ len :: name ++ rest).

