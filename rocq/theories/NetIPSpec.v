(** Specification vocabulary for textual addresses (RFC 4291 2.2).  It does not
    mention the model. *)
From Verif Require Export GoBase.

Definition digit_value (b : byte) : option N :=
  let n := bN b in
  if ((48 <=? n) && (n <=? 57))%N then Some (n - 48)%N
  else if ((97 <=? n) && (n <=? 102))%N then Some (n - 87)%N
  else if ((65 <=? n) && (n <=? 70))%N then Some (n - 55)%N
  else None.
(** the value of digits in a base; [None] if something is not a digit of that base *)
Fixpoint numeral (base acc : N) (s : list byte) : option N :=
  match s with
  | [] => Some acc
  | b :: s' =>
      match digit_value b with
      | Some d => if (d <? base)%N then numeral base (acc * base + d) s' else None
      | None => None
      end
  end.
(** a number below 256 in decimal without leading zeros *)
Definition octet (s : list byte) (n : N) : Prop :=
  s <> [] /\ numeral 10 0 s = Some n /\ (n < 256)%N /\ (s !! 0 = Some x30 -> s = [x30]).
(** a.b.c.d *)
Definition dotted (s : list byte) (q : list byte) : Prop :=
  exists a b c d na nb nc nd, s = a ++ x2e :: b ++ x2e :: c ++ x2e :: d
    /\ octet a na /\ octet b nb /\ octet c nc /\ octet d nd /\ q = [Nb na; Nb nb; Nb nc; Nb nd].
(** a group: a number below 65536 in hexadecimal, leading zeros allowed *)
Definition v6group (s : list byte) (n : N) : Prop := s <> [] /\ numeral 16 0 s = Some n /\ (n < 65536)%N.
(** groups separated by colons, with the bytes they stand for *)
Inductive groups : list byte -> list byte -> Prop :=
| gr_one s n : v6group s n -> groups s [Nb (n / 256); Nb n]
| gr_more s n s' q : v6group s n -> groups s' q -> groups (s ++ x3a :: s') ([Nb (n / 256); Nb n] ++ q).
(** ... the last of which may be a dotted IPv4 address *)
Inductive ending : list byte -> list byte -> Prop :=
| en_one s n : v6group s n -> ending s [Nb (n / 256); Nb n]
| en_v4 s q : dotted s q -> ending s q
| en_more s n s' q : v6group s n -> ending s' q -> ending (s ++ x3a :: s') ([Nb (n / 256); Nb n] ++ q).
(** the text of an IPv6 address: 16 bytes in full, or with one "::" for the zeros
    that are left out, at least two *)
Definition v6_text (s ip : list byte) : Prop :=
  (ending s ip /\ length ip = 16)
  \/ exists l r il ir, s = l ++ x3a :: x3a :: r
       /\ (l = [] /\ il = [] \/ groups l il) /\ (r = [] /\ ir = [] \/ ending r ir)
       /\ length il + length ir <= 14 /\ ip = il ++ replicate (16 - length il - length ir) x00 ++ ir.
