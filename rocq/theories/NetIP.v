(** Model of net.ParseIP of the Go 1.17 library (net/ip.go, net/parse.go), used at
    cli/cliClient.go:76. *)
From Verif Require Export Server Utf8 Hash.

(** net/parse.go: const big *)
Definition big : N := 16777215.
(** net/parse.go dtoi: the number and the count of digits; [None] is ok = false *)
Fixpoint dtoi_loop (s : list byte) (n : N) (i : nat) : option (N * nat) :=
  match s with
  | b :: s' =>
      if in_range 48 57 b then
        let n' := (n * 10 + (bN b - 48))%N in
        if (big <=? n')%N then None else dtoi_loop s' n' (S i)
      else Some (n, i)
  | [] => Some (n, i)
  end.
Definition dtoi (s : list byte) : option (N * nat) :=
  match dtoi_loop s 0 0 with Some (_, O) => None | r => r end.
(** net/parse.go xtoi *)
Fixpoint xtoi_loop (s : list byte) (n : N) (i : nat) : option (N * nat) :=
  match s with
  | b :: s' =>
      match from_hex_char b with
      | Some d => let n' := (n * 16 + d)%N in if (big <=? n')%N then None else xtoi_loop s' n' (S i)
      | None => Some (n, i)
      end
  | [] => Some (n, i)
  end.
Definition xtoi (s : list byte) : option (N * nat) :=
  match xtoi_loop s 0 0 with Some (_, O) => None | r => r end.

(** net/ip.go parseIPv4, the loop: [k] octets are left, [p] are read *)
Fixpoint parse_ipv4_loop (k : nat) (s p : list byte) : option (list byte) :=
  match k with
  | O => if decide (s = []) then Some p else None
  | S k' =>
      match s with
      | [] => None
      | c :: s1 =>
          match (if decide (p = []) then Some s else if decide (c = x2e) then Some s1 else None) with
          | None => None
          | Some s2 =>
              match dtoi s2 with
              | Some (n, i) =>
                  if (255 <? n)%N then None
                  else if decide (1 < i /\ s2 !! 0 = Some x30) then None
                  else parse_ipv4_loop k' (drop i s2) (p ++ [Nb n])
              | None => None
              end
          end
      end
  end.
(** net/ip.go parseIPv4 with the four bytes only; the 16-byte form is in [parse_ip] *)
Definition parse_ipv4 (s : list byte) : option (list byte) := parse_ipv4_loop 4 s [].
(** net.IPv4: the 16-byte form of an IPv4 address *)
Definition ipv4 (p : list byte) : list byte := replicate 10 x00 ++ [xff; xff] ++ p.

(** net/ip.go parseIPv6, the loop.  [ip] are the i bytes written so far (the rest of
    the Go array is zero), [m] the number of iterations left, (16 - i) / 2.
    The result is the bytes, the ellipsis and the rest of the text. *)
Fixpoint parse_ipv6_loop (m : nat) (s ip : list byte) (ell : option nat)
  : option (list byte * option nat * list byte) :=
  match m with
  | O => Some (ip, ell, s)
  | S m' =>
      match xtoi s with
      | None => None
      | Some (n, c) =>
          if (65535 <? n)%N then None
          else if decide (s !! c = Some x2e) then
            if decide (ell = None /\ length ip <> 12) then None
            else if decide (16 < length ip + 4) then None
            else match parse_ipv4 s with None => None | Some q => Some (ip ++ q, ell, []) end
          else
            let ip' := ip ++ [Nb (n / 256); Nb n] in
            match drop c s with
            | [] => Some (ip', ell, [])
            | b :: s1 =>
                if decide (b <> x3a \/ s1 = []) then None
                else match s1 with
                     | x3a :: s2 =>
                         match ell with
                         | Some _ => None
                         | None =>
                             match s2 with
                             | [] => Some (ip', Some (length ip'), [])
                             | _ => parse_ipv6_loop m' s2 ip' (Some (length ip'))
                             end
                         end
                     | _ => parse_ipv6_loop m' s1 ip' ell
                     end
            end
      end
  end.
(** net/ip.go parseIPv6 after the loop: expansion of the ellipsis *)
Definition parse_ipv6_end (r : option (list byte * option nat * list byte)) : option (list byte) :=
  match r with
  | Some (ip, ell, []) =>
      if decide (length ip < 16) then
        match ell with
        | None => None
        | Some e => Some (take e ip ++ replicate (16 - length ip) x00 ++ drop e ip)
        end
      else match ell with Some _ => None | None => Some ip end
  | _ => None
  end.
(** net/ip.go parseIPv6 *)
Definition parse_ipv6 (s : list byte) : option (list byte) :=
  match s with
  | x3a :: x3a :: [] => Some (replicate 16 x00)
  | x3a :: x3a :: s' => parse_ipv6_end (parse_ipv6_loop 8 s' [] (Some 0))
  | _ => parse_ipv6_end (parse_ipv6_loop 8 s [] None)
  end.
(** net/ip.go ParseIP: which of the two is decided by the first '.' or ':' *)
Fixpoint ip_kind (s : list byte) : option bool :=
  match s with
  | [] => None
  | x2e :: _ => Some true
  | x3a :: _ => Some false
  | _ :: s' => ip_kind s'
  end.
Definition parse_ip (s : list byte) : option (list byte) :=
  match ip_kind s with
  | Some true => option_map ipv4 (parse_ipv4 s)
  | Some false => parse_ipv6 s
  | None => None
  end.
