(** UTF-8 as Go's unicode/utf8 decodes it, next to an independent definition of
    the encoding of code points.  Used by encoding/json, which the catalogue uses
    for index.json (catalogue/indexFile.go:77-91,109-156). *)
From Verif Require Export GoBase.

(** ** The encoding (RFC 3629), independent of the decoder *)
(** Unicode scalar values: code points that are not surrogates *)
Definition scalar (r : N) : Prop := (r < 55296 \/ 57344 <= r < 1114112)%N.
(** the UTF-8 encoding of a code point *)
Definition encode_rune (r : N) : list byte :=
  if (r <? 128)%N then [Nb r]
  else if (r <? 2048)%N then [Nb (192 + r / 64); Nb (128 + r mod 64)]
  else if (r <? 65536)%N then [Nb (224 + r / 4096); Nb (128 + r / 64 mod 64); Nb (128 + r mod 64)]
  else [Nb (240 + r / 262144); Nb (128 + r / 4096 mod 64); Nb (128 + r / 64 mod 64); Nb (128 + r mod 64)].
(** valid UTF-8 text *)
Definition valid_utf8 (s : list byte) : Prop :=
  exists rs, Forall scalar rs /\ s = concat (map encode_rune rs).

(** ** The decoder *)
Definition in_range (lo hi : N) (b : byte) : bool := ((lo <=? bN b) && (bN b <=? hi))%N.
(** unicode/utf8 DecodeRune (the size of the rune at the start of the text; the
    tables [first] and [acceptRanges]): 0 stands for (RuneError, 1), an invalid
    byte. *)
Definition rune_len (s : list byte) : nat :=
  match s with
  | [] => 0
  | b0 :: s1 =>
      if in_range 0 127 b0 then 1
      else if in_range 194 223 b0 then
        match s1 with
        | b1 :: _ => if in_range 128 191 b1 then 2 else 0
        | [] => 0
        end
      else if in_range 224 239 b0 then
        match s1 with
        | b1 :: b2 :: _ =>
            let lo := if (bN b0 =? 224)%N then 160%N else 128%N in
            let hi := if (bN b0 =? 237)%N then 159%N else 191%N in
            if in_range lo hi b1 && in_range 128 191 b2 then 3 else 0
        | _ => 0
        end
      else if in_range 240 244 b0 then
        match s1 with
        | b1 :: b2 :: b3 :: _ =>
            let lo := if (bN b0 =? 240)%N then 144%N else 128%N in
            let hi := if (bN b0 =? 244)%N then 143%N else 191%N in
            if in_range lo hi b1 && in_range 128 191 b2 && in_range 128 191 b3 then 4 else 0
        | _ => 0
        end
      else 0
  end.

(** the loop "for i < len(s) { c, size := utf8.DecodeRuneInString(s[i:]); ...; i += size }":
    the text cut into runes; (true, bytes) for a valid rune, (false, [b]) for an
    invalid byte.  [n] bounds the iterations; the length of the text suffices. *)
Fixpoint tokens_n (n : nat) (s : list byte) : list (bool * list byte) :=
  match n with
  | O => []
  | S n' =>
      match s with
      | [] => []
      | b :: s' =>
          match rune_len s with
          | O => (false, [b]) :: tokens_n n' s'
          | S k => (true, take (S k) s) :: tokens_n n' (drop (S k) s)
          end
      end
  end.
Definition tokens (s : list byte) : list (bool * list byte) := tokens_n (length s) s.

(** U+FFFD *)
Definition fffd : list byte := [xef; xbf; xbd].
(** every invalid byte replaced by U+FFFD *)
Definition sanitize (s : list byte) : list byte :=
  concat (map (fun t : bool * list byte => if t.1 then t.2 else fffd) (tokens s)).
