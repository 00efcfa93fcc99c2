(* Independent specification of the three ASCII / run-length encodings (PDF Reference 3.3.1, 3.3.2,
   3.3.4): what an encoder may write.  Nothing here refers to the model. *)
From Verif Require Import Base.

(* --- ASCII85 --- *)
(* big-endian value of four bytes *)
Definition word (a b c d : Z) : Z := ((a * 256 + b) * 256 + c) * 256 + d.
(* the five base-85 digits of v, most significant first, as characters '!'..'u' *)
Definition digits85 (v : Z) : list Z :=
  [33 + v / 52200625; 33 + (v / 614125) mod 85; 33 + (v / 7225) mod 85;
   33 + (v / 85) mod 85; 33 + v mod 85].

(* A85 s e: e is an ASCII85 encoding of s, without the terminator *)
Inductive A85 : list Z -> list Z -> Prop :=
| A85_nil : A85 [] []
| A85_group a b c d s e : A85 s e -> A85 (a :: b :: c :: d :: s) (digits85 (word a b c d) ++ e)
| A85_z s e : A85 s e -> A85 (0 :: 0 :: 0 :: 0 :: s) (122 :: e)
| A85_last1 a : A85 [a] (firstn 2 (digits85 (word a 0 0 0)))
| A85_last2 a b : A85 [a; b] (firstn 3 (digits85 (word a b 0 0)))
| A85_last3 a b c : A85 [a; b; c] (firstn 4 (digits85 (word a b c 0))).

(* characters an ASCII85 reader skips *)
Definition a85_ignorable (c : Z) : Prop := ~ (33 <= c <= 117) /\ c <> 122 /\ c <> 126.

(* spread P e e': e' is e with characters satisfying P inserted anywhere *)
Inductive spread (P : Z -> Prop) : list Z -> list Z -> Prop :=
| spread_nil : spread P [] []
| spread_keep c e e' : spread P e e' -> spread P (c :: e) (c :: e')
| spread_ins c e e' : P c -> spread P e e' -> spread P e (c :: e').

(* an encoder, to show every byte string has an encoding *)
Fixpoint a85_encode (s : list Z) : list Z :=
  match s with
  | a :: b :: c :: d :: r =>
      (if word a b c d =? 0 then [122] else digits85 (word a b c d)) ++ a85_encode r
  | [a; b; c] => firstn 4 (digits85 (word a b c 0))
  | [a; b] => firstn 3 (digits85 (word a b 0 0))
  | [a] => firstn 2 (digits85 (word a 0 0 0))
  | [] => []
  end.

(* --- ASCIIHex --- *)
(* HexDigit c v: the character c denotes the digit v, in either case *)
Inductive HexDigit : Z -> Z -> Prop :=
| HD_num v : 0 <= v <= 9 -> HexDigit (48 + v) v
| HD_upper v : 10 <= v <= 15 -> HexDigit (55 + v) v
| HD_lower v : 10 <= v <= 15 -> HexDigit (87 + v) v.

Definition white (c : Z) : Prop := c = 32 \/ c = 9 \/ c = 10 \/ c = 11 \/ c = 12 \/ c = 13.

(* HexText ds e: e spells the digits ds with white space anywhere *)
Inductive HexText : list Z -> list Z -> Prop :=
| HT_nil : HexText [] []
| HT_ws c ds e : white c -> HexText ds e -> HexText ds (c :: e)
| HT_digit c v ds e : HexDigit c v -> HexText ds e -> HexText (v :: ds) (c :: e).

(* the digits of a byte string *)
Definition nibbles (s : list Z) : list Z := flat_map (fun b => [b / 16; b mod 16]) s.

(* HexPairText s e: as HexText (nibbles s) e, but the two digits of one byte are adjacent *)
Inductive HexPairText : list Z -> list Z -> Prop :=
| HP_nil : HexPairText [] []
| HP_ws c s e : white c -> HexPairText s e -> HexPairText s (c :: e)
| HP_byte c1 c2 h l s e : HexDigit c1 h -> HexDigit c2 l -> HexPairText s e ->
    HexPairText ((16 * h + l) :: s) (c1 :: c2 :: e).

(* --- RunLength --- *)
Inductive run : Type :=
| Literal (l : list Z)          (* 1..128 bytes copied *)
| Repeat (n : Z) (b : Z).       (* n = 2..128 copies of b *)
Definition run_ok (r : run) : Prop :=
  match r with
  | Literal l => 1 <= Z.of_nat (length l) <= 128
  | Repeat n b => 2 <= n <= 128
  end.
Definition run_write (r : run) : list Z :=
  match r with
  | Literal l => (Z.of_nat (length l) - 1) :: l
  | Repeat n b => [257 - n; b]
  end.
Definition run_mean (r : run) : list Z :=
  match r with
  | Literal l => l
  | Repeat n b => repeat b (Z.to_nat n)
  end.
