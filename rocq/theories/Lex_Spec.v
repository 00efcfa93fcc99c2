(* How tokens are spelled in a PDF file, written from ISO 32000-1 section 7.2-7.3 and independently of the
   code.  A text is laid out as gaps (white space and comments) and spelled tokens. *)
From Coq Require Import String.
From Verif Require Import Base.
From Verif Require Import Lex_Model. (* only for the type token *)

(* white space: ISO 32000 table 1 without NUL (see C18_nul_refuted), with VT *)
Definition white (c : Z) : Prop := c = 32 \/ c = 9 \/ c = 10 \/ c = 11 \/ c = 12 \/ c = 13.
Definition eol (c : Z) : Prop := c = 10 \/ c = 13.
(* ( ) < > [ ] { } / % : ISO 32000 table 2 *)
Definition delim (c : Z) : Prop := In c [40; 41; 60; 62; 91; 93; 123; 125; 47; 37].
Definition regular (c : Z) : Prop := ~ white c /\ ~ delim c.
Definition digit (c : Z) : Prop := 48 <= c <= 57.
Definition octal (c : Z) : Prop := 48 <= c <= 55.
Definition letter (c : Z) : Prop := 65 <= c <= 90 \/ 97 <= c <= 122.

(* value of a hexadecimal digit *)
Inductive Hex : Z -> Z -> Prop :=
| Hex_digit : forall v, 0 <= v <= 9 -> Hex (48 + v) v
| Hex_upper : forall v, 10 <= v <= 15 -> Hex (65 + (v - 10)) v
| Hex_lower : forall v, 10 <= v <= 15 -> Hex (97 + (v - 10)) v.

(* decimal numerals: Dec text value *)
Inductive Dec : list Z -> Z -> Prop :=
| Dec_one : forall d, 0 <= d <= 9 -> Dec [48 + d] d
| Dec_more : forall t v d, Dec t v -> 0 <= d <= 9 -> Dec (t ++ [48 + d]) (10 * v + d).

(* gaps: white space and comments that end with an end-of-line byte *)
Inductive Sep : list Z -> Prop :=
| Sep_nil : Sep []
| Sep_white : forall c g, white c -> Sep g -> Sep (c :: g)
| Sep_comment : forall body e g, Forall (fun c => ~ eol c) body -> eol e -> Sep g -> Sep (37 :: body ++ e :: g).

(* the characters of a name, #xx standing for a byte *)
Inductive NameBody : list Z -> list Z -> Prop :=
| NB_nil : NameBody [] []
| NB_reg : forall c t v, regular c -> c <> 35 -> NameBody t v -> NameBody (c :: t) (c :: v)
| NB_hex : forall a b x y t v, Hex a x -> Hex b y -> NameBody t v -> NameBody (35 :: a :: b :: t) (16 * x + y :: v).

(* the escape letters of literal strings: n r t b f ( ) \ *)
Inductive Escape : Z -> Z -> Prop :=
| Esc_n : Escape 110 10 | Esc_r : Escape 114 13 | Esc_t : Escape 116 9 | Esc_b : Escape 98 8
| Esc_f : Escape 102 12 | Esc_open : Escape 40 40 | Esc_close : Escape 41 41 | Esc_bs : Escape 92 92.

Definition no_octal_head (t : list Z) : Prop := forall c r, t = c :: r -> ~ octal c.

(* the inside of a literal string: StrBody text value *)
Inductive StrBody : list Z -> list Z -> Prop :=
| SB_nil : StrBody [] []
| SB_byte : forall c t v, c <> 40 -> c <> 41 -> c <> 92 -> StrBody t v -> StrBody (c :: t) (c :: v)
| SB_esc : forall c e t v, Escape c e -> StrBody t v -> StrBody (92 :: c :: t) (e :: v)
| SB_oct3 : forall a b c t v, 0 <= a <= 3 -> 0 <= b <= 7 -> 0 <= c <= 7 -> StrBody t v ->
    StrBody (92 :: (48 + a) :: (48 + b) :: (48 + c) :: t) (64 * a + 8 * b + c :: v)
| SB_oct2 : forall b c t v, 0 <= b <= 7 -> 0 <= c <= 7 -> no_octal_head t -> StrBody t v ->
    StrBody (92 :: (48 + b) :: (48 + c) :: t) (8 * b + c :: v)
| SB_oct1 : forall c t v, 0 <= c <= 7 -> no_octal_head t -> StrBody t v ->
    StrBody (92 :: (48 + c) :: t) (c :: v)
| SB_cont : forall e t v, eol e -> (e = 13 -> forall r, t <> 10 :: r) -> StrBody t v -> StrBody (92 :: e :: t) v
| SB_paren : forall ti vi t v, StrBody ti vi -> StrBody t v ->
    StrBody (40 :: ti ++ 41 :: t) (40 :: vi ++ 41 :: v).

(* the inside of a hexadecimal string: an even number of digits with white space anywhere *)
Inductive HexBody : list Z -> list Z -> Prop :=
| HB_end : forall w, Forall white w -> HexBody w []
| HB_pair : forall w1 a w2 b x y t v, Forall white w1 -> Forall white w2 -> Hex a x -> Hex b y -> HexBody t v ->
    HexBody (w1 ++ a :: w2 ++ b :: t) (16 * x + y :: v).

(* Self-delimited tokens end by themselves, the others must be followed by white space or a delimiter. *)
Inductive kind := SelfDelimited | HexEnd | NeedsBoundary.

Inductive Sign : list Z -> Z -> Prop :=
| Sign_none : Sign [] 1 | Sign_plus : Sign [43] 1 | Sign_minus : Sign [45] (-1).

Inductive Spell : token -> list Z -> kind -> Prop :=
| Sp_int : forall sg k t v, Sign sg k -> Dec t v -> Spell (TInt (k * v)) (sg ++ t) NeedsBoundary
| Sp_real : forall sg k a b, Sign sg k -> Forall digit a -> Forall digit b -> (a <> [] \/ b <> []) ->
    Spell (TReal (sg ++ a ++ 46 :: b)) (sg ++ a ++ 46 :: b) NeedsBoundary
| Sp_true : Spell (TBool true) (bs "true") NeedsBoundary
| Sp_false : Spell (TBool false) (bs "false") NeedsBoundary
| Sp_kwd : forall c t, letter c -> Forall (fun c => regular c /\ c <> 35) t ->
    c :: t <> bs "true" -> c :: t <> bs "false" -> Spell (TKwd (c :: t)) (c :: t) NeedsBoundary
| Sp_name : forall t v, NameBody t v -> Spell (TLit v) (47 :: t) NeedsBoundary
| Sp_str : forall t v, StrBody t v -> Spell (TStr v) (40 :: t ++ [41]) SelfDelimited
| Sp_hex : forall t v, HexBody t v -> Spell (TStr v) (60 :: t ++ [62]) HexEnd
| Sp_single : forall c, In c [91; 93; 123; 125; 39; 34] -> Spell (TKwd [c]) [c] SelfDelimited
| Sp_dopen : Spell (TKwd [60; 60]) [60; 60] SelfDelimited
| Sp_dclose : Spell (TKwd [62; 62]) [62; 62] SelfDelimited.

(* what may follow a token.  With exact = true a hexadecimal string must not be followed directly by '>'. *)
Definition follows (exact : bool) (k : kind) (rest : list Z) : Prop :=
  match k with
  | SelfDelimited => True
  | HexEnd => exact = true -> forall r, rest <> 62 :: r
  | NeedsBoundary => exists c r, rest = c :: r /\ (white c \/ delim c)
  end.

(* Layout exact pos toks text: the text, starting at offset pos, spells the tokens; each token comes with the
   offset of its first byte. *)
Inductive Layout (exact : bool) : Z -> list (Z * token) -> list Z -> Prop :=
| L_end : forall pos g, Sep g -> Layout exact pos [] g
| L_last_comment : forall pos g body, Sep g -> Forall (fun c => ~ eol c) body ->
    Layout exact pos [] (g ++ 37 :: body)
| L_tok : forall pos g t sp k ts rest,
    Sep g -> Spell t sp k -> follows exact k rest ->
    Layout exact (pos + Z.of_nat (length g) + Z.of_nat (length sp)) ts rest ->
    Layout exact pos ((pos + Z.of_nat (length g), t) :: ts) (g ++ sp ++ rest).

(* Canonical writers, used to state round trips. *)
Definition esc_byte (c : Z) : list Z := if (c =? 40) || (c =? 41) || (c =? 92) then [92; c] else [c].
Definition write_string (s : list Z) : list Z := 40 :: flat_map esc_byte s ++ [41].
Definition hex_digit (v : Z) : Z := if v <? 10 then 48 + v else 65 + (v - 10).
Definition write_hexstring (s : list Z) : list Z :=
  60 :: flat_map (fun c => [hex_digit (c / 16); hex_digit (c mod 16)]) s ++ [62].
Definition name_plain (c : Z) : bool := (33 <=? c) && (c <=? 126) &&
  negb (existsb (Z.eqb c) [35; 40; 41; 60; 62; 91; 93; 123; 125; 47; 37]).
Definition write_name (s : list Z) : list Z :=
  47 :: flat_map (fun c => if name_plain c then [c] else [35; hex_digit (c / 16); hex_digit (c mod 16)]) s.
