(* What Compact Font Format data mean (Adobe Technical Note 5176), written without reference to the reader. *)
From Coq Require Import String Qcanon.
From Verif Require Import Base Num.
Open Scope Z_scope.

(* n bytes, the high byte first *)
Fixpoint big (n : nat) (v : Z) : list Z := match n with O => [] | S k => big k (v / 256) ++ [v mod 256] end.

(* ---------- section 4: DICT data ---------- *)
(* a value of a DICT: an integer or a real number *)
Inductive dval := DInt (z : Z) | DReal (q : num).
(* Table 3: the encodings of an integer *)
Inductive IntBytes : Z -> list Z -> Prop :=
| int_byte : forall v, -107 <= v <= 107 -> IntBytes v [v + 139]
| int_pos : forall v b0 b1, 247 <= b0 <= 250 -> is_byte b1 -> v = (b0 - 247) * 256 + b1 + 108 -> IntBytes v [b0; b1]
| int_neg : forall v b0 b1, 251 <= b0 <= 254 -> is_byte b1 -> v = - (b0 - 251) * 256 - b1 - 108 -> IntBytes v [b0; b1]
| int_short : forall v, -32768 <= v <= 32767 -> IntBytes v (28 :: big 2 (v mod 65536))
| int_long : forall v, - 2147483648 <= v <= 2147483647 -> IntBytes v (29 :: big 4 (v mod 4294967296)).
(* the decimal notation of a real number in nibbles: 0-9 digits, a the point, b E, c E-, e minus *)
Definition dec (ds : list Z) : Z := fold_left (fun a d => 10 * a + d) ds 0.
Definition is_dig (d : Z) : Prop := 0 <= d <= 9.
Definition minus_one (neg : bool) : Z := if neg then -1 else 1.
Inductive Fraction : list Z -> list Z -> Prop :=
| no_fraction : Fraction [] []
| fraction : forall f, Forall is_dig f -> Fraction f (10 :: f).
Inductive Exponent : Z -> list Z -> Prop :=
| no_exponent : Exponent 0 []
| exponent_pos : forall e, Forall is_dig e -> e <> [] -> Exponent (dec e) (11 :: e)
| exponent_neg : forall e, Forall is_dig e -> e <> [] -> Exponent (- dec e) (12 :: e).
Definition power (k : Z) : num := if 0 <=? k then qz (10 ^ k) else (/ qz (10 ^ (- k)))%Qc.
Inductive RealNibbles : num -> list Z -> Prop :=
| real_nibbles : forall (neg : bool) i f e fn en, Forall is_dig i -> Fraction f fn -> Exponent e en -> i ++ f <> [] ->
    RealNibbles (qz (minus_one neg) * qz (dec (i ++ f)) * power (e - Z.of_nat (length f)))%Qc
      ((if neg then [14] else []) ++ i ++ fn ++ en).
(* the nibbles, closed by f and filled up to whole bytes with another f *)
Inductive Packed : list Z -> list Z -> Prop :=
| packed_even : Packed [] [255]
| packed_odd : forall a, Packed [a] [a * 16 + 15]
| packed_two : forall a b r l, Packed r l -> Packed (a :: b :: r) ((a * 16 + b) :: l).
Inductive Operand : dval -> list Z -> Prop :=
| operand_int : forall v l, IntBytes v l -> Operand (DInt v) l
| operand_real : forall q ns l, RealNibbles q ns -> Packed ns l -> Operand (DReal q) (30 :: l).
(* operands come before their operator; the operators of one byte are 0-21 without 12 *)
Inductive Operands : list dval -> list Z -> Prop :=
| operands_nil : Operands [] []
| operands_cons : forall v vs b l, Operand v b -> Operands vs l -> Operands (v :: vs) (b ++ l).
Inductive DictData : list (Z * list dval) -> list Z -> Prop :=
| dict_nil : DictData [] []
| dict_cons : forall op vs b es l, 0 <= op <= 21 -> op <> 12 -> Operands vs b -> DictData es l -> DictData ((op, vs) :: es) (b ++ op :: l).

(* ---------- section 5: INDEX data ---------- *)
(* the offset of each object, from the byte before the first one; and the one after the last *)
Fixpoint offsets_from (o : Z) (objs : list (list Z)) : list Z :=
  match objs with [] => [o] | x :: r => o :: offsets_from (o + Z.of_nat (length x)) r end.
Inductive IndexData : list (list Z) -> list Z -> Prop :=
| index_empty : IndexData [] [0; 0]
| index_some : forall objs size, objs <> [] -> Z.of_nat (length objs) < 65536 -> (1 <= size <= 4)%nat ->
    Z.of_nat (length (concat objs)) + 1 < 256 ^ Z.of_nat size ->
    IndexData objs (big 2 (Z.of_nat (length objs)) ++ [Z.of_nat size] ++ flat_map (big size) (offsets_from 1 objs) ++ concat objs).

(* ---------- section 10 and Appendix A: strings; section 13: charsets, 12: encodings ---------- *)
(* some of the 391 standard strings: the ends of the runs of the table *)
Definition standard_samples : list (Z * string) := [
  (0, ".notdef"); (1, "space"); (17, "zero"); (26, "nine"); (34, "A"); (59, "Z"); (66, "a"); (91, "z"); (95, "asciitilde"); (96, "exclamdown");
  (109, "fi"); (110, "fl"); (124, "grave"); (137, "emdash"); (138, "AE"); (149, "germandbls"); (150, "onesuperior"); (171, "Aacute");
  (199, "Zcaron"); (200, "aacute"); (228, "zcaron"); (229, "exclamsmall"); (239, "zerooldstyle"); (248, "nineoldstyle"); (267, "ffi"); (274, "Asmall");
  (299, "Zsmall"); (326, "zerosuperior"); (345, "periodinferior"); (347, "Agravesmall"); (378, "Ydieresissmall"); (379, "001.000");
  (383, "Black"); (390, "Semibold") ]%string.
(* the name with a string identifier: standard below 391, then those of the String INDEX *)
Inductive gname := Standard (sid : Z) | Custom (b : list Z).
Definition sid_name (strings : list (list Z)) (sid : Z) : option gname :=
  if sid <? 391 then Some (Standard sid) else option_map Custom (nth_error strings (Z.to_nat (sid - 391))).
(* charset, format 0: the identifiers of the glyphs but .notdef *)
Definition charset_data (sids : list Z) : list Z := 0 :: flat_map (big 2) sids.
(* charset, format 1: runs of identifiers (first, number of those that follow) *)
Definition charset1_data (ranges : list (Z * Z)) : list Z := 1 :: flat_map (fun r => big 2 (fst r) ++ [snd r]) ranges.
Definition range_sids (ranges : list (Z * Z)) : list Z :=
  flat_map (fun r => map (fun i => fst r + Z.of_nat i) (seq 0 (Z.to_nat (snd r + 1)))) ranges.
(* encoding, format 0: the codes of the glyphs 1, 2, ... *)
Definition encoding_data (cs : list Z) : list Z := 0 :: Z.of_nat (length cs) :: cs.
(* encoding, format 1: runs of codes *)
Definition encoding1_data (ranges : list (Z * Z)) : list Z := 1 :: Z.of_nat (length ranges) :: flat_map (fun r => [fst r; snd r]) ranges.

(* ---------- the font ---------- *)
Definition At (data : list Z) (off : Z) (part : list Z) : Prop :=
  0 <= off /\ exists rest, skipn (Z.to_nat off) data = part ++ rest.
(* where the DICT says something is: the one operand of the operator *)
Definition Offset (top : list (Z * list dval)) (op off : Z) : Prop := In (op, [DInt off]) top.
(* A font with a charset of format 0 and an encoding of its own or the standard one.  Version 1.0. *)
Record Font := mkFont { f_name : list Z; f_top : list (Z * list dval); f_strings : list (list Z); f_subrs : list (list Z);
  f_charstrings : list (list Z); f_sids : list Z }.
Inductive EncodingAt (top : list (Z * list dval)) (data : list Z) : Prop :=
| enc_standard : ~ In 16 (map fst top) -> EncodingAt top data
| enc_codes : forall off cs, Offset top 16 off -> (length cs < 256)%nat -> At data off (encoding_data cs) -> EncodingAt top data
| enc_ranges : forall off rs, Offset top 16 off -> (length rs < 256)%nat -> At data off (encoding1_data rs) -> EncodingAt top data.
(* the rest: what follows the Global Subr INDEX *)
Inductive FontFile (f : Font) (rest : list Z) : list Z -> Prop :=
| font_file : forall data extra offsize nameI topI top stringI subrI cs charset_off charstring_off,
    bytes data ->
    data = [1; 0; 4 + Z.of_nat (length extra); offsize] ++ extra ++ nameI ++ topI ++ stringI ++ subrI ++ rest ->
    DictData (f_top f) top -> NoDup (map fst (f_top f)) ->
    IndexData [f_name f] nameI -> IndexData [top] topI -> IndexData (f_strings f) stringI -> IndexData (f_subrs f) subrI ->
    Offset (f_top f) 17 charstring_off -> IndexData (f_charstrings f) cs -> At data charstring_off cs ->
    Offset (f_top f) 15 charset_off -> At data charset_off (charset_data (f_sids f)) ->
    S (length (f_sids f)) = length (f_charstrings f) -> Forall (fun s => 0 <= s < 65536) (f_sids f) ->
    EncodingAt (f_top f) data ->
    FontFile f rest data.
