(* Model of pdfmajor/parser/PDFStream/ccitt.py (CCITT Group 4 decoding).  Pixels and colours are booleans: true is 1 (white). *)
From Coq Require Import String Ascii.
From Verif Require Import Base Obj Stream_Model.
From Coq Require Import ZifyBool ZifyNat.
Open Scope string_scope.
Open Scope Z_scope.

(* 32-46 BitParser.add: nested two-element lists.  Adding below a value would raise TypeError (None here) *)
Inductive tree (V : Type) : Type := TNone | TVal (v : V) | TNode (t0 t1 : tree V).
Arguments TNone {V}. Arguments TVal {V} v. Arguments TNode {V} t0 t1.
Fixpoint add {V} (t : tree V) (v : V) (bits : list bool) : option (tree V) :=
  match bits with
  | [] => Some (TVal v)
  | b :: r =>
      match t with
      | TVal _ => None
      | TNone => match add TNone v r with Some x => Some (if b : bool then TNode TNone x else TNode x TNone) | None => None end
      | TNode a c => if b then match add c v r with Some x => Some (TNode a x) | None => None end
                     else match add a v r with Some x => Some (TNode x c) | None => None end
      end
  end.
(* the characters 0 and 1 of a code *)
Fixpoint bits_of (s : string) : list bool := match s with EmptyString => [] | String c r => Ascii.eqb c "1"%char :: bits_of r end.
Definition table {V} (l : list (V * string)) : option (tree V) :=
  fold_left (fun t e => match t with Some x => add x (fst e) (bits_of (snd e)) | None => None end) l (Some (TNode TNone TNone)).
Definition the {V} (t : option (tree V)) : tree V := match t with Some x => x | None => TNone end.

(* 75-93 *)
Inductive mode := M_vert (d : Z) | M_horiz | M_pass | M_unc | M_ext (n : Z) | M_eofb.
Definition mode_codes : list (mode * string) := [
  (M_vert (0), "1"); (M_vert (1), "011"); (M_vert (-1), "010"); (M_horiz, "001"); (M_pass, "0001"); (M_vert (2), "000011"); (M_vert (-2), "000010");
  (M_vert (3), "0000011"); (M_vert (-3), "0000010"); (M_unc, "0000001111"); (M_ext 1, "0000001000"); (M_ext 2, "0000001001");
  (M_ext 3, "0000001010"); (M_ext 4, "0000001011"); (M_ext 5, "0000001100"); (M_ext 6, "0000001101"); (M_ext 7, "0000001110");
  (M_eofb, "000000000001000000000001")].
(* 95-199 *)
Definition white_codes : list (Z * string) := [
  (0, "00110101"); (1, "000111"); (2, "0111"); (3, "1000"); (4, "1011"); (5, "1100"); (6, "1110"); (7, "1111"); (8, "10011"); (9, "10100");
  (10, "00111"); (11, "01000"); (12, "001000"); (13, "000011"); (14, "110100"); (15, "110101"); (16, "101010"); (17, "101011"); (18, "0100111");
  (19, "0001100"); (20, "0001000"); (21, "0010111"); (22, "0000011"); (23, "0000100"); (24, "0101000"); (25, "0101011"); (26, "0010011");
  (27, "0100100"); (28, "0011000"); (29, "00000010"); (30, "00000011"); (31, "00011010"); (32, "00011011"); (33, "00010010"); (34, "00010011");
  (35, "00010100"); (36, "00010101"); (37, "00010110"); (38, "00010111"); (39, "00101000"); (40, "00101001"); (41, "00101010"); (42, "00101011");
  (43, "00101100"); (44, "00101101"); (45, "00000100"); (46, "00000101"); (47, "00001010"); (48, "00001011"); (49, "01010010"); (50, "01010011");
  (51, "01010100"); (52, "01010101"); (53, "00100100"); (54, "00100101"); (55, "01011000"); (56, "01011001"); (57, "01011010"); (58, "01011011");
  (59, "01001010"); (60, "01001011"); (61, "00110010"); (62, "00110011"); (63, "00110100"); (64, "11011"); (128, "10010"); (192, "010111");
  (256, "0110111"); (320, "00110110"); (384, "00110111"); (448, "01100100"); (512, "01100101"); (576, "01101000"); (640, "01100111");
  (704, "011001100"); (768, "011001101"); (832, "011010010"); (896, "011010011"); (960, "011010100"); (1024, "011010101"); (1088, "011010110");
  (1152, "011010111"); (1216, "011011000"); (1280, "011011001"); (1344, "011011010"); (1408, "011011011"); (1472, "010011000"); (1536, "010011001");
  (1600, "010011010"); (1664, "011000"); (1728, "010011011"); (1792, "00000001000"); (1856, "00000001100"); (1920, "00000001101");
  (1984, "000000010010"); (2048, "000000010011"); (2112, "000000010100"); (2176, "000000010101"); (2240, "000000010110"); (2304, "000000010111");
  (2368, "000000011100"); (2432, "000000011101"); (2496, "000000011110"); (2560, "000000011111")].
(* 201-305 *)
Definition black_codes : list (Z * string) := [
  (0, "0000110111"); (1, "010"); (2, "11"); (3, "10"); (4, "011"); (5, "0011"); (6, "0010"); (7, "00011"); (8, "000101"); (9, "000100");
  (10, "0000100"); (11, "0000101"); (12, "0000111"); (13, "00000100"); (14, "00000111"); (15, "000011000"); (16, "0000010111"); (17, "0000011000");
  (18, "0000001000"); (19, "00001100111"); (20, "00001101000"); (21, "00001101100"); (22, "00000110111"); (23, "00000101000"); (24, "00000010111");
  (25, "00000011000"); (26, "000011001010"); (27, "000011001011"); (28, "000011001100"); (29, "000011001101"); (30, "000001101000");
  (31, "000001101001"); (32, "000001101010"); (33, "000001101011"); (34, "000011010010"); (35, "000011010011"); (36, "000011010100");
  (37, "000011010101"); (38, "000011010110"); (39, "000011010111"); (40, "000001101100"); (41, "000001101101"); (42, "000011011010");
  (43, "000011011011"); (44, "000001010100"); (45, "000001010101"); (46, "000001010110"); (47, "000001010111"); (48, "000001100100");
  (49, "000001100101"); (50, "000001010010"); (51, "000001010011"); (52, "000000100100"); (53, "000000110111"); (54, "000000111000");
  (55, "000000100111"); (56, "000000101000"); (57, "000001011000"); (58, "000001011001"); (59, "000000101011"); (60, "000000101100");
  (61, "000001011010"); (62, "000001100110"); (63, "000001100111"); (64, "0000001111"); (128, "000011001000"); (192, "000011001001");
  (256, "000001011011"); (320, "000000110011"); (384, "000000110100"); (448, "000000110101"); (512, "0000001101100"); (576, "0000001101101");
  (640, "0000001001010"); (704, "0000001001011"); (768, "0000001001100"); (832, "0000001001101"); (896, "0000001110010"); (960, "0000001110011");
  (1024, "0000001110100"); (1088, "0000001110101"); (1152, "0000001110110"); (1216, "0000001110111"); (1280, "0000001010010");
  (1344, "0000001010011"); (1408, "0000001010100"); (1472, "0000001010101"); (1536, "0000001011010"); (1600, "0000001011011");
  (1664, "0000001100100"); (1728, "0000001100101"); (1792, "00000001000"); (1856, "00000001100"); (1920, "00000001101"); (1984, "000000010010");
  (2048, "000000010011"); (2112, "000000010100"); (2176, "000000010101"); (2240, "000000010110"); (2304, "000000010111"); (2368, "000000011100");
  (2432, "000000011101"); (2496, "000000011110"); (2560, "000000011111")].
(* 307-321: the value is the text of the pixels, after T and the next colour when the code ends uncompressed mode *)
Definition unc_codes : list (string * string) := [
  ("1", "1"); ("01", "01"); ("001", "001"); ("0001", "0001"); ("00001", "00001"); ("00000", "000001"); ("T00", "00000011"); ("T10", "00000010");
  ("T000", "000000011"); ("T100", "000000010"); ("T0000", "0000000011"); ("T1000", "0000000010"); ("T00000", "00000000011");
  ("T10000", "00000000010")].
Definition MODE : tree mode := Eval vm_compute in the (table mode_codes).
Definition WHITE : tree Z := Eval vm_compute in the (table white_codes).
Definition BLACK : tree Z := Eval vm_compute in the (table black_codes).
Definition UNC : tree string := Eval vm_compute in the (table unc_codes).

(* self._state with self._accept: where in which table, and the method that takes the value *)
Inductive phase := P_mode (t : tree mode) | P_horiz1 (t : tree Z) | P_horiz2 (t : tree Z) | P_unc (t : tree string).
(* attributes of the parser; _y and _pos are not read *)
Record parser := mkP { width : Z; align : bool; refl : list bool; curl : list bool; curpos : Z; color : bool; n1 : Z; n2 : Z; ph : phase;
                       rev_out : bool; buf : list Z }.
Definition set_ph p x := mkP (width p) (align p) (refl p) (curl p) (curpos p) (color p) (n1 p) (n2 p) x (rev_out p) (buf p).
Definition set_line p l c := mkP (width p) (align p) (refl p) l c (color p) (n1 p) (n2 p) (ph p) (rev_out p) (buf p).
Definition set_color p c := mkP (width p) (align p) (refl p) (curl p) (curpos p) c (n1 p) (n2 p) (ph p) (rev_out p) (buf p).
Definition set_n p a b := mkP (width p) (align p) (refl p) (curl p) (curpos p) (color p) a b (ph p) (rev_out p) (buf p).

(* how handling one bit ends: normally, or with one of the exceptions; ByteSkip and EOFB are caught by feedbytes *)
Inductive outcome := Go (p : parser) | Skip (p : parser) | Eofb (p : parser) | Bad (e : exn).
Definition andthen (o : outcome) (f : parser -> outcome) : outcome := match o with Go p => f p | _ => o end.

(* Python indexing and assignment of a list element; negative indices count from the end *)
Definition py_ix (n : nat) (i : Z) : option nat :=
  if 0 <=? i then (if i <? Z.of_nat n then Some (Z.to_nat i) else None)
  else if - Z.of_nat n <=? i then Some (Z.to_nat (i + Z.of_nat n)) else None.
Definition pix (l : list bool) (i : Z) : option bool := match py_ix (length l) i with Some k => nth_error l k | None => None end.
Fixpoint set_nth (l : list bool) (k : nat) (v : bool) : list bool :=
  match l, k with [], _ => [] | _ :: r, O => v :: r | x :: r, S j => x :: set_nth r j v end.
Definition put_pix (l : list bool) (i : Z) (v : bool) : option (list bool) := match py_ix (length l) i with Some k => Some (set_nth l k v) | None => None end.
(* for x in range(a, b): l[x] = v *)
Fixpoint fill_from (n : nat) (l : list bool) (a : Z) (v : bool) : option (list bool) :=
  match n with O => Some l | S k => match put_pix l a v with Some l' => fill_from k l' (a + 1) v | None => None end end.
Definition fill_range (l : list bool) (a b : Z) (v : bool) : option (list bool) := fill_from (Z.to_nat (b - a)) l a v.

(* 537-545 output_line of CCITTFaxDecoder: the bytes of one line *)
Fixpoint pack_byte (n : nat) (w : Z) (l : list bool) : Z :=
  match n, l with O, _ | _, [] => 0 | S k, b :: r => (if b : bool then w else 0) + pack_byte k (w / 2) r end.
Fixpoint pack_bits (n : nat) (l : list bool) : list Z := match n with O => [] | S k => pack_byte 8 128 l :: pack_bits k (skipn 8 l) end.
Definition output_line (reversed : bool) (l : list bool) : list Z :=
  let l' := if reversed then map negb l else l in pack_bits ((length l + 7) / 8) l'.
(* 431-436 _reset_line, 438-445 _flush_line *)
Definition flush_line (p : parser) : outcome :=
  if width p <=? curpos p then
    let p' := mkP (width p) (align p) (curl p) (repeat true (Z.to_nat (width p))) (-1) true (n1 p) (n2 p) (ph p) (rev_out p) (buf p ++ output_line (rev_out p) (curl p)) in
    if align p then Skip p' else Go p'
  else Go p.

(* 448-458, 473-483: the search for the changing element b1, and 484-493 for b2.  None: IndexError (only if width is 0), fuel: never used up *)
Fixpoint find_b1 (fuel : nat) (r : list bool) (c : bool) (x : Z) : option Z :=
  match fuel with
  | O => None
  | S k =>
      if x =? 0 then
        (if c then match pix r x with Some v => if negb (Bool.eqb v c) then Some x else find_b1 k r c (x + 1) | None => None end
         else find_b1 k r c (x + 1))
      else if x =? Z.of_nat (length r) then Some x
      else match pix r (x - 1) with
           | Some u => if Bool.eqb u c then match pix r x with Some v => if negb (Bool.eqb v c) then Some x else find_b1 k r c (x + 1) | None => None end
                       else find_b1 k r c (x + 1)
           | None => None
           end
  end.
Fixpoint find_b2 (fuel : nat) (r : list bool) (c : bool) (x : Z) : option Z :=
  match fuel with
  | O => None
  | S k =>
      if x =? 0 then
        (if negb c then match pix r x with Some v => if Bool.eqb v c then Some x else find_b2 k r c (x + 1) | None => None end
         else find_b2 k r c (x + 1))
      else if x =? Z.of_nat (length r) then Some x
      else match pix r (x - 1) with
           | Some u => if negb (Bool.eqb u c) then match pix r x with Some v => if Bool.eqb v c then Some x else find_b2 k r c (x + 1) | None => None end
                       else find_b2 k r c (x + 1)
           | None => None
           end
  end.
Definition fuel_of (p : parser) : nat := (length (refl p) + 2)%nat.
(* 447-470 _do_vertical *)
Definition do_vertical (p : parser) (dx : Z) : outcome :=
  match find_b1 (fuel_of p) (refl p) (color p) (curpos p + 1) with
  | None => Bad IndexError
  | Some b1 =>
      let x0 := Z.max 0 (curpos p) in
      let x1 := Z.max 0 (Z.min (width p) (b1 + dx)) in
      match (if x1 <? x0 then fill_range (curl p) x1 x0 (color p) else fill_range (curl p) x0 x1 (color p)) with
      | None => Bad IndexError
      | Some l => Go (set_color (set_line p l x1) (negb (color p)))
      end
  end.
(* 472-497 _do_pass *)
Definition do_pass (p : parser) : outcome :=
  match find_b1 (fuel_of p) (refl p) (color p) (curpos p + 1) with
  | None => Bad IndexError
  | Some b1 =>
      match find_b2 (fuel_of p) (refl p) (color p) b1 with
      | None => Bad IndexError
      | Some b2 => match fill_range (curl p) (curpos p) b2 (color p) with None => Bad IndexError | Some l => Go (set_line p l b2) end
      end
  end.
(* 499-514 _do_horizontal: a run stops at the end of the line *)
Fixpoint run_from (n : nat) (l : list bool) (x : Z) (v : bool) : option (list bool * Z) :=
  match n with
  | O => Some (l, x)
  | S k => if Z.of_nat (length l) <=? x then Some (l, x)
           else match put_pix l x v with Some l' => run_from k l' (x + 1) v | None => None end
  end.
Definition do_horizontal (p : parser) (a b : Z) : outcome :=
  let x := if curpos p <? 0 then 0 else curpos p in
  match run_from (Z.to_nat a) (curl p) x (color p) with
  | None => Bad IndexError
  | Some (l, x1) => match run_from (Z.to_nat b) l x1 (negb (color p)) with None => Bad IndexError | Some (l', x2) => Go (set_line p l' x2) end
  end.
(* 516-521 _do_uncompressed *)
Fixpoint do_uncompressed (p : parser) (bits : list bool) : outcome :=
  match bits with
  | [] => Go p
  | c :: r =>
      match put_pix (curl p) (curpos p) c with
      | None => Bad IndexError
      | Some l => andthen (flush_line (set_line p l (curpos p + 1))) (fun q => do_uncompressed q r)
      end
  end.

Definition run_table (c : bool) : tree Z := if c then WHITE else BLACK.
(* 342-364 _parse_mode *)
Definition parse_mode (p : parser) (m : option mode) : outcome :=
  match m with
  | Some M_pass => andthen (andthen (do_pass p) flush_line) (fun q => Go (set_ph q (P_mode MODE)))
  | Some M_horiz => Go (set_ph (set_n p 0 (n2 p)) (P_horiz1 (run_table (color p))))
  | Some M_unc => Go (set_ph p (P_unc UNC))
  | Some M_eofb => Eofb p
  | Some (M_vert d) => andthen (andthen (do_vertical p d) flush_line) (fun q => Go (set_ph q (P_mode MODE)))
  | Some (M_ext _) | None => Bad InvalidData
  end.
(* 366-377 _parse_horiz1 *)
Definition parse_horiz1 (p : parser) (n : option Z) : outcome :=
  match n with
  | None => Bad InvalidData
  | Some n =>
      let p1 := set_n p (n1 p + n) (n2 p) in
      if n <? 64 then let p2 := set_color (set_n p1 (n1 p1) 0) (negb (color p1)) in Go (set_ph p2 (P_horiz2 (run_table (color p2))))
      else Go (set_ph p1 (P_horiz1 (run_table (color p1))))
  end.
(* 379-392 _parse_horiz2; _accept is set before _do_horizontal *)
Definition parse_horiz2 (p : parser) (n : option Z) : outcome :=
  match n with
  | None => Bad InvalidData
  | Some n =>
      let p1 := set_n p (n1 p) (n2 p + n) in
      if n <? 64 then
        let p2 := set_color p1 (negb (color p1)) in
        andthen (andthen (do_horizontal p2 (n1 p2) (n2 p2)) flush_line) (fun q => Go (set_ph q (P_mode MODE)))
      else Go (set_ph p1 (P_horiz2 (run_table (color p1))))
  end.
(* 394-404 _parse_uncompressed *)
Definition parse_uncompressed (p : parser) (s : option string) : outcome :=
  match s with
  | None | Some EmptyString => Bad InvalidData
  | Some (String "T"%char (String c r)) =>
      andthen (do_uncompressed (set_color p (Ascii.eqb c "1"%char)) (bits_of r)) (fun q => Go (set_ph q (P_mode MODE)))
  | Some s => andthen (do_uncompressed p (bits_of s)) (fun q => Go (set_ph q (P_unc UNC)))
  end.
(* 54-64 _parse_bit.  inl: a sub-table, inr: a value or None *)
Definition branch {V} (t : tree V) (b : bool) : tree V + option V :=
  match t with
  | TNode t0 t1 => match (if b then t1 else t0) with TNode x y => inl (TNode x y) | TVal v => inr (Some v) | TNone => inr None end
  | _ => inr None
  end.
Definition parse_bit (p : parser) (b : bool) : outcome :=
  match ph p with
  | P_mode t => match branch t b with inl t' => Go (set_ph p (P_mode t')) | inr v => parse_mode p v end
  | P_horiz1 t => match branch t b with inl t' => Go (set_ph p (P_horiz1 t')) | inr v => parse_horiz1 p v end
  | P_horiz2 t => match branch t b with inl t' => Go (set_ph p (P_horiz2 t')) | inr v => parse_horiz2 p v end
  | P_unc t => match branch t b with inl t' => Go (set_ph p (P_unc t')) | inr v => parse_uncompressed p v end
  end.
Fixpoint parse_bits (p : parser) (l : list bool) : outcome := match l with [] => Go p | b :: r => andthen (parse_bit p b) (fun q => parse_bits q r) end.
Definition byte_bits (c : Z) : list bool := map (fun m => negb (Z.land c m =? 0)) [128; 64; 32; 16; 8; 4; 2; 1].
(* 330-340 feedbytes *)
Fixpoint feedbytes (p : parser) (data : list Z) : res parser :=
  match data with
  | [] => Ok p
  | c :: r =>
      match parse_bits p (byte_bits c) with
      | Go q => feedbytes q r
      | Skip q => feedbytes (set_ph q (P_mode MODE)) r
      | Eofb q => Ok q
      | Bad e => Err e
      end
  end.
(* 323-328, 419-425, 528-532 the constructors and reset *)
Definition new_parser (w : Z) (al rv : bool) : parser :=
  let l := repeat true (Z.to_nat w) in mkP w al l l (-1) true 0 0 (P_mode MODE) rv [].
(* 548-558 ccittfaxdecode.  K is compared with -1 (a real number equal to -1 is not covered); [1]*None raises TypeError *)
Definition ccittfaxdecode (data : list Z) (params : obj) : res (list Z) :=
  match params with
  | ODict d =>
      let flag k := match dget d k with Some o => truthy o | None => false end in
      match dget d "K" with
      | Some (OInt (-1)) =>
          match dget d "Columns" with
          | Some (OInt w) => do p <- feedbytes (new_parser w (flag "EncodedByteAlign") (flag "BlackIs1")) data; Ok (buf p)
          | Some (OBool b) => do p <- feedbytes (new_parser (if b then 1 else 0) (flag "EncodedByteAlign") (flag "BlackIs1")) data; Ok (buf p)
          | _ => Err TypeError
          end
      | _ => Err ValueError
      end
  | _ => Err AttributeError
  end.

