(* Group 4 facsimile coding (ITU-T T.6 with the run-length codes of T.4) and the packing of decoded lines (PDF Reference, 3.3.5).
   Written from the recommendations; nothing here refers to the decoder.  A line is a list of pixels, true for white. *)
From Coq Require Import String Ascii.
From Verif Require Import Base.
Open Scope string_scope.
Open Scope Z_scope.

(* codes as written in the recommendation, as texts of the digits 0 and 1 *)
Fixpoint code (s : string) : list bool := match s with EmptyString => [] | String c r => Ascii.eqb c "1"%char :: code r end.
(* T.4, tables 2, 3a and 3b: terminating and make-up codes *)
Definition T4_white : list (Z * string) := [
  (0, "00110101"); (1, "000111"); (2, "0111"); (3, "1000"); (4, "1011"); (5, "1100"); (6, "1110"); (7, "1111"); (8, "10011"); (9, "10100");
  (10, "00111"); (11, "01000"); (12, "001000"); (13, "000011"); (14, "110100"); (15, "110101"); (16, "101010"); (17, "101011"); (18, "0100111");
  (19, "0001100"); (20, "0001000"); (21, "0010111"); (22, "0000011"); (23, "0000100"); (24, "0101000"); (25, "0101011"); (26, "0010011");
  (27, "0100100"); (28, "0011000"); (29, "00000010"); (30, "00000011"); (31, "00011010"); (32, "00011011"); (33, "00010010"); (34, "00010011");
  (35, "00010100"); (36, "00010101"); (37, "00010110"); (38, "00010111"); (39, "00101000"); (40, "00101001"); (41, "00101010"); (42, "00101011");
  (43, "00101100"); (44, "00101101"); (45, "00000100"); (46, "00000101"); (47, "00001010"); (48, "00001011"); (49, "01010010"); (50, "01010011");
  (51, "01010100"); (52, "01010101"); (53, "00100100"); (54, "00100101"); (55, "01011000"); (56, "01011001"); (57, "01011010"); (58, "01011011");
  (59, "01001010"); (60, "01001011"); (61, "00110010"); (62, "00110011"); (63, "00110100"); (64, "11011"); (128, "10010"); (192, "010111");
  (256, "0110111"); (320, "00110110"); (384, "00110111"); (448, "01100100"); (512, "01100101"); (576, "01101000"); (640, "01100111");
  (704, "011001100"); (768, "011001101"); (832, "011010010"); (896, "011010011"); (960, "011010100"); (1024, "011010101"); (1088, "011010110");
  (1152, "011010111"); (1216, "011011000"); (1280, "011011001"); (1344, "011011010"); (1408, "011011011"); (1472, "010011000"); (1536, "010011001");
  (1600, "010011010"); (1664, "011000"); (1728, "010011011"); (1792, "00000001000"); (1856, "00000001100"); (1920, "00000001101");
  (1984, "000000010010"); (2048, "000000010011"); (2112, "000000010100"); (2176, "000000010101"); (2240, "000000010110"); (2304, "000000010111");
  (2368, "000000011100"); (2432, "000000011101"); (2496, "000000011110"); (2560, "000000011111")].
Definition T4_black : list (Z * string) := [
  (0, "0000110111"); (1, "010"); (2, "11"); (3, "10"); (4, "011"); (5, "0011"); (6, "0010"); (7, "00011"); (8, "000101"); (9, "000100");
  (10, "0000100"); (11, "0000101"); (12, "0000111"); (13, "00000100"); (14, "00000111"); (15, "000011000"); (16, "0000010111"); (17, "0000011000");
  (18, "0000001000"); (19, "00001100111"); (20, "00001101000"); (21, "00001101100"); (22, "00000110111"); (23, "00000101000"); (24, "00000010111");
  (25, "00000011000"); (26, "000011001010"); (27, "000011001011"); (28, "000011001100"); (29, "000011001101"); (30, "000001101000");
  (31, "000001101001"); (32, "000001101010"); (33, "000001101011"); (34, "000011010010"); (35, "000011010011"); (36, "000011010100");
  (37, "000011010101"); (38, "000011010110"); (39, "000011010111"); (40, "000001101100"); (41, "000001101101"); (42, "000011011010");
  (43, "000011011011"); (44, "000001010100"); (45, "000001010101"); (46, "000001010110"); (47, "000001010111"); (48, "000001100100");
  (49, "000001100101"); (50, "000001010010"); (51, "000001010011"); (52, "000000100100"); (53, "000000110111"); (54, "000000111000");
  (55, "000000100111"); (56, "000000101000"); (57, "000001011000"); (58, "000001011001"); (59, "000000101011"); (60, "000000101100");
  (61, "000001011010"); (62, "000001100110"); (63, "000001100111"); (64, "0000001111"); (128, "000011001000"); (192, "000011001001");
  (256, "000001011011"); (320, "000000110011"); (384, "000000110100"); (448, "000000110101"); (512, "0000001101100"); (576, "0000001101101");
  (640, "0000001001010"); (704, "0000001001011"); (768, "0000001001100"); (832, "0000001001101"); (896, "0000001110010"); (960, "0000001110011");
  (1024, "0000001110100"); (1088, "0000001110101"); (1152, "0000001110110"); (1216, "0000001110111"); (1280, "0000001010010");
  (1344, "0000001010011"); (1408, "0000001010100"); (1472, "0000001010101"); (1536, "0000001011010"); (1600, "0000001011011");
  (1664, "0000001100100"); (1728, "0000001100101"); (1792, "00000001000"); (1856, "00000001100"); (1920, "00000001101"); (1984, "000000010010");
  (2048, "000000010011"); (2112, "000000010100"); (2176, "000000010101"); (2240, "000000010110"); (2304, "000000010111"); (2368, "000000011100");
  (2432, "000000011101"); (2496, "000000011110"); (2560, "000000011111")].
(* T.6, table 1 *)
Definition pass_code := code "0001".
Definition horizontal_code := code "001".
Definition vertical_codes : list (Z * string) :=
  [(0, "1"); (1, "011"); (2, "000011"); (3, "0000011"); (-1, "010"); (-2, "000010"); (-3, "0000010")].
Definition EOFB := code "000000000001000000000001".

(* a run of n pixels: make-up codes, then one terminating code *)
Inductive Run (t : list (Z * string)) : Z -> list bool -> Prop :=
| Run_end : forall n c, In (n, c) t -> n < 64 -> Run t n (code c)
| Run_more : forall m c n r, In (m, c) t -> 64 <= m -> Run t n r -> Run t (m + n) (code c ++ r)%list.

(* the pixel at a position; the one before the line is white *)
Definition px (row : list bool) (i : Z) : bool := if i <? 0 then true else nth (Z.to_nat i) row true.
(* a changing element: a pixel whose colour differs from the one before it on the line *)
Definition Changing (row : list bool) (i : Z) : Prop := 0 <= i < Z.of_nat (length row) /\ px row i <> px row (i - 1).
(* y is the first position to the right of x with the property, or the end of the line *)
Definition FirstAfter (P : Z -> Prop) (x w y : Z) : Prop := y <= w /\ (x < y /\ P y \/ y = w) /\ forall i, x < i < y -> ~ P i.

Section line.
  Context (w : Z) (ref cur : list bool).
  Definition A1 (a0 a1 : Z) : Prop := FirstAfter (Changing cur) a0 w a1.
  Definition A2 (a1 a2 : Z) : Prop := FirstAfter (Changing cur) a1 w a2.
  Definition B1 (a0 b1 : Z) : Prop := FirstAfter (fun i => Changing ref i /\ px ref i <> px cur a0) a0 w b1.
  Definition B2 (b1 b2 : Z) : Prop := FirstAfter (Changing ref) b1 w b2.
  (* the bits that code the rest of the line from a0 on.  Each mode is allowed wherever a decoder can follow it *)
  Inductive Line : Z -> list bool -> Prop :=
  | L_end : Line w []
  | L_pass : forall a0 b1 b2 a1 r, a0 < w -> B1 a0 b1 -> B2 b1 b2 -> A1 a0 a1 -> b2 < a1 -> Line b2 r -> Line a0 (pass_code ++ r)%list
  | L_vertical : forall a0 b1 a1 c r, a0 < w -> B1 a0 b1 -> A1 a0 a1 -> In (a1 - b1, c) vertical_codes -> Line a1 r -> Line a0 (code c ++ r)%list
  | L_horizontal : forall a0 a1 a2 c1 c2 r, a0 < w -> A1 a0 a1 -> A2 a1 a2 ->
      Run (if px cur a0 then T4_white else T4_black) (a1 - Z.max 0 a0) c1 ->
      Run (if px cur a0 then T4_black else T4_white) (a2 - a1) c2 ->
      Line a2 r -> Line a0 (horizontal_code ++ c1 ++ c2 ++ r)%list.
  (* the procedure of T.6, figure 7: pass mode when b2 lies left of a1, otherwise vertical mode when a1 is at most 3 from b1, otherwise horizontal mode *)
  Inductive T6Line : Z -> list bool -> Prop :=
  | T_end : T6Line w []
  | T_pass : forall a0 b1 b2 a1 r, a0 < w -> B1 a0 b1 -> B2 b1 b2 -> A1 a0 a1 -> b2 < a1 -> T6Line b2 r -> T6Line a0 (pass_code ++ r)%list
  | T_vertical : forall a0 b1 b2 a1 c r, a0 < w -> B1 a0 b1 -> B2 b1 b2 -> A1 a0 a1 -> a1 <= b2 -> -3 <= a1 - b1 <= 3 ->
      In (a1 - b1, c) vertical_codes -> T6Line a1 r -> T6Line a0 (code c ++ r)%list
  | T_horizontal : forall a0 b1 b2 a1 a2 c1 c2 r, a0 < w -> B1 a0 b1 -> B2 b1 b2 -> A1 a0 a1 -> a1 <= b2 -> a1 - b1 < -3 \/ 3 < a1 - b1 -> A2 a1 a2 ->
      Run (if px cur a0 then T4_white else T4_black) (a1 - Z.max 0 a0) c1 ->
      Run (if px cur a0 then T4_black else T4_white) (a2 - a1) c2 ->
      T6Line a2 r -> T6Line a0 (horizontal_code ++ c1 ++ c2 ++ r)%list.
End line.
(* an image: each line is coded with the one above it as reference, the first with an all-white line *)
Inductive Coded (w : Z) : list bool -> list (list bool) -> list (list bool) -> Prop :=
| Coded_nil : forall ref, Coded w ref [] []
| Coded_cons : forall ref row rows c cs, Z.of_nat (length row) = w -> Line w ref row (-1) c -> Coded w row rows cs -> Coded w ref (row :: rows) (c :: cs).
Definition white_line (w : Z) : list bool := repeat true (Z.to_nat w).

(* the bits of bytes, high-order bit first *)
Definition bits_in (data : list Z) : list bool := flat_map (fun c => map (Z.testbit c) [7; 6; 5; 4; 3; 2; 1; 0]) data.
(* a stream of codes, one after the other, then either EOFB and anything after it or less than a byte of zero bits *)
Definition Stream (cs : list (list bool)) (data : list Z) : Prop :=
  exists t, bits_in data = (List.concat cs ++ t)%list /\ ((exists k, t = repeat false k /\ (k < 8)%nat) \/ exists u, t = (EOFB ++ u)%list).
(* EncodedByteAlign: each line starts on a byte *)
Inductive Aligned : list (list bool) -> list Z -> Prop :=
| Al_nil : Aligned [] []
| Al_eofb : forall data u, bits_in data = (EOFB ++ u)%list -> Aligned [] data
| Al_cons : forall c cs line rest pad, bits_in line = (c ++ pad)%list -> (length pad < 8)%nat -> Aligned cs rest -> Aligned (c :: cs) (line ++ rest).
(* one decoded line: 8 pixels to a byte, high-order bit first, unused bits zero; white is 1, or 0 when black is *)
Definition Packed (black_is_1 : bool) (row : list bool) (out : list Z) : Prop :=
  Z.of_nat (length out) = (Z.of_nat (length row) + 7) / 8 /\ bytes out /\
  bits_in out = (map (xorb black_is_1) row ++ repeat false (8 * length out - length row))%list.
