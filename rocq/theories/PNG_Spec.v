(* Specification of PNG row filtering (PNG specification section 6) for 8-bit samples. *)
From Verif Require Import Base.

Inductive filter := FNone | FSub | FUp | FAvg | FPaeth.
Definition filter_byte (f : filter) : Z :=
  match f with FNone => 0 | FSub => 1 | FUp => 2 | FAvg => 3 | FPaeth => 4 end.

Definition paeth (a b c : Z) : Z :=
  let p := a + b - c in
  let pa := Z.abs (p - a) in let pb := Z.abs (p - b) in let pc := Z.abs (p - c) in
  if (pa <=? pb) && (pa <=? pc) then a else if pb <=? pc then b else c.

(* byte i of a row, 0 before the row starts; bpp bytes per pixel back *)
Definition at_ (row : list Z) (i : nat) : Z := nth i row 0.
Definition back (bpp : nat) (row : list Z) (i : nat) : Z := if Nat.ltb i bpp then 0 else nth (i - bpp) row 0.

Definition predicted (f : filter) (bpp : nat) (prior row : list Z) (i : nat) : Z :=
  match f with
  | FNone => 0
  | FSub => back bpp row i
  | FUp => at_ prior i
  | FAvg => (back bpp row i + at_ prior i) / 2
  | FPaeth => paeth (back bpp row i) (at_ prior i) (back bpp prior i)
  end.

Definition filter_row (f : filter) (bpp : nat) (prior row : list Z) : list Z :=
  filter_byte f :: map (fun i => (at_ row i - predicted f bpp prior row i) mod 256) (seq 0 (length row)).

(* an image: rows with their chosen filters; the row before the first is all zero *)
Fixpoint filter_image (bpp : nat) (prior : list Z) (img : list (filter * list Z)) : list Z :=
  match img with
  | [] => []
  | (f, row) :: r => filter_row f bpp prior row ++ filter_image bpp row r
  end.
Definition png_encode (colors columns : nat) (img : list (filter * list Z)) : list Z :=
  filter_image colors (repeat 0 (colors * columns)) img.

Definition image_ok (colors columns : nat) (img : list (filter * list Z)) : Prop :=
  Forall (fun fr => length (snd fr) = (colors * columns)%nat /\ bytes (snd fr)) img.

(* big-endian spelling of v on n bytes *)
Fixpoint be_encode (n : nat) (v : Z) : list Z :=
  match n with O => [] | S n' => be_encode n' (v / 256) ++ [v mod 256] end.

(* the sub-class of images for which the partial theorem is stated: per row, None; Sub with one colour
   component; Up in any row but the first, or with one colour component *)
Definition png_supported (colors : nat) (first : bool) (f : filter) : Prop :=
  f = FNone \/ (f = FSub /\ colors = 1%nat) \/ (f = FUp /\ (first = false \/ colors = 1%nat)).

Fixpoint all_supported (colors : nat) (first : bool) (img : list (filter * list Z)) : Prop :=
  match img with
  | [] => True
  | (f, _) :: r => png_supported colors first f /\ all_supported colors false r
  end.

