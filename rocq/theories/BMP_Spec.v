(* The Windows bitmap format, as a reader would see it: BITMAPFILEHEADER, BITMAPINFOHEADER, colour table, rows from the
   bottom, each padded to a multiple of four bytes. *)
From Coq Require Import String.
From Verif Require Export Base.
Open Scope Z_scope.
Import ListNotations.

(* the little-endian number of n bytes at offset p *)
Definition num_at (f : list Z) (p n : nat) : Z := fold_right (fun b a => b + 256 * a) 0 (firstn n (skipn p f)).
Definition part (f : list Z) (p n : Z) : list Z := firstn (Z.to_nat n) (skipn (Z.to_nat p) f).

Record header := mkHeader {
  hd_size : Z; hd_offset : Z; hd_info : Z; hd_width : Z; hd_height : Z; hd_planes : Z; hd_bits : Z; hd_compression : Z;
  hd_image : Z; hd_colours : Z }.
Definition read_header (f : list Z) : option header :=
  if (54 <=? Z.of_nat (length f)) && list_eqb (firstn 2 f) (bs "BM")
  then Some (mkHeader (num_at f 2 4) (num_at f 10 4) (num_at f 14 4) (num_at f 18 4) (num_at f 22 4) (num_at f 26 2)
                      (num_at f 28 2) (num_at f 30 4) (num_at f 34 4) (num_at f 46 4))
  else None.

(* bytes of one row on disk and of its pixels alone *)
Definition stride (bits width : Z) : Z := (width * bits + 31) / 32 * 4.
Definition row_bytes (bits width : Z) : Z := (width * bits + 7) / 8.
(* the pixels of row y, counted from the top, in a file with header h *)
Definition row_of (h : header) (f : list Z) (y : Z) : list Z :=
  part f (hd_offset h + (hd_height h - 1 - y) * stride (hd_bits h) (hd_width h)) (row_bytes (hd_bits h) (hd_width h)).
(* colour i of the table: blue, green, red, zero *)
Definition colour_of (f : list Z) (i : Z) : list Z := part f (54 + 4 * i) 4.

(* the last row given for y *)
Definition last_given (y : Z) (calls : list (Z * list Z)) : option (list Z) :=
  fold_left (fun a p => if fst p =? y then Some (snd p) else a) calls None.
