(* Model of BMPWriter/__init__.py.  width, height, bits are ints (LTImage.py:50-56 passes the box of the image, whose
   sides are floats: that already fails in struct.pack and is not modelled).  The file is a list of bytes. *)
From Coq Require Import String.
From Verif Require Export Base Sec_Model.
Open Scope Z_scope.
Import ListNotations.

(* fp.seek(pos); fp.write(data): a gap after the end is filled with zero bytes; nothing happens for empty data *)
Definition file_write (pos : nat) (data f : list Z) : list Z :=
  match data with
  | [] => f
  | _ => firstn pos f ++ repeat 0 (pos - length f) ++ data ++ skipn (pos + length data) f
  end.

(* __init__.py:7-8 *)
Definition align32 (x : Z) : Z := (x + 3) / 4 * 4.

(* struct.pack of an H *)
Definition pack_H (v : Z) : res (list Z) := if (0 <=? v) && (v <? 65536) then Ok (le_bytes 2 v) else Err StructError.

Record bmp := mkBmp { b_bits : Z; b_width : Z; b_height : Z; b_linesize : Z; b_datasize : Z; b_pos1 : Z }.

(* __init__.py:46-54: the colour table *)
Definition palette (ncols : Z) : list Z :=
  let entry i := [i; i; i; 0] in
  if ncols =? 2 then flat_map entry [0; 255]
  else if ncols =? 256 then flat_map entry (map Z.of_nat (seq 0 256))
  else [].

(* __init__.py:25-56: the writer and what it has written to a new file *)
Definition bmp_init (bits width height : Z) : res (bmp * list Z) :=
  do ncols <- (if bits =? 1 then Ok 2 else if bits =? 8 then Ok 256 else if bits =? 24 then Ok 0 else Err ValueError);
  let linesize := align32 ((width * bits + 7) / 8) in
  let datasize := linesize * height in
  let headersize := 14 + 40 + ncols * 4 in
  do w <- pack_l width; do h <- pack_l height; do p <- pack_H 1; do b <- pack_H bits; do d <- pack_L datasize; do n <- pack_L ncols;
  let info := le_bytes 4 40 ++ w ++ h ++ p ++ b ++ le_bytes 4 0 ++ d ++ le_bytes 4 0 ++ le_bytes 4 0 ++ n ++ le_bytes 4 0 in
  do s <- pack_L (headersize + datasize);
  let header := bs "BM" ++ s ++ le_bytes 2 0 ++ le_bytes 2 0 ++ le_bytes 4 headersize in
  let f := header ++ info ++ palette ncols in
  Ok (mkBmp bits width height linesize datasize (Z.of_nat (length f) + datasize), f).

(* __init__.py:58-61 write_line *)
Definition write_line (m : bmp) (y : Z) (data f : list Z) : res (list Z) :=
  let pos := b_pos1 m - (y + 1) * b_linesize m in
  if pos <? 0 then Err ValueError else Ok (file_write (Z.to_nat pos) data f).
Fixpoint write_lines (m : bmp) (calls : list (Z * list Z)) (f : list Z) : res (list Z) :=
  match calls with
  | [] => Ok f
  | (y, d) :: r => do f' <- write_line m y d f; write_lines m r f'
  end.

(* data[i:i+step] for 0 <= i, 0 <= step *)
Definition slice (i step : Z) (data : list Z) : list Z := firstn (Z.to_nat step) (skipn (Z.to_nat i) data).
(* __init__.py:15-21 write_all; the bits argument is not used *)
Definition write_all (bits width height step : Z) (data : list Z) : res (list Z) :=
  do (m, f) <- bmp_init 1 width height;
  write_lines m (map (fun y => (Z.of_nat y, slice (Z.of_nat y * step) step data)) (seq 0 (Z.to_nat height))) f.
