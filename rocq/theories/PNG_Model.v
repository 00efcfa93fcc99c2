(* Model of pdfmajor/utils/generic.py: apply_png_predictor (28-67) and nunpack (128-144). *)
From Verif Require Import Base.

(* generic.py:47-50: Sub *)
Fixpoint png_sub (c : Z) (line1 : list Z) : list Z :=
  match line1 with
  | [] => []
  | b :: r => let c' := Z.land (c + b) 255 in c' :: png_sub c' r
  end.

(* generic.py:53-55: Up; zip stops at the shorter list *)
Fixpoint png_up (line0 line1 : list Z) : list Z :=
  match line0, line1 with
  | a :: l0, b :: l1 => Z.land (a + b) 255 :: png_up l0 l1
  | _, _ => []
  end.

(* generic.py:58-61: Average *)
Fixpoint png_avg (c : Z) (line0 line1 : list Z) : list Z :=
  match line0, line1 with
  | a :: l0, b :: l1 => let c' := Z.land ((c + a + b) / 2) 255 in c' :: png_avg c' l0 l1
  | _, _ => []
  end.

(* generic.py:37-66: the loop for i in range(0, len(data), nbytes+1), on the suffix data[i:] *)
Fixpoint png_rows (fuel : nat) (nbytes : nat) (data line0 buf : list Z) : res (list Z) :=
  match data with
  | [] => Ok buf
  | ft :: rest =>
      match fuel with
      | O => Err OutOfFuel
      | S f =>
          let line1 := firstn nbytes rest in
          let next := skipn nbytes rest in
          if ft =? 0 then png_rows f nbytes next line1 (buf ++ line1)
          else if ft =? 1 then let l2 := png_sub 0 line1 in png_rows f nbytes next l2 (buf ++ l2)
          else if ft =? 2 then let l2 := png_up line0 line1 in png_rows f nbytes next l2 (buf ++ l2)
          else if ft =? 3 then let l2 := png_avg 0 line0 line1 in png_rows f nbytes next l2 (buf ++ l2)
          else Err ValueError
      end
  end.

(* generic.py:28-67.  range() with step 0 raises ValueError, with a negative step it is empty;
   b'\x00' * columns is empty for columns <= 0.  The parameter pred is not used by the code. *)
Definition apply_png_predictor (colors columns bpc : Z) (data : list Z) : res (list Z) :=
  if negb (bpc =? 8) then Err ValueError
  else
    let nbytes := colors * columns * bpc / 8 in
    if nbytes + 1 =? 0 then Err ValueError
    else if nbytes + 1 <? 0 then Ok []
    else png_rows (length data) (Z.to_nat nbytes) data (repeat 0 (Z.to_nat columns)) [].

(* big-endian value, as computed by struct.unpack('>H', '>L', '>Q') *)
Definition be_val (s : list Z) : Z := fold_left (fun a b => a * 256 + b) s 0.

(* generic.py:128-144 *)
Definition nunpack (s : list Z) (default : Z) : res Z :=
  match length s with
  | 0%nat => Ok default
  | 1%nat | 2%nat | 3%nat | 4%nat | 8%nat => Ok (be_val s)
  | _ => Err TypeError
  end.
