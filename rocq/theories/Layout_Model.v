(* Model of interpreter/commands/state/layout/_base.py (LTComponent's comparisons, LTContainer) and of vecBetweenBoxes in utils/text.py.
   A component is given by its box; the tests of the classes of the arguments are not modelled. *)
From Verif Require Import Base Num Geom_Model.
From Coq Require Import Qcanon.
Open Scope Z_scope.
Import ListNotations.

(* abs() *)
Definition qabs (q : num) : num := if qlt q (qz 0) then (- q)%Qc else q.
(* _base.py:50-51 *)
Definition is_empty (b : bbox) : bool := qle (bx1 b - bx0 b)%Qc (qz 0) || qle (by1 b - by0 b)%Qc (qz 0).
(* 53-55 *)
Definition is_hoverlap (s o : bbox) : bool := qle (bx0 o) (bx1 s) && qle (bx0 s) (bx1 o).
(* 57-62 *)
Definition hdistance (s o : bbox) : num :=
  if is_hoverlap s o then qz 0 else qmin (qabs (bx0 s - bx1 o)%Qc) (qabs (bx1 s - bx0 o)%Qc).
(* 64-69 *)
Definition hoverlap (s o : bbox) : num :=
  if is_hoverlap s o then qmin (qabs (bx0 s - bx1 o)%Qc) (qabs (bx1 s - bx0 o)%Qc) else qz 0.
(* 71-73 *)
Definition is_voverlap (s o : bbox) : bool := qle (by0 o) (by1 s) && qle (by0 s) (by1 o).
(* 75-80 *)
Definition vdistance (s o : bbox) : num :=
  if is_voverlap s o then qz 0 else qmin (qabs (by0 s - by1 o)%Qc) (qabs (by1 s - by0 o)%Qc).
(* 82-87 *)
Definition voverlap (s o : bbox) : num :=
  if is_voverlap s o then qmin (qabs (by0 s - by1 o)%Qc) (qabs (by1 s - by0 o)%Qc) else qz 0.
(* utils/text.py:53-76 *)
Definition vec_between (a b : bbox) : point :=
  let x0 := qmin (bx0 a) (bx0 b) in let y0 := qmin (by0 a) (by0 b) in
  let x1 := qmax (bx1 a) (bx1 b) in let y1 := qmax (by1 a) (by1 b) in
  let iw := (x1 - x0 - (bx1 a - bx0 a) - (bx1 b - bx0 b))%Qc in
  let ih := (y1 - y0 - (by1 a - by0 a) - (by1 b - by0 b))%Qc in
  if qlt iw (qz 0) && qlt ih (qz 0)
  then (((bx0 a + bx1 a) / qz 2 - (bx0 b + bx1 b) / qz 2)%Qc, ((by0 a + by1 a) / qz 2 - (by0 b + by1 b) / qz 2)%Qc)
  else (qmax (qz 0) iw, qmax (qz 0) ih).
