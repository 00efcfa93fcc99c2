(* Distance and overlap of boxes, as sets of points. *)
From Verif Require Import Base Num Geom_Model.   (* only the type of boxes *)
From Coq Require Import Qcanon.
Open Scope Z_scope.

(* the corners are in order, as in every box the program makes *)
Definition proper (b : bbox) : Prop := (bx0 b <= bx1 b)%Qc /\ (by0 b <= by1 b)%Qc.
(* the extent of a box along the page and up the page *)
Definition in_x (b : bbox) (x : num) : Prop := (bx0 b <= x <= bx1 b)%Qc.
Definition in_y (b : bbox) (y : num) : Prop := (by0 b <= y <= by1 b)%Qc.
(* d is the least distance between a point of A and a point of B *)
Definition far (x y d : num) : Prop := (d <= x - y)%Qc \/ (d <= y - x)%Qc.
Definition Distance (A B : num -> Prop) (d : num) : Prop :=
  (exists x y, A x /\ B y /\ (x - y = d \/ y - x = d)%Qc) /\ (forall x y, A x -> B y -> far x y d) /\ (qz 0 <= d)%Qc.
(* the points of both form an interval of length d *)
Definition Common (A B : num -> Prop) (d : num) : Prop := exists l, (qz 0 <= d)%Qc /\ forall x, A x /\ B x <-> (l <= x <= l + d)%Qc.
(* one of two extents is inside the other, away from its ends *)
Definition inside (a0 a1 b0 b1 : num) : Prop := (b0 < a0)%Qc /\ (a1 < b1)%Qc.
(* the boxes have a rectangle with an area in common *)
Definition Covers (a b : bbox) : Prop :=
  exists x x' y y', (x < x')%Qc /\ (y < y')%Qc /\ in_x a x /\ in_x a x' /\ in_x b x /\ in_x b x' /\ in_y a y /\ in_y a y' /\ in_y b y /\ in_y b y'.
