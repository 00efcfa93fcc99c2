(* Plane geometry: boxes, containment, overlap; histories of a set of placed objects. *)
From Verif Require Import Base Num.
From Coq Require Import Qcanon.

(* a box given by its corners x0 y0 x1 y1 contains a point *)
Definition Contains (x0 y0 x1 y1 x y : num) : Prop := (x0 <= x)%Qc /\ (x <= x1)%Qc /\ (y0 <= y)%Qc /\ (y <= y1)%Qc.
(* two boxes have a common interior point *)
Definition Overlap (ax0 ay0 ax1 ay1 bx0 by0 bx1 by1 : num) : Prop :=
  (ax0 < bx1)%Qc /\ (bx0 < ax1)%Qc /\ (ay0 < by1)%Qc /\ (by0 < ay1)%Qc.

(* a history of additions and removals; an object is present after it if it was added and not removed since *)
Inductive op := Add (o : Z) | Remove (o : Z).
Definition Present (ops : list op) (o : Z) : Prop := exists a b, ops = a ++ Add o :: b /\ ~ In (Remove o) b.
(* objects are added when absent and removed when present *)
Inductive Valid : list op -> Prop :=
| V_nil : Valid []
| V_add : forall ops o, Valid ops -> ~ Present ops o -> Valid (ops ++ [Add o])
| V_remove : forall ops o, Valid ops -> Present ops o -> Valid (ops ++ [Remove o]).
