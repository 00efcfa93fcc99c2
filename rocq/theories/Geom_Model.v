(* Model of pdfmajor/utils/matrix.py, utils/types.py (Bbox) and utils/generic.py (uniq, drange, pick, choplist; csort is in Generic_Props.v,
   Plane). *)
From Verif Require Import Base Num.
From Coq Require Import Qcanon.
Open Scope Z_scope.

(* ---------- matrix.py ---------- *)
Definition matrix := (num * num * num * num * num * num)%type.
Definition point := (num * num)%type.
(* matrix.py:3 *)
Definition matrix_identity : matrix := (qz 1, qz 0, qz 0, qz 1, qz 0, qz 0).
(* matrix.py:5-11 *)
Definition mult_matrix (m1 m0 : matrix) : matrix :=
  let '(a1, b1, c1, d1, e1, f1) := m1 in
  let '(a0, b0, c0, d0, e0, f0) := m0 in
  (a0*a1+c0*b1, b0*a1+d0*b1, a0*c1+c0*d1, b0*c1+d0*d1, a0*e1+c0*f1+e0, b0*e1+d0*f1+f0)%Qc.
(* matrix.py:14-18 *)
Definition translate_matrix (m : matrix) (v : point) : matrix :=
  let '(a, b, c, d, e, f) := m in
  let '(x, y) := v in (a, b, c, d, x*a+y*c+e, x*b+y*d+f)%Qc.
(* matrix.py:21-25 *)
Definition apply_matrix_pt (m : matrix) (v : point) : point :=
  let '(a, b, c, d, e, f) := m in
  let '(x, y) := v in (a*x+c*y+e, b*x+d*y+f)%Qc.
(* matrix.py:28-32 *)
Definition apply_matrix_norm (m : matrix) (v : point) : point :=
  let '(a, b, c, d, _, _) := m in
  let '(p, q) := v in (a*p+c*q, b*p+d*q)%Qc.

(* ---------- types.py ---------- *)
Definition INF : num := qz (2 ^ 31 - 1).
Record bbox := mkBox { bx0 : num; by0 : num; bx1 : num; by1 : num }.
(* types.py:11-21, all coordinates given (not None) *)
Definition Bbox (x0 y0 x1 y1 : num) : bbox := mkBox (qmin x0 x1) (qmin y0 y1) (qmax x0 x1) (qmax y0 y1).
Definition bheight (b : bbox) : num := (by1 b - by0 b)%Qc.
Definition bwidth (b : bbox) : num := (bx1 b - bx0 b)%Qc.
(* types.py:37-46 *)
Definition from_points (pts : list point) : bbox :=
  let '(x0, y0, x1, y1) :=
    fold_left (fun acc p => let '(x0, y0, x1, y1) := acc in let '(x, y) := p in
                 (qmin x0 x, qmin y0 y, qmax x1 x, qmax y1 y)) pts (INF, INF, (- INF)%Qc, (- INF)%Qc) in
  Bbox x0 y0 x1 y1.

(* ---------- generic.py ---------- *)
(* 80-88 uniq, on objects with equality eqb *)
Section uniq.
  Context {A : Type} (eqb : A -> A -> bool).
  Fixpoint uniq_from (done objs : list A) : list A :=
    match objs with
    | [] => []
    | o :: r => if existsb (eqb o) done then uniq_from done r else o :: uniq_from (o :: done) r
    end.
  Definition uniq (objs : list A) : list A := uniq_from [] objs.
  (* 105-112 pick: the first object with the highest score *)
  Definition pick (score : A -> Z) (seq : list A) (maxobj : option A) : option A :=
    snd (fold_left (fun acc o => match fst acc with
                                 | None => (Some (score o), Some o)
                                 | Some m => if m <? score o then (Some (score o), Some o) else acc
                                 end) seq (None, maxobj)).
  (* 116-124 choplist *)
  Fixpoint chop (n : nat) (r seq : list A) : list (list A) :=
    match seq with
    | [] => []
    | x :: t => let r' := r ++ [x] in if Nat.eqb (length r') n then r' :: chop n [] t else chop n r' t
    end.
  Definition choplist (n : nat) (seq : list A) : list (list A) := chop n [] seq.
End uniq.

(* range(a, b) *)
Definition zrange (a b : Z) : list Z := map (fun k => a + Z.of_nat k) (seq 0 (Z.to_nat (b - a))).
(* 99-102 drange; d is an integer *)
Definition drange (v0 v1 : num) (d : Z) : res (list Z) :=
  if qlt v0 v1 then Ok (zrange (qtrunc v0 / d) (qtrunc (v1 + qz d)%Qc / d)) else Err AssertionError.

(* 153-232 Plane.  Objects are numbers (identity) with a fixed box. *)
Section plane.
  Context (box : Z -> bbox) (pb : bbox) (gridsize : Z).
  Record plane := mkPlane { p_seq : list Z; p_objs : list Z; p_grid : list ((Z * Z) * list Z) }.
  (* 155-161 *)
  Definition plane0 : plane := mkPlane [] [] [].
  Definition key_eq (a b : Z * Z) : bool := (fst a =? fst b) && (snd a =? snd b).
  Fixpoint gget (g : list ((Z * Z) * list Z)) (k : Z * Z) : option (list Z) :=
    match g with [] => None | (k', l) :: r => if key_eq k' k then Some l else gget r k end.
  Fixpoint gset (g : list ((Z * Z) * list Z)) (k : Z * Z) (l : list Z) : list ((Z * Z) * list Z) :=
    match g with [] => [(k, l)] | (k', l') :: r => if key_eq k' k then (k', l) :: r else (k', l') :: gset r k l end.
  (* 166-167 __iter__ *)
  Definition p_iter (p : plane) : list Z := filter (fun o => existsb (Z.eqb o) (p_objs p)) (p_seq p).
  (* 175-186 _getrange *)
  Definition getrange (b : bbox) : res (list (Z * Z)) :=
    if qle (bx1 b) (bx0 pb) || qle (bx1 pb) (bx0 b) || qle (by1 b) (by0 pb) || qle (by1 pb) (by0 b) then Ok []
    else
      let x0 := qmax (bx0 pb) (bx0 b) in
      let y0 := qmax (by0 pb) (by0 b) in
      let x1 := qmin (bx1 pb) (bx1 b) in
      let y1 := qmin (by1 pb) (by1 b) in
      do ys <- drange y0 y1 gridsize;
      match ys with
      | [] => Ok []
      | _ => do xs <- drange x0 x1 gridsize; Ok (flat_map (fun y => map (fun x => (x, y)) xs) ys)
      end.
  (* 195-205 add *)
  Definition grid_add (g : list ((Z * Z) * list Z)) (ks : list (Z * Z)) (o : Z) :=
    fold_left (fun g k => match gget g k with None => gset g k [o] | Some l => gset g k (l ++ [o]) end) ks g.
  Definition set_add (s : list Z) (o : Z) : list Z := if existsb (Z.eqb o) s then s else s ++ [o].
  Definition add (p : plane) (o : Z) : res plane :=
    do ks <- getrange (box o);
    Ok (mkPlane (p_seq p ++ [o]) (set_add (p_objs p) o) (grid_add (p_grid p) ks o)).
  (* list.remove: the first occurrence; absent: unchanged (ValueError is caught) *)
  Fixpoint remove1 (l : list Z) (o : Z) : list Z :=
    match l with [] => [] | x :: r => if x =? o then r else x :: remove1 r o end.
  (* 208-215 remove *)
  Definition grid_remove (g : list ((Z * Z) * list Z)) (ks : list (Z * Z)) (o : Z) :=
    fold_left (fun g k => match gget g k with None => g | Some l => gset g k (remove1 l o) end) ks g.
  Definition remove (p : plane) (o : Z) : res plane :=
    do ks <- getrange (box o);
    if existsb (Z.eqb o) (p_objs p)
    then Ok (mkPlane (p_seq p) (remove1 (p_objs p) o) (grid_remove (p_grid p) ks o))
    else Err KeyError.
  (* 218-232 find *)
  Definition disjointb (a b : bbox) : bool :=
    qle (bx1 a) (bx0 b) || qle (bx1 b) (bx0 a) || qle (by1 a) (by0 b) || qle (by1 b) (by0 a).
  Fixpoint find_cell (q : bbox) (done l : list Z) : list Z * list Z :=
    match l with
    | [] => ([], done)
    | o :: r =>
        if existsb (Z.eqb o) done then find_cell q done r
        else let (f, done') := find_cell q (o :: done) r in (if disjointb (box o) q then f else o :: f, done')
    end.
  Fixpoint find_cells (g : list ((Z * Z) * list Z)) (q : bbox) (done : list Z) (ks : list (Z * Z)) : list Z :=
    match ks with
    | [] => []
    | k :: r => match gget g k with
                | None => find_cells g q done r
                | Some l => let (f, done') := find_cell q done l in f ++ find_cells g q done' r
                end
    end.
  Definition find (p : plane) (q : bbox) : res (list Z) :=
    do ks <- getrange q; Ok (find_cells (p_grid p) q [] ks).
End plane.
