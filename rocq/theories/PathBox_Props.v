(* Property C39, the boxes of painted paths that are neither a line nor a rectangle. *)
From Coq Require Import String ZifyBool ZifyNat.
From Verif Require Import Base Obj Stream_Model Num Geom_Model Geom_Spec Geom_Proofs Geom_Props Page_Model Interp_Model Interp_Spec Interp_Proofs Interp_Props.
From Coq Require Import Qcanon.
Open Scope Z_scope.

(* where a segment ends *)
Definition ends_at (sg : seg) (p : point) : Prop :=
  sg = SMove p \/ sg = SLine p \/ (exists a b, sg = SBoth a b p) \/ (exists a, sg = SNext a p) \/ (exists a, sg = SFirst a p).
Definition end_point (paths : list seg) (p : point) : Prop := exists sg, In sg paths /\ ends_at sg p.
Definition other_shape (paths : list seg) : Prop :=
  (forall p0 p1, paths <> [SMove p0; SLine p1]) /\ (forall p0 p1 p2 p3, paths <> [SMove p0; SLine p1; SLine p2; SLine p3; SClose]).
Definition ends (paths : list seg) : list point :=
  flat_map (fun sg => match sg with SMove p | SLine p | SBoth _ _ p | SNext _ p | SFirst _ p => [p] | SClose => [] end) paths.
Lemma in_ends paths p : In p (ends paths) <-> end_point paths p.
Proof.
  unfold ends, end_point. rewrite in_flat_map. split; intros (sg & H & X); exists sg; (split; [assumption|]).
  - destruct sg; cbn in X; try contradiction; destruct X as [ -> |[]]; unfold ends_at; eauto 8.
  - destruct X as [ -> |[ -> |[(a & b & -> )|[(a & -> )|(a & -> )]]]]; left; reflexivity.
Qed.
Lemma curve_box_points paths : curve_box paths = from_points (ends paths).
Proof.
  unfold curve_box, from_points, ends. generalize (INF, INF, (- INF)%Qc, (- INF)%Qc).
  induction paths as [|sg paths IH]; intros acc; [reflexivity|]. cbn [fold_left flat_map]. rewrite fold_left_app.
  destruct sg; cbn [fold_left]; apply IH.
Qed.

(* A path that is neither two points nor a closed quadrilateral of four: its box holds the end point of every segment and
   lies within every box that does; the item has the state's colours and width and the path as it was constructed. *)
Theorem C39_item_curve_partial ctm g eo paths : other_shape paths -> (exists p, end_point paths p) ->
  (forall x y, end_point paths (x, y) -> - INF <= x /\ x <= INF /\ - INF <= y /\ y <= INF)%Qc ->
  exists box, make_curve ctm g eo paths = ICurve CCurve (g_width g) paths box (g_scolor g) (g_ncolor g) eo /\
    (forall x y, end_point paths (x, y) -> Contains (bx0 box) (by0 box) (bx1 box) (by1 box) x y) /\
    (forall u0 v0 u1 v1, (forall x y, end_point paths (x, y) -> Contains u0 v0 u1 v1 x y) ->
       (u0 <= bx0 box)%Qc /\ (v0 <= by0 box)%Qc /\ (bx1 box <= u1)%Qc /\ (by1 box <= v1)%Qc).
Proof.
  intros [H1 H2] (p & Hp) Hb. exists (from_points (ends paths)).
  assert (E : make_curve ctm g eo paths = ICurve CCurve (g_width g) paths (curve_box paths) (g_scolor g) (g_ncolor g) eo).
  { unfold make_curve. destruct paths as [|[p0|p0|? ? p0|? p0|? p0|] paths]; try reflexivity.
    destruct paths as [|[p1|p1|? ? p1|? p1|? p1|] paths]; try reflexivity.
    destruct paths as [|[p2|p2|? ? p2|? p2|? p2|] paths]; try reflexivity; [exfalso; eapply H1; reflexivity|].
    destruct paths as [|[p3|p3|? ? p3|? p3|? p3|] paths]; try reflexivity.
    destruct paths as [|[p4|p4|? ? p4|? p4|? p4|] paths]; try reflexivity.
    destruct paths as [|? ?]; try reflexivity. exfalso; eapply H2; reflexivity. }
  rewrite <- curve_box_points. split; [exact E|]. rewrite curve_box_points.
  destruct (C34_from_points_partial (ends paths)) as [A B].
  - intros X. apply in_ends in Hp. rewrite X in Hp. destruct Hp.
  - intros x y Hin. apply Hb, in_ends, Hin.
  - split; [intros x y Hx; apply A, in_ends, Hx|]. intros u0 v0 u1 v1 HU. apply B. intros x y Hin. apply HU, in_ends, Hin.
Qed.
(* Refuted: the box of such a path is not where the path is painted - the matrix is not applied to it... *)
Theorem C39_curve_box_not_transformed_refuted m1 m2 g eo paths : other_shape paths -> make_curve m1 g eo paths = make_curve m2 g eo paths.
Proof.
  intros [H1 H2]. unfold make_curve. destruct paths as [|[p0|p0|? ? p0|? p0|? p0|] paths]; try reflexivity.
  destruct paths as [|[p1|p1|? ? p1|? p1|? p1|] paths]; try reflexivity.
  destruct paths as [|[p2|p2|? ? p2|? p2|? p2|] paths]; try reflexivity; [exfalso; eapply H1; reflexivity|].
  destruct paths as [|[p3|p3|? ? p3|? p3|? p3|] paths]; try reflexivity.
  destruct paths as [|[p4|p4|? ? p4|? p4|? p4|] paths]; try reflexivity.
  destruct paths as [|? ?]; try reflexivity. exfalso; eapply H2; reflexivity.
Qed.
(* ... and a curve can leave the box of its end points: half way the curve from (0,0) over (0,4) and (4,4) to (4,0) is
   at height 3, the box has height 0 *)
Theorem C39_curve_leaves_box_refuted :
  curve_box [SMove (qz 0, qz 0); SBoth (qz 0, qz 4) (qz 4, qz 4) (qz 4, qz 0)] = mkBox (qz 0) (qz 0) (qz 4) (qz 0) /\
  let t := (qz 1 / qz 2)%Qc in let u := (1 - t)%Qc in
  (u * u * u * qz 0 + qz 3 * u * u * t * qz 4 + qz 3 * u * t * t * qz 4 + t * t * t * qz 0 = qz 3)%Qc.
Proof. split; [vm_compute; f_equal; apply Qc_is_canon; reflexivity|cbv zeta; apply Qc_is_canon; reflexivity]. Qed.
Example C39_curve_case : let p := [SMove (qz 1, qz 5); SBoth (qz 0, qz 4) (qz 9, qz 4) (qz 4, qz 0); SNext (qz 8, qz 8) (qz 3, qz 7); SFirst (qz 8, qz 8) (qz 2, qz 2); SClose] in
  other_shape p /\ (exists q, end_point p q) /\ curve_box p = mkBox (qz 1) (qz 0) (qz 4) (qz 7).
Proof.
  cbv zeta. split; [split; discriminate|]. split; [exists (qz 1, qz 5); eexists; split; [left; reflexivity|left; reflexivity]|].
  vm_compute. f_equal; apply Qc_is_canon; reflexivity.
Qed.
