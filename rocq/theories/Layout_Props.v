(* C92: distances between layout components. *)
From Verif Require Import Base Num Geom_Model Layout_Model Layout_Spec.
From Coq Require Import Qcanon Lia.
Open Scope Z_scope.

Lemma qabs_spec q : ((qz 0 <= q)%Qc /\ qabs q = q) \/ ((q < qz 0)%Qc /\ qabs q = (- q)%Qc).
Proof. unfold qabs. destruct (qlt q (qz 0)) eqn:E; [right; apply qlt_iff in E; auto|left; apply qlt_false in E; auto]. Qed.
Lemma qmin_spec a b : ((a <= b)%Qc /\ qmin a b = a) \/ ((b < a)%Qc /\ qmin a b = b).
Proof. unfold qmin. destruct (qlt b a) eqn:E; [right; apply qlt_iff in E; auto|left; apply qlt_false in E; auto]. Qed.
Lemma qmax_spec a b : ((a < b)%Qc /\ qmax a b = b) \/ ((b <= a)%Qc /\ qmax a b = a).
Proof. unfold qmax. destruct (qlt a b) eqn:E; [left; apply qlt_iff in E; auto|right; apply qlt_false in E; auto]. Qed.

(* the code is the same along and up the page: intervals [a,b] of the first and [c,d] of the second *)
Definition touch (a b c d : num) : bool := qle c b && qle a d.
Definition gap (a b c d : num) : num := qmin (qabs (a - d)%Qc) (qabs (b - c)%Qc).
Lemma touch_iff a b c d : touch a b c d = true <-> (c <= b)%Qc /\ (a <= d)%Qc.
Proof. unfold touch. rewrite andb_true_iff, !qle_iff. reflexivity. Qed.
Lemma touch_false a b c d : touch a b c d = false <-> (b < c)%Qc \/ (d < a)%Qc.
Proof. unfold touch. rewrite andb_false_iff, !qle_false. reflexivity. Qed.
Lemma touch_common a b c d : (a <= b)%Qc -> (c <= d)%Qc -> touch a b c d = true <-> exists x, (a <= x <= b)%Qc /\ (c <= x <= d)%Qc.
Proof.
  intros H1 H2. rewrite touch_iff. split.
  - intros (H3 & H4). exists (qmax a c). destruct (qmax_spec a c) as [(E & ->)|(E & ->)]; repeat split; qc_lra.
  - intros (x & (H3 & H4) & H5 & H6). split; qc_lra.
Qed.
Lemma dist_lemma a b c d : (a <= b)%Qc -> (c <= d)%Qc -> Distance (fun x => a <= x <= b)%Qc (fun x => c <= x <= d)%Qc (if touch a b c d then qz 0 else gap a b c d).
Proof.
  intros H1 H2. destruct (touch a b c d) eqn:E.
  - apply touch_common in E as (x & Hx & Hy); [|assumption..]. split; [|split; [|apply Qcle_refl]].
    + exists x, x. split; [exact Hx|split; [exact Hy|left]]. replace (x - x)%Qc with 0%Qc by ring. apply Qc_is_canon. reflexivity.
    + intros u v _ _. unfold far. destruct (qle v u) eqn:F; [apply qle_iff in F; left; qc_lra|apply qle_false in F; right; qc_lra].
  - apply touch_false in E. unfold gap. destruct E as [E|E].
    + assert (G : qmin (qabs (a - d)) (qabs (b - c)) = (c - b)%Qc).
      { destruct (qabs_spec (a - d)%Qc) as [(K & ->)|(K & ->)]; [exfalso; qc_lra|]. destruct (qabs_spec (b - c)%Qc) as [(L & ->)|(L & ->)]; [exfalso; qc_lra|].
        destruct (qmin_spec (- (a - d)) (- (b - c)))%Qc as [(M & ->)|(M & ->)]; [|ring]. apply qc_le_antisym; qc_lra. }
      rewrite G. split; [|split; [|qc_lra]].
      * exists b, c. split; [split; [exact H1|apply Qcle_refl]|split; [split; [apply Qcle_refl|exact H2]|now right]].
      * intros x y (X1 & X2) (Y1 & Y2). right. qc_lra.
    + assert (G : qmin (qabs (a - d)) (qabs (b - c)) = (a - d)%Qc).
      { destruct (qabs_spec (a - d)%Qc) as [(K & ->)|(K & ->)]; [|exfalso; qc_lra]. destruct (qabs_spec (b - c)%Qc) as [(L & ->)|(L & ->)]; [|exfalso; qc_lra].
        destruct (qmin_spec (a - d) (b - c))%Qc as [(M & ->)|(M & ->)]; [ring|]. apply qc_le_antisym; qc_lra. }
      rewrite G. split; [|split; [|qc_lra]].
      * exists a, d. split; [split; [apply Qcle_refl|exact H1]|split; [split; [exact H2|apply Qcle_refl]|now left]].
      * intros x y (X1 & X2) (Y1 & Y2). left. qc_lra.
Qed.
Lemma common_lemma a b c d : (a <= b)%Qc -> (c <= d)%Qc -> ~ inside a b c d -> ~ inside c d a b -> touch a b c d = true ->
  Common (fun x => a <= x <= b)%Qc (fun x => c <= x <= d)%Qc (gap a b c d).
Proof.
  intros H1 H2 N1 N2 E. apply touch_iff in E as (E1 & E2). unfold gap, inside in *.
  assert (A1 : qabs (a - d) = (d - a)%Qc) by (destruct (qabs_spec (a - d)%Qc) as [(K & ->)|(K & ->)]; [apply qc_le_antisym; qc_lra|ring]).
  assert (A2 : qabs (b - c) = (b - c)%Qc) by (destruct (qabs_spec (b - c)%Qc) as [(K & ->)|(K & ->)]; [reflexivity|exfalso; qc_lra]).
  rewrite A1, A2. destruct (qmin_spec (d - a) (b - c))%Qc as [(M & ->)|(M & ->)].
  - (* d - a <= b - c *) assert (K : (c <= a)%Qc /\ (d <= b)%Qc).
    { destruct (qle c a) eqn:F1; destruct (qle d b) eqn:F2; rewrite ?qle_iff, ?qle_false in *; [auto|exfalso..].
      - destruct (qle a c) eqn:F3; rewrite ?qle_iff, ?qle_false in *; [qc_lra|tauto].
      - destruct (qle b d) eqn:F3; rewrite ?qle_iff, ?qle_false in *; [qc_lra|tauto].
      - qc_lra. }
    exists a. split; [qc_lra|]. intros x. split; [intros ((X1 & X2) & X3 & X4); split; qc_lra|intros (X1 & X2); repeat split; qc_lra].
  - assert (K : (a <= c)%Qc /\ (b <= d)%Qc).
    { destruct (qle a c) eqn:F1; destruct (qle b d) eqn:F2; rewrite ?qle_iff, ?qle_false in *; [auto|exfalso..].
      - destruct (qle c a) eqn:F3; rewrite ?qle_iff, ?qle_false in *; [qc_lra|tauto].
      - destruct (qle d b) eqn:F3; rewrite ?qle_iff, ?qle_false in *; [qc_lra|tauto].
      - qc_lra. }
    exists c. split; [qc_lra|]. intros x. split; [intros ((X1 & X2) & X3 & X4); split; qc_lra|intros (X1 & X2); repeat split; qc_lra].
Qed.

Lemma gap_sym a b c d : gap a b c d = gap c d a b.
Proof.
  unfold gap. assert (S : forall x y, qabs (x - y) = qabs (y - x)).
  { intros x y. destruct (qabs_spec (x - y)%Qc) as [(K & ->)|(K & ->)], (qabs_spec (y - x)%Qc) as [(L & ->)|(L & ->)]; apply qc_le_antisym; qc_lra. }
  rewrite (S b c), (S a d). destruct (qmin_spec (qabs (d - a)) (qabs (c - b))) as [(M & ->)|(M & ->)], (qmin_spec (qabs (c - b)) (qabs (d - a))) as [(N & ->)|(N & ->)]; try reflexivity; apply qc_le_antisym; qc_lra.
Qed.
Lemma touch_sym a b c d : touch a b c d = touch c d a b.
Proof. unfold touch. apply andb_comm. Qed.

(* C92: components overlap exactly if their extents have a point in common *)
Theorem C92_overlap s o : proper s -> proper o ->
  (is_hoverlap s o = true <-> exists x, in_x s x /\ in_x o x) /\ (is_voverlap s o = true <-> exists y, in_y s y /\ in_y o y).
Proof. intros (H1 & H2) (H3 & H4). split; apply touch_common; assumption. Qed.
(* C92: hdistance and vdistance are the least distances of a point of the one and a point of the other *)
Theorem C92_distance s o : proper s -> proper o -> Distance (in_x s) (in_x o) (hdistance s o) /\ Distance (in_y s) (in_y o) (vdistance s o).
Proof. intros (H1 & H2) (H3 & H4). split; apply (dist_lemma); assumption. Qed.
Theorem C92_symmetric s o : hdistance s o = hdistance o s /\ vdistance s o = vdistance o s /\ hoverlap s o = hoverlap o s /\ voverlap s o = voverlap o s.
Proof.
  unfold hdistance, vdistance, hoverlap, voverlap, is_hoverlap, is_voverlap. fold (touch (bx0 s) (bx1 s) (bx0 o) (bx1 o)) (touch (bx0 o) (bx1 o) (bx0 s) (bx1 s)) (touch (by0 s) (by1 s) (by0 o) (by1 o)) (touch (by0 o) (by1 o) (by0 s) (by1 s)).
  fold (gap (bx0 s) (bx1 s) (bx0 o) (bx1 o)) (gap (bx0 o) (bx1 o) (bx0 s) (bx1 s)) (gap (by0 s) (by1 s) (by0 o) (by1 o)) (gap (by0 o) (by1 o) (by0 s) (by1 s)).
  rewrite (touch_sym (bx0 s)), (touch_sym (by0 s)), (gap_sym (bx0 s)), (gap_sym (by0 s)). auto.
Qed.
(* C92: hoverlap and voverlap are the lengths of the common extents, unless one is inside the other *)
Theorem C92_common_partial s o : proper s -> proper o ->
  (~ inside (bx0 s) (bx1 s) (bx0 o) (bx1 o) -> ~ inside (bx0 o) (bx1 o) (bx0 s) (bx1 s) -> is_hoverlap s o = true -> Common (in_x s) (in_x o) (hoverlap s o)) /\
  (~ inside (by0 s) (by1 s) (by0 o) (by1 o) -> ~ inside (by0 o) (by1 o) (by0 s) (by1 s) -> is_voverlap s o = true -> Common (in_y s) (in_y o) (voverlap s o)) /\
  (is_hoverlap s o = false -> hoverlap s o = qz 0) /\ (is_voverlap s o = false -> voverlap s o = qz 0).
Proof.
  intros (H1 & H2) (H3 & H4). unfold hoverlap, voverlap. splits.
  - intros N1 N2 E. rewrite E. apply common_lemma; assumption.
  - intros N1 N2 E. rewrite E. apply common_lemma; assumption.
  - intros ->. reflexivity.
  - intros ->. reflexivity.
Qed.
(* Refuted for a component inside another: the overlap is larger than its whole width *)
Theorem C92_inside_refuted s o : proper s -> inside (bx0 s) (bx1 s) (bx0 o) (bx1 o) -> (bx1 s - bx0 s < hoverlap s o)%Qc /\ forall d, Common (in_x s) (in_x o) d -> hoverlap s o <> d.
Proof.
  intros (P1 & P2) (H1 & H2). assert (L : (bx1 s - bx0 s < hoverlap s o)%Qc).
  { unfold hoverlap, is_hoverlap. assert (E1 : qle (bx0 o) (bx1 s) = true) by (apply qle_iff; qc_lra). assert (E2 : qle (bx0 s) (bx1 o) = true) by (apply qle_iff; qc_lra). rewrite E1, E2. cbn [andb].
    destruct (qabs_spec (bx0 s - bx1 o)%Qc) as [(K & ->)|(K & ->)], (qabs_spec (bx1 s - bx0 o)%Qc) as [(M & ->)|(M & ->)]; unfold qmin; match goal with |- context [qlt ?x ?y] => destruct (qlt x y) end; qc_lra. }
  split; [exact L|]. intros d (l & D & C) E. rewrite E in L. assert (X : in_x s l /\ in_x o l) by (apply C; split; [apply Qcle_refl|qc_lra]). assert (Y : in_x s (l + d)%Qc /\ in_x o (l + d)%Qc) by (apply C; split; [qc_lra|apply Qcle_refl]).
  unfold in_x in *. destruct X as ((X1 & X2) & _), Y as ((Y1 & Y2) & _). qc_lra.
Qed.
(* C92: a component is empty exactly if no two points of it are apart in both directions *)
Theorem C92_empty b : proper b -> is_empty b = true <-> ~ Covers b b.
Proof.
  intros (P1 & P2). unfold is_empty. rewrite orb_true_iff, !qle_iff. split.
  - intros H (x & x' & y & y' & H1 & H2 & (X1 & X2) & (X3 & X4) & _ & _ & (Y1 & Y2) & (Y3 & Y4) & _). destruct H; qc_lra.
  - intros H. destruct (qle (bx1 b - bx0 b)%Qc (qz 0)) eqn:E; [left; apply qle_iff; exact E|]. destruct (qle (by1 b - by0 b)%Qc (qz 0)) eqn:F; [right; apply qle_iff; exact F|].
    apply qle_false in E, F. exfalso. apply H. exists (bx0 b), (bx1 b), (by0 b), (by1 b). unfold in_x, in_y. repeat split; qc_lra.
Qed.
(* C92: the vector between two boxes has their distances, unless they have an area in common: then it goes from centre to centre *)
Lemma inner a b c d : (qmax b d - qmin a c - (b - a) - (d - c) = qmax a c - qmin b d)%Qc.
Proof. destruct (qmax_spec b d) as [(K & ->)|(K & ->)], (qmin_spec a c) as [(L & ->)|(L & ->)], (qmax_spec a c) as [(M & ->)|(M & ->)], (qmin_spec b d) as [(N & ->)|(N & ->)]; apply qc_le_antisym; qc_lra. Qed.
Lemma inner_dist a b c d : (a <= b)%Qc -> (c <= d)%Qc -> qmax (qz 0) (qmax a c - qmin b d)%Qc = if touch a b c d then qz 0 else gap a b c d.
Proof.
  intros H1 H2. destruct (dist_lemma a b c d H1 H2) as ((x & y & (X1 & X2) & (Y1 & Y2) & XY) & F & P). set (g := if touch a b c d then qz 0 else gap a b c d) in *. clearbody g. unfold far in F.
  destruct (qmax_spec (qz 0) (qmax a c - qmin b d)%Qc) as [(K & ->)|(K & ->)].
  - destruct (qmax_spec a c) as [(M & EM)|(M & EM)], (qmin_spec b d) as [(N & EN)|(N & EN)]; rewrite ?EM, ?EN in *; try (exfalso; qc_lra).
    + assert (D1 := F b c ltac:(split; [exact H1|apply Qcle_refl]) ltac:(split; [apply Qcle_refl|exact H2])). clear EM EN F; destruct XY as [ <- | <- ]; apply qc_le_antisym; destruct D1; qc_lra.
    + assert (D1 := F a d ltac:(split; [apply Qcle_refl|exact H1]) ltac:(split; [exact H2|apply Qcle_refl])). clear EM EN F; destruct XY as [ <- | <- ]; apply qc_le_antisym; destruct D1; qc_lra.
  - assert (D1 := F (qmax a c) (qmax a c)). assert (Z : (g <= qmax a c - qmax a c)%Qc).
    { destruct D1 as [D1|D1]; [| |exact D1|exact D1]; destruct (qmax_spec a c) as [(M & EM)|(M & EM)], (qmin_spec b d) as [(N & EN)|(N & EN)]; rewrite ?EM, ?EN in *; split; qc_lra. }
    apply qc_le_antisym; [exact P|]. replace (qz 0) with (qmax a c - qmax a c)%Qc; [exact Z|]. replace (qz 0) with 0%Qc by (apply Qc_is_canon; reflexivity). ring.
Qed.
Theorem C92_vector a b : proper a -> proper b ->
  (~ Covers a b -> vec_between a b = (hdistance a b, vdistance a b)) /\
  (Covers a b -> vec_between a b = (((bx0 a + bx1 a) / qz 2 - (bx0 b + bx1 b) / qz 2)%Qc, ((by0 a + by1 a) / qz 2 - (by0 b + by1 b) / qz 2)%Qc)).
Proof.
  intros (A1 & A2) (B1 & B2). unfold vec_between. rewrite !inner.
  destruct (qlt (qmax (bx0 a) (bx0 b) - qmin (bx1 a) (bx1 b)) (qz 0) && qlt (qmax (by0 a) (by0 b) - qmin (by1 a) (by1 b)) (qz 0))%Qc eqn:E.
  - split; [|reflexivity]. intros N. exfalso. apply N. apply andb_true_iff in E as (E1 & E2). apply qlt_iff in E1, E2.
    exists (qmax (bx0 a) (bx0 b)), (qmin (bx1 a) (bx1 b)), (qmax (by0 a) (by0 b)), (qmin (by1 a) (by1 b)). unfold in_x, in_y.
    pose proof (qmax_l (bx0 a) (bx0 b)). pose proof (qmax_r (bx0 a) (bx0 b)). pose proof (qmin_l (bx1 a) (bx1 b)). pose proof (qmin_r (bx1 a) (bx1 b)).
    pose proof (qmax_l (by0 a) (by0 b)). pose proof (qmax_r (by0 a) (by0 b)). pose proof (qmin_l (by1 a) (by1 b)). pose proof (qmin_r (by1 a) (by1 b)).
    repeat split; qc_lra.
  - split.
    + intros _. f_equal; apply inner_dist; assumption.
    + intros (x & x' & y & y' & H1 & H2 & (X1 & X2) & (X3 & X4) & (X5 & X6) & (X7 & X8) & (Y1 & Y2) & (Y3 & Y4) & (Y5 & Y6) & Y7 & Y8). exfalso. apply andb_false_iff in E as [E|E]; apply qlt_false in E.
      * destruct (qmax_spec (bx0 a) (bx0 b)) as [(U & EU)|(U & EU)], (qmin_spec (bx1 a) (bx1 b)) as [(V & EV)|(V & EV)]; rewrite EU, EV in E; qc_lra.
      * destruct (qmax_spec (by0 a) (by0 b)) as [(U & EU)|(U & EU)], (qmin_spec (by1 a) (by1 b)) as [(V & EV)|(V & EV)]; rewrite EU, EV in E; qc_lra.
Qed.
(* a case: two boxes side by side, and one inside another *)
Example C92_case : let a := Bbox (qz 0) (qz 0) (qz 2) (qz 1) in let b := Bbox (qz 5) (qz 3) (qz 4) (qz 1) in let c := Bbox (qz (-1)) (qz (-1)) (qz 9) (qz 9) in
  proper a /\ proper b /\ proper c /\ hdistance a b = qz 2 /\ vdistance a b = qz 0 /\ ~ Covers a b /\ Covers a c /\ inside (bx0 a) (bx1 a) (bx0 c) (bx1 c) /\ hoverlap a c = qz 3.
Proof.
  cbv zeta. splits; try (split; vm_compute; discriminate); try (vm_compute; reflexivity); try (apply Qc_is_canon; vm_compute; reflexivity).
  - intros (x & x' & y & y' & H1 & H2 & (X1 & X2) & (X3 & X4) & (X5 & X6) & _). apply (Qclt_not_le _ _ H1). apply Qcle_trans with (qz 2); [|apply Qcle_trans with (qz 4); [vm_compute; discriminate|]].
    + eapply Qcle_trans; [exact X4|]. vm_compute. discriminate.
    + eapply Qcle_trans; [|exact X5]. vm_compute. discriminate.
  - exists (qz 0), (qz 2), (qz 0), (qz 1). splits; try (vm_compute; reflexivity); split; vm_compute; discriminate.
  - split; vm_compute; reflexivity.
Qed.
