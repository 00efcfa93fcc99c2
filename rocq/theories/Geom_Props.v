(* C33 (matrices), C34 (bounding boxes), C35 (spatial lookup). *)
From Coq Require Import QArith Lqa.
From Verif Require Import Base Num Geom_Model Geom_Spec Geom_Proofs.
From Coq Require Import Qcanon ZifyBool ZifyNat.
Open Scope Z_scope.

(* ---------- C33 ---------- *)
(* mult_matrix(m1, m0) is "m1 first, then m0" *)
Theorem C33_compose m1 m0 p : apply_matrix_pt (mult_matrix m1 m0) p = apply_matrix_pt m0 (apply_matrix_pt m1 p).
Proof. destruct m1 as [[[[[a1 b1] c1] d1] e1] f1], m0 as [[[[[a0 b0] c0] d0] e0] f0], p as [x y]. cbn. f_equal; ring. Qed.
Theorem C33_assoc m2 m1 m0 : mult_matrix (mult_matrix m2 m1) m0 = mult_matrix m2 (mult_matrix m1 m0).
Proof.
  destruct m2 as [[[[[a2 b2] c2] d2] e2] f2], m1 as [[[[[a1 b1] c1] d1] e1] f1], m0 as [[[[[a0 b0] c0] d0] e0] f0]. cbn.
  repeat (apply (f_equal2 pair)); ring.
Qed.
Theorem C33_identity m p : mult_matrix matrix_identity m = m /\ mult_matrix m matrix_identity = m /\ apply_matrix_pt matrix_identity p = p.
Proof.
  destruct m as [[[[[a b] c] d] e] f], p as [x y]. cbn. change (qz 1) with 1%Qc. change (qz 0) with 0%Qc.
  repeat split; repeat (apply (f_equal2 pair)); ring.
Qed.
(* translating a matrix moves the argument first *)
Theorem C33_translate m x y p : apply_matrix_pt (translate_matrix m (x, y)) p = apply_matrix_pt m (fst p + x, snd p + y)%Qc.
Proof. destruct m as [[[[[a b] c] d] e] f], p as [u v]. cbn. f_equal; ring. Qed.
Theorem C33_translate_is_mult m x y : translate_matrix m (x, y) = mult_matrix (qz 1, qz 0, qz 0, qz 1, x, y) m.
Proof. destruct m as [[[[[a b] c] d] e] f]. cbn. change (qz 1) with 1%Qc. change (qz 0) with 0%Qc. repeat (apply (f_equal2 pair)); ring. Qed.
(* a vector is mapped to the difference of the images of its end points *)
Theorem C33_norm m p v : let q := (fst p + fst v, snd p + snd v)%Qc in
  apply_matrix_norm m v = (fst (apply_matrix_pt m q) - fst (apply_matrix_pt m p), snd (apply_matrix_pt m q) - snd (apply_matrix_pt m p))%Qc.
Proof. destruct m as [[[[[a b] c] d] e] f], p as [x y], v as [u w]. cbn. f_equal; ring. Qed.

(* ---------- C34 ---------- *)
(* a box made from any two corners contains both, and is the least that does *)
Theorem C34_corners x0 y0 x1 y1 : let b := Bbox x0 y0 x1 y1 in
  Contains (bx0 b) (by0 b) (bx1 b) (by1 b) x0 y0 /\ Contains (bx0 b) (by0 b) (bx1 b) (by1 b) x1 y1 /\
  (forall u0 v0 u1 v1, Contains u0 v0 u1 v1 x0 y0 -> Contains u0 v0 u1 v1 x1 y1 ->
     (u0 <= bx0 b)%Qc /\ (v0 <= by0 b)%Qc /\ (bx1 b <= u1)%Qc /\ (by1 b <= v1)%Qc).
Proof.
  unfold Contains. cbn. repeat split; try apply qmin_l; try apply qmin_r; try apply qmax_l; try apply qmax_r;
    try (apply qmin_glb; tauto); try (apply qmax_lub; tauto).
Qed.
Definition acc4 (acc : num * num * num * num) (p : point) : num * num * num * num :=
  let '(x0, y0, x1, y1) := acc in let '(x, y) := p in (qmin x0 x, qmin y0 y, qmax x1 x, qmax y1 y).
Lemma acc_spec pts : forall x0 y0 x1 y1, let '(u0, v0, u1, v1) := fold_left acc4 pts (x0, y0, x1, y1) in
  (u0 <= x0)%Qc /\ (v0 <= y0)%Qc /\ (x1 <= u1)%Qc /\ (y1 <= v1)%Qc /\
  (forall x y, In (x, y) pts -> Contains u0 v0 u1 v1 x y) /\
  (u0 = x0 \/ exists x y, In (x, y) pts /\ u0 = x) /\ (v0 = y0 \/ exists x y, In (x, y) pts /\ v0 = y) /\
  (u1 = x1 \/ exists x y, In (x, y) pts /\ u1 = x) /\ (v1 = y1 \/ exists x y, In (x, y) pts /\ v1 = y).
Proof.
  induction pts as [|[x y] pts IH]; intros x0 y0 x1 y1; cbn [fold_left].
  - repeat split; try apply Qcle_refl; try contradiction; try (left; reflexivity).
  - cbn [acc4]. specialize (IH (qmin x0 x) (qmin y0 y) (qmax x1 x) (qmax y1 y)).
    destruct (fold_left acc4 pts _) as [[[u0 v0] u1] v1]. destruct IH as (A1 & A2 & A3 & A4 & C & D1 & D2 & D3 & D4).
    pose proof (qmin_l x0 x). pose proof (qmin_r x0 x). pose proof (qmin_l y0 y). pose proof (qmin_r y0 y).
    pose proof (qmax_l x1 x). pose proof (qmax_r x1 x). pose proof (qmax_l y1 y). pose proof (qmax_r y1 y).
    split; [eapply Qcle_trans; eassumption|]. split; [eapply Qcle_trans; eassumption|]. split; [eapply Qcle_trans; eassumption|]. split; [eapply Qcle_trans; eassumption|].
    split. { intros a b [E|Hin]; [injection E as <- <-; unfold Contains; repeat split; eapply Qcle_trans; eassumption|apply C; assumption]. }
    assert (K : forall (P : num -> num -> num -> Prop) u w, (u = w \/ exists a b, In (a, b) pts /\ P a b u) ->
               (forall z z' : num, (w = z \/ w = z' /\ P x y z') -> u = z \/ exists a b, In (a, b) ((x, y) :: pts) /\ P a b u)).
    { intros P u w [->|(a & b & Hab & HP)] z z'; [intros [->|[-> HP]]; [left; reflexivity|right; exists x, y; split; [left; reflexivity|assumption]]|].
      intros _. right. exists a, b. split; [right; assumption|assumption]. }
    split; [|split; [|split]].
    + apply (K (fun a b u => u = a) _ _ D1 x0 x). destruct (qmin_cases x0 x); [left|right]; tauto.
    + apply (K (fun a b u => u = b) _ _ D2 y0 y). destruct (qmin_cases y0 y); [left|right]; tauto.
    + apply (K (fun a b u => u = a) _ _ D3 x1 x). destruct (qmax_cases x1 x); [left|right]; tauto.
    + apply (K (fun a b u => u = b) _ _ D4 y1 y). destruct (qmax_cases y1 y); [left|right]; tauto.
Qed.
(* every list with at least one point, coordinates within +-(2^31 - 1): the box contains every point and is within every
   box that does *)
Theorem C34_from_points_partial pts : pts <> [] ->
  (forall x y, In (x, y) pts -> (- INF <= x)%Qc /\ (x <= INF)%Qc /\ (- INF <= y)%Qc /\ (y <= INF)%Qc) ->
  let b := from_points pts in
  (forall x y, In (x, y) pts -> Contains (bx0 b) (by0 b) (bx1 b) (by1 b) x y) /\
  (forall u0 v0 u1 v1, (forall x y, In (x, y) pts -> Contains u0 v0 u1 v1 x y) ->
     (u0 <= bx0 b)%Qc /\ (v0 <= by0 b)%Qc /\ (bx1 b <= u1)%Qc /\ (by1 b <= v1)%Qc).
Proof.
  intros Hne Hb. unfold from_points. change (fold_left _ pts ?a) with (fold_left acc4 pts a).
  pose proof (acc_spec pts INF INF (- INF)%Qc (- INF)%Qc) as A. destruct (fold_left acc4 pts _) as [[[w0 z0] w1] z1].
  destruct A as (A1 & A2 & A3 & A4 & C & D1 & D2 & D3 & D4).
  destruct pts as [|[px py] pts]; [contradiction|]. pose proof (C px py (or_introl eq_refl)) as (P1 & P2 & P3 & P4).
  assert (E : Bbox w0 z0 w1 z1 = mkBox w0 z0 w1 z1).
  { unfold Bbox. pose proof (Qcle_trans _ _ _ P1 P2) as L1. pose proof (Qcle_trans _ _ _ P3 P4) as L2.
    unfold qmin, qmax. apply qlt_false in L1 as L1', L2 as L2'. rewrite L1', L2'.
    f_equal; [destruct (qlt w0 w1) eqn:X|destruct (qlt z0 z1) eqn:X]; try reflexivity; apply qlt_false in X; apply Qcle_antisym; assumption. }
  rewrite E. cbn [bx0 by0 bx1 by1]. split; [exact C|]. intros u0 v0 u1 v1 HU.
  pose proof (HU px py (or_introl eq_refl)) as (U1 & U2 & U3 & U4). pose proof (Hb px py (or_introl eq_refl)) as (B1 & B2 & B3 & B4).
  repeat split.
  - destruct D1 as [->|(a & b & Hab & ->)]; [exact (Qcle_trans _ _ _ U1 B2)|apply (HU a b Hab)].
  - destruct D2 as [->|(a & b & Hab & ->)]; [exact (Qcle_trans _ _ _ U3 B4)|apply (HU a b Hab)].
  - destruct D3 as [->|(a & b & Hab & ->)]; [exact (Qcle_trans _ _ _ B1 U2)|apply (HU a b Hab)].
  - destruct D4 as [->|(a & b & Hab & ->)]; [exact (Qcle_trans _ _ _ B3 U4)|apply (HU a b Hab)].
Qed.
(* without any bound on the coordinates the box still contains every point *)
Theorem C34_contains pts x y : In (x, y) pts -> let b := from_points pts in Contains (bx0 b) (by0 b) (bx1 b) (by1 b) x y.
Proof.
  intros Hin. unfold from_points. change (fold_left _ pts ?a) with (fold_left acc4 pts a).
  pose proof (acc_spec pts INF INF (- INF)%Qc (- INF)%Qc) as A. destruct (fold_left acc4 pts _) as [[[w0 z0] w1] z1].
  destruct A as (_ & _ & _ & _ & C & _). destruct (C x y Hin) as (P1 & P2 & P3 & P4). cbn. unfold Contains.
  repeat split; [eapply Qcle_trans; [apply qmin_l|assumption]|eapply Qcle_trans; [eassumption|apply qmax_r]|eapply Qcle_trans; [apply qmin_l|assumption]|eapply Qcle_trans; [eassumption|apply qmax_r]].
Qed.
(* Refuted: beyond 2^31 - 1 the box of a single point is not that point, but reaches back to 2^31 - 1 *)
Theorem C34_large_coordinates_refuted : exists x y, let b := from_points [(x, y)] in ~ (x <= bx0 b)%Qc.
Proof. exists (qz (2 ^ 40)), (qz 0). cbn zeta. intros H. apply qle_iff in H. vm_compute in H. discriminate. Qed.
(* Refuted: the box of no points is the largest box, not an empty one *)
Theorem C34_no_points_refuted : from_points [] = mkBox (- INF)%Qc (- INF)%Qc INF INF.
Proof. vm_compute. f_equal; apply Qc_is_canon; reflexivity. Qed.
Example C34_case : from_points [(qz 3, qz 7); (qz 5, qz 2); (qz 1, qz 4)] = mkBox (qz 1) (qz 2) (qz 5) (qz 7).
Proof. vm_compute. f_equal; apply Qc_is_canon; reflexivity. Qed.

(* ---------- C35 ---------- *)
Definition overlaps (a b : bbox) : Prop := Overlap (bx0 a) (by0 a) (bx1 a) (by1 a) (bx0 b) (by0 b) (bx1 b) (by1 b).
(* every history of a plane, whatever its position: objects of positive size within the plane, no right or upper edge
   strictly between -1 and 0.  find returns exactly the present objects that overlap the query, each once. *)
Lemma C35_lemma (box : Z -> bbox) pb d ops q : 0 < d -> proper pb -> Valid ops ->
  (forall o, In (Add o) ops -> proper (box o) /\ inside pb (box o) /\ fine_box pb (box o)) -> proper q -> fine_box pb q ->
  exists p l, run box pb d plane0 ops = Ok p /\ find box pb d p q = Ok l /\ NoDup l /\
    (forall o, In o l <-> Present ops o /\ overlaps (box o) q).
Proof.
  intros Hd Hpb HV Hbox Hq Fq. destruct (run_inv box pb d ops Hpb HV (fun o H => proj1 (Hbox o H))) as (p & Hp & Inv).
  destruct (getrange_ok pb d q Hq Hpb) as (kq & Hkq). exists p, (find_cells box (p_grid p) q [] kq). split; [assumption|].
  unfold find. rewrite Hkq. split; [reflexivity|]. destruct (find_cells_spec box d (p_grid p) q kq []) as [N I]. split; [assumption|].
  intros o. rewrite I, (disjointb_iff box d). fold (overlaps (box o) q). split.
  - intros ((k & Hk & Ho) & _ & HO). split; [|assumption]. destruct Inv as (N1 & I1 & C1). apply I1.
    destruct (in_dec Z.eq_dec o (p_objs p)) as [|Hn]; [assumption|exfalso].
    destruct (in_dec op_eq_dec (Add o) ops) as [Ha|Ha].
    + destruct (getrange_ok pb d (box o) (proj1 (Hbox o Ha)) Hpb) as (ko & Hko). apply (count_occ_In Z.eq_dec) in Ho. rewrite (C1 k o ko Hko) in Ho.
      apply mem_false in Hn. rewrite Hn in Ho. cbn in Ho. lia.
    + apply (run_sound box pb d ops plane0 p Hp k o) in Ho as [Ho|Ho]; [destruct Ho|contradiction].
  - intros [HP HO]. assert (Ha : In (Add o) ops) by (destruct HP as (a & b & -> & _); apply in_or_app; right; left; reflexivity).
    destruct (Hbox o Ha) as (B1 & B2 & B3). destruct (getrange_ok pb d (box o) B1 Hpb) as (ko & Hko).
    destruct (getrange_common box pb d (box o) q ko kq Hd B3 Fq B2 B1 (proj2 (disjointb_iff box d _ _) HO) Hko Hkq) as (k & K1 & K2).
    split; [|split; [intros []|assumption]]. exists k. split; [assumption|]. apply (cell_in box pb d ops p k o ko Inv Hko). tauto.
Qed.
(* a plane in the first quadrant, as pages are: no condition on edges *)
Theorem C35_find_partial (box : Z -> bbox) pb d ops q : 0 < d -> proper pb -> (qz 0 <= bx0 pb)%Qc -> (qz 0 <= by0 pb)%Qc ->
  Valid ops -> (forall o, In (Add o) ops -> proper (box o) /\ inside pb (box o)) -> proper q -> overlaps pb q ->
  exists p l, run box pb d plane0 ops = Ok p /\ find box pb d p q = Ok l /\ NoDup l /\
    (forall o, In o l <-> Present ops o /\ overlaps (box o) q).
Proof.
  intros Hd Hpb H0 H1 HV Hbox Hq HO. apply C35_lemma; try assumption.
  - intros o Ho. destruct (Hbox o Ho) as [B1 B2]. split; [assumption|]. split; [assumption|].
    destruct B1 as (X1 & Y1), B2 as (I1 & I2 & I3 & I4). split; right; apply qmin_glb; qc_lra.
  - destruct HO as (O1 & O2 & O3 & O4), Hpb as (X1 & Y1). split; right; apply qmin_glb; qc_lra.
Qed.
(* a query outside the plane finds nothing *)
Theorem C35_find_outside (box : Z -> bbox) pb d p q : ~ overlaps pb q -> find box pb d p q = Ok [].
Proof.
  intros H. unfold find, getrange.
  destruct (qle (bx1 q) (bx0 pb) || qle (bx1 pb) (bx0 q) || qle (by1 q) (by0 pb) || qle (by1 pb) (by0 q)) eqn:E; [reflexivity|exfalso].
  rewrite !orb_false_iff, !qle_false in E. apply H. unfold overlaps, Overlap. tauto.
Qed.
(* a plane anywhere *)
Theorem C35_find_anywhere_partial (box : Z -> bbox) pb d ops q : 0 < d -> proper pb -> fine (bx1 pb) -> fine (by1 pb) ->
  Valid ops -> (forall o, In (Add o) ops -> proper (box o) /\ inside pb (box o) /\ fine (bx1 (box o)) /\ fine (by1 (box o))) ->
  proper q -> fine (bx1 q) -> fine (by1 q) ->
  exists p l, run box pb d plane0 ops = Ok p /\ find box pb d p q = Ok l /\ NoDup l /\
    (forall o, In o l <-> Present ops o /\ overlaps (box o) q).
Proof.
  intros Hd Hpb F1 F2 HV Hbox Hq G1 G2.
  assert (K : forall a b, fine a -> fine b -> fine (qmin a b)) by (intros a b; destruct (qmin_cases a b) as [-> | ->]; auto).
  apply C35_lemma; try assumption.
  - intros o Ho. destruct (Hbox o Ho) as (B1 & B2 & B3 & B4). split; [assumption|]. split; [assumption|]. split; apply K; assumption.
  - split; apply K; assumption.
Qed.
(* whatever the history, find never returns an object that does not overlap the query or was never added *)
Theorem C35_sound (box : Z -> bbox) pb d ops p q l o : run box pb d plane0 ops = Ok p -> find box pb d p q = Ok l -> In o l ->
  In (Add o) ops /\ overlaps (box o) q.
Proof.
  unfold find. intros Hp. destruct (getrange pb d q) as [ks|]; cbn [bind]; [|discriminate]. intros E Hin. injection E as <-.
  apply (find_cells_spec box d (p_grid p) q ks []) in Hin as ((k & Hk & Ho) & _ & HD). apply (disjointb_iff box d) in HD. split; [|exact HD].
  apply (run_sound box pb d ops plane0 p Hp) in Ho as [Ho|Ho]; [destruct Ho|assumption].
Qed.
(* iteration gives the present objects *)
Theorem C35_iter (box : Z -> bbox) pb d ops p : proper pb -> Valid ops -> (forall o, In (Add o) ops -> proper (box o)) ->
  run box pb d plane0 ops = Ok p -> forall o, In o (p_iter p) <-> Present ops o.
Proof.
  intros Hpb HV Hbox Hp o. destruct (run_inv box pb d ops Hpb HV Hbox) as (p' & Hp' & _ & I & _). rewrite Hp in Hp'. injection Hp' as <-.
  unfold p_iter. rewrite filter_In, mem_iff, I. split; [tauto|]. intros HP. split; [|assumption].
  assert (K : forall ops p0, run box pb d p0 ops = Ok p -> In (Add o) ops \/ In o (p_seq p0) -> In o (p_seq p)).
  { clear. induction ops as [|[x|x] ops IH]; intros p0 H Hin; cbn [run] in H.
    - injection H as ->. destruct Hin as [[]|]; assumption.
    - unfold add in H. destruct (getrange pb d (box x)) as [ks|]; cbn [bind] in H; [|discriminate]. apply (IH _ H). cbn [p_seq]. rewrite in_app_iff. cbn.
      destruct Hin as [[E|Hin]|Hin]; [injection E as ->; tauto|tauto|tauto].
    - unfold remove in H. destruct (getrange pb d (box x)) as [ks|]; cbn [bind] in H; [|discriminate]. destruct (existsb _ _); [|discriminate]. cbn [bind] in H.
      apply (IH _ H). cbn [p_seq]. destruct Hin as [[E|Hin]|Hin]; [discriminate|tauto|tauto]. }
  apply (K ops plane0 Hp). left. destruct HP as (a & b & -> & _). apply in_or_app. right. left. reflexivity.
Qed.

Definition page : bbox := mkBox (qz 0) (qz 0) (qz 600) (qz 800).
Definition at_ (a b c d : Z) : Z -> bbox := fun _ => mkBox (qz a) (qz b) (qz c) (qz d).
Definition half (z : Z) : num := (qz z / qz 2)%Qc.
(* Refuted: an object of no width (a vertical line) cannot be placed: AssertionError *)
Theorem C35_zero_width_refuted : run (at_ 10 10 10 20) page 50 plane0 [Add 1] = Err AssertionError.
Proof. reflexivity. Qed.
(* Refuted: a box between -1 and 0 gets no cell and is never found, though it is present and overlaps the query *)
Theorem C35_negative_fraction_refuted : exists box pb p q, run box pb 50 plane0 [Add 1] = Ok p /\ Present [Add 1] 1 /\
  proper (box 1) /\ inside pb (box 1) /\ overlaps (box 1) q /\ find box pb 50 p q = Ok [].
Proof.
  exists (fun _ => mkBox (qz (-9) / qz 10)%Qc (qz 0) (half (-1)) (qz 10)), (mkBox (qz (-100)) (qz (-100)) (qz 100) (qz 100)).
  eexists. exists (mkBox (qz (-50)) (qz 0) (qz 50) (qz 50)). split; [reflexivity|]. split; [exists [], []; split; [reflexivity|auto]|].
  unfold proper, inside, overlaps, Overlap. cbn [bx0 by0 bx1 by1].
  repeat split; try (apply qle_iff; reflexivity); try (apply qlt_iff; reflexivity). 
Qed.
(* Refuted: an object outside the plane is present but never found *)
Theorem C35_outside_refuted : exists p q, run (at_ 700 0 710 10) page 50 plane0 [Add 1] = Ok p /\ p_iter p = [1] /\
  overlaps (at_ 700 0 710 10 1) q /\ find (at_ 700 0 710 10) page 50 p q = Ok [].
Proof.
  eexists. exists (mkBox (qz 0) (qz 0) (qz 900) (qz 900)). split; [reflexivity|]. split; [reflexivity|]. split; [|reflexivity].
  unfold overlaps, Overlap. repeat split; apply qlt_iff; reflexivity.
Qed.
(* Refuted (beyond valid histories): added twice and removed once, an object is absent from the set but still found *)
Theorem C35_readd_refuted : exists p q, run (at_ 0 0 10 10) page 50 plane0 [Add 1; Add 1; Remove 1] = Ok p /\ p_iter p = [] /\
  find (at_ 0 0 10 10) page 50 p q = Ok [1].
Proof. eexists. exists (mkBox (qz 0) (qz 0) (qz 20) (qz 20)). split; [reflexivity|]. split; reflexivity. Qed.
(* Refuted: added, removed and added again, an object is iterated twice *)
Theorem C35_iter_twice_refuted : Valid [Add 1; Remove 1; Add 1] /\
  exists p, run (at_ 0 0 10 10) page 50 plane0 [Add 1; Remove 1; Add 1] = Ok p /\ p_iter p = [1; 1].
Proof.
  split.
  - apply (V_add [Add 1; Remove 1] 1). apply (V_remove [Add 1] 1). apply (V_add [] 1). constructor.
    + intros ([|] & b & E & _); discriminate.
    + exists [], []. split; [reflexivity|auto].
    + change [Add 1; Remove 1] with ([Add 1] ++ [Remove 1]). rewrite present_remove. tauto.
  - eexists. split; reflexivity.
Qed.
Example C35_case : let box o := mkBox (qz o) (qz o) (qz (o + 60)) (qz (o + 10)) in
  let ops := [Add 10; Add 40; Add 200; Remove 40; Add 45] in
  Valid ops /\ (forall o, In (Add o) ops -> proper (box o) /\ inside page (box o)) /\
  exists p, run box page 50 plane0 ops = Ok p /\ find box page 50 p (mkBox (qz 15) (qz 0) (qz 300) (qz 60)) = Ok [10; 45].
Proof.
  cbn zeta. split; [|split].
  - assert (P : forall ops o, ~ In (Add o) ops -> ~ Present ops o) by (intros ops o H (a & b & -> & _); apply H, in_or_app; right; left; reflexivity).
    apply (V_add [_; _; _; _]); [apply (V_remove [_; _; _]); [apply (V_add [_; _]); [apply (V_add [_]); [apply (V_add []); [constructor|]|]|]|]|].
    1, 2, 3, 5: apply P; cbn; intros H; decompose [or] H; try discriminate; try contradiction.
    exists [Add 10], [Add 200]. split; [reflexivity|]. intros [H|[]]; discriminate.
  - intros o H. assert (E : o = 10 \/ o = 40 \/ o = 200 \/ o = 45).
    { cbn in H. decompose [or] H; try discriminate; try contradiction; match goal with E : Add _ = Add _ |- _ => injection E as <- end; tauto. }
    unfold proper, inside, page. cbn [bx0 by0 bx1 by1]. rewrite !qz_le, !qz_lt. lia.
  - eexists. split; [reflexivity|]. vm_compute. reflexivity.
Qed.
