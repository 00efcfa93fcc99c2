(* C103: lines, rectangles, curves and images stand where the page draws them. *)
From Coq Require Import String ZifyBool ZifyNat.
From Verif Require Import Base Obj Stream_Model Num Geom_Model Page_Model Interp_Model Interp_Spec Interp_Proofs Text_Proofs Geom_Props Interp_Props Forms_Props State_Spec State_Props Place_Props Shape_Spec.
From Coq Require Import Qcanon.
Open Scope Z_scope.
Import ListNotations.

Lemma smallest_hull b pts : smallest_box b pts -> Hull b pts.
Proof.
  intros (H & (p1 & I1 & E1) & (p2 & I2 & E2) & (p3 & I3 & E3) & (p4 & I4 & E4)). split; [exact H|]. intros c Hc.
  rewrite <- E1, <- E2, <- E3, <- E4. splits; [apply (Hc _ I1)|apply (Hc _ I3)|apply (Hc _ I2)|apply (Hc _ I4)].
Qed.
Lemma ext_hull b pts pts' : pts = pts' -> Hull b pts -> Hull b pts'. Proof. intros ->. exact (fun x => x). Qed.

Section props.
Context (getobj : Z -> option obj) (depth : nat) (mkfont : obj -> res font) (nested : istate -> list obj -> gen item * istate).
Notation step := (step getobj depth).
Notation exec := (exec getobj depth).
Notation run := (run getobj depth mkfont nested).
Definition not_shape (p : pending) : Prop := match p with PItem (ICurve _ _ _ _ _ _ _) | PItem (IImage _ _) => False | _ => True end.
Definition shape_op (c : op) : bool :=
  match c with
  | o_q | o_Q | o_cm | o_w | o_m | o_l | o_c | o_v | o_y | o_h | o_re | o_paint | o_paint_eo | o_close_paint | o_close_paint_eo | o_n
  | o_G | o_g | o_RG | o_rg | o_K | o_k | o_SCN | o_scn | o_EI | o_Do => true
  | _ => false
  end.
Definition same_pen (g g1 : gstate) : Prop := g_scolor g1 = g_scolor g /\ g_ncolor g1 = g_ncolor g /\ g_width g1 = g_width g.
Definition kept (s s1 : istate) : Prop :=
  s_ctm s1 = s_ctm s /\ s_gstack s1 = s_gstack s /\ s_path s1 = s_path s /\ s_cs s1 = s_cs s /\ s_xobjs s1 = s_xobjs s /\ same_pen (s_g s) (s_g s1) /\
  exists extra, s_done s1 = s_done s ++ extra /\ Forall not_shape extra.
Lemma kept_same s s1 : s_ctm s1 = s_ctm s -> s_gstack s1 = s_gstack s -> s_path s1 = s_path s -> s_cs s1 = s_cs s -> s_xobjs s1 = s_xobjs s -> same_pen (s_g s) (s_g s1) ->
  s_done s1 = s_done s -> kept s s1.
Proof. intros. unfold kept. splits; try assumption. exists []. rewrite app_nil_r. split; [assumption|constructor]. Qed.
Ltac kp := apply kept_same; try reflexivity; repeat split.
Lemma exec_kept c args s : shape_op c = false -> kept s (fst (exec c args s)).
Proof.
  intros H. destruct c; try discriminate; unfold Interp_Model.exec, with_num, device, nextline, fresh_lm, move_text, ok, fail;
    try (destruct args as [|? [|? [|? [|]]]]; try (solve [kp]));
    try solve [brk; kp];
    try solve [destruct (nums _) as [v|]; [|kp]; brk; kp];
    try solve [match goal with |- context [show ?s ?q] => destruct (show_frame s q) as (?lm & ?b & [->| ->]); kp end].
  - unfold kept. splits; try reflexivity; [repeat split|]. eexists. split; [reflexivity|]. constructor; [|constructor]. destruct (s_block s); exact Logic.I.
  - destruct o; try solve [match goal with |- context [show ?s ?q] => destruct (show_frame s q) as (?lm & ?b & [->| ->]); kp end]; brk; kp.
  - brk; try solve [kp]; match goal with |- context [show ?s ?q] => destruct (show_frame s q) as (?lm & ?b & [->| ->]); kp end.
Qed.
Lemma step_kept s o s1 : ~ among o shape_words -> step s o = (s1, None) -> kept s s1.
Proof.
  intros Ho E. destruct (step_cases getobj depth s o) as [(k & args & b & Hk & c & C1 & C2)|[(b & C1)|(b & k & Hk & C1)]].
  - rewrite C2 in E. subst o. destruct (shape_op c) eqn:Es.
    + exfalso. apply Ho. apply (not_among_ops _ k c C1). destruct c; try discriminate; vm_compute; reflexivity.
    + pose proof (exec_kept c args (with_args s b) Es) as K. rewrite E in K. exact K.
  - rewrite C1 in E. injection E as <-. kp.
  - rewrite C1 in E. discriminate.
Qed.
Lemma shape_items_app a b : shape_items (a ++ b) = shape_items a ++ shape_items b.
Proof. apply filter_app. Qed.
Lemma finish_no_shape g p i : not_shape p -> finish getobj depth mkfont nested g p = (i, None) -> shape_items i = [].
Proof.
  destruct p as [it|strm box r ctm]; cbn [finish not_shape]; [destruct it; intros H; [injection 1 as <-..]; try reflexivity; destruct H|].
  intros _. destruct (prep_state _ _ _ _ _ _); [|discriminate]. destruct (nested _ _) as [[kids [e|]] s']; [discriminate|]. injection 1 as <-. reflexivity.
Qed.
Lemma gflat_no_shape g l i : Forall not_shape l -> gflat (finish getobj depth mkfont nested g) l = (i, None) -> shape_items i = [].
Proof.
  intros H. revert i. induction H as [|p l Hp _ IH]; intros i; cbn [gflat]; [injection 1 as <-; reflexivity|].
  destruct (finish _ _ _ _ _ p) as [i1 [e|]] eqn:E; [discriminate|]. cbn [gapp snd fst]. destruct (gflat _ l) as [i2 e2]. cbn [fst snd] in *. intros [= <- ->].
  rewrite shape_items_app, (finish_no_shape _ _ _ Hp E), (IH i2 eq_refl). reflexivity.
Qed.
Section main.
Context (base : num * num -> num * num) (images : list Z -> option obj) (others : list Z -> Prop).
Notation Shapes := (Shapes base images others).
Notation Item := (Item base).
Record Sh (s : istate) (T : list coefs) (G : pen) (S : list (list coefs * pen)) (p : list seg) : Prop := mkSh {
  h_T : is_trans (s_ctm s) base T;
  h_G : drawn_with G (g_scolor (s_g s)) (g_ncolor (s_g s)) (g_width (s_g s));
  h_S : Forall2 (fun x y => is_trans (fst (fst x)) base (fst y)) (rev (s_gstack s)) S;
  h_p : s_path s = p;
  h_d : s_done s = [];
  h_cs : device_spaces s;
  h_x : forall n st, images n = Some st -> forall ctm pg, forall r, item_Do getobj depth (s_xobjs s) ctm pg (OName n) = Ok r -> r = Some (PItem (make_image st ctm));
  h_o : forall n, others n -> forall ctm pg p, item_Do getobj depth (s_xobjs s) ctm pg (OName n) = Ok (Some p) -> not_shape p }.
(* the operators that draw *)
Lemma run_drawn n a c s args l items s' p s1 : command (bs n) = Some c -> arity c = a -> length args = a -> Forall no_kwd args ->
  s_done s = [] -> exec c args s = (s1, None) -> s_done s1 = [PItem p] -> run s (args ++ OK n :: l) = ((items, None), s') ->
  exists i2, items = p :: i2 /\ run (with_done s1 []) l = ((i2, None), s').
Proof.
  intros H1 H2 H3 H4 Hd E D R. rewrite (run_push getobj depth mkfont nested args H4 s _ Hd) in R. apply run_cons in R as (s2 & i1 & i2 & E1 & E2 & E3 & ->).
  rewrite (step_op getobj depth n a c s (s_args s) args H1 H2 H3) in E1. replace (with_args s (s_args s)) with s in E1 by (destruct s; reflexivity).
  assert (s2 = s1) as -> by congruence. rewrite D in E2. cbn in E2. injection E2 as <-. exists i2. split; [reflexivity|exact E3].
Qed.
Lemma trans_eq m T p : is_trans m base T -> apply_matrix_pt m p = at_ base T p. Proof. intros H. apply H. Qed.
Lemma curve_item m g T G eo p : is_trans m base T -> drawn_with G (g_scolor g) (g_ncolor g) (g_width g) -> ~ slanted base T p -> Item (DPath p eo T G) (make_curve m g eo p).
Proof.
  intros HT HG Hp.
  assert (C : (forall a b, p <> [SMove a; SLine b]) -> (forall p0 p1 p2 p3, p <> [SMove p0; SLine p1; SLine p2; SLine p3; SClose]) ->
    make_curve m g eo p = ICurve CCurve (g_width g) p (curve_box p) (g_scolor g) (g_ncolor g) eo -> Item (DPath p eo T G) (make_curve m g eo p)).
  { intros N1 N2 ->. apply it_curve; assumption. }
  destruct p as [|[p0|p0|p01 p02 p03|p02 p03|p01 p03|] [|[p1|p1|p11 p12 p13|p12 p13|p11 p13|] [|[p2|p2|p21 p22 p23|p22 p23|p21 p23|] [|[p3|p3|p31 p32 p33|p32 p33|p31 p33|] [|[p4|p4|p41 p42 p43|p42 p43|p41 p43|] [|? ?]]]]]];
    try (apply C; [intros; discriminate|intros; discriminate|reflexivity]).
  - destruct (C39_item_line m g eo p0 p1) as (k & b & E & B & K1 & K2). rewrite E. rewrite !(trans_eq _ _ _ HT) in *. apply it_line; try assumption; [apply smallest_hull, B|].
    unfold make_curve in E. destruct (apply_matrix_pt m p0), (apply_matrix_pt m p1). injection E as <- _. destruct (qeqb _ _); [left; reflexivity|]. destruct (qeqb _ _); [right; left; reflexivity|right; right; reflexivity].
  - destruct (C39_item_rect m g eo p0 p1 p2 p3) as (b & E & B).
    { intros (q0 & q1 & q2 & q3 & E & H). injection E as <- <- <- <-. apply Hp. exists p0, p1, p2, p3. split; [reflexivity|]. cbv zeta in H. rewrite !(trans_eq _ _ _ HT) in H. exact H. }
    rewrite E. apply it_rect; [|exact HG]. apply smallest_hull. cbn [map] in *. rewrite !(trans_eq _ _ _ HT) in B. exact B.
Qed.
Lemma image_item m T st : is_trans m base T -> moderate base T -> Item (DImage st T) (make_image st m).
Proof.
  intros HT HM. unfold make_image. apply it_image.
  assert (E : map (apply_matrix_pt (mult_matrix matrix_identity m)) [(qz 0, qz 0); (qz 1, qz 0); (qz 0, qz 1); (qz 1, qz 1)] = map (at_ base T) unit_square).
  { apply map_ext. intros [x y]. rewrite C33_compose, (trans_eq _ _ _ HT). f_equal. unfold apply_matrix_pt, matrix_identity. change (qz 0) with 0%Qc. change (qz 1) with 1%Qc. f_equal; ring. }
  rewrite E. set (pts := map (at_ base T) unit_square).
  assert (IN : forall p, In p pts -> inside (mkBox (- INF)%Qc (- INF)%Qc INF INF) p) by (intros p Hp; apply in_map_iff in Hp as (q & <- & Hq); apply HM, Hq).
  destruct (C34_from_points_partial pts) as [K1 K2]; [discriminate|intros x y Hxy; apply IN in Hxy; unfold inside in Hxy; cbn in Hxy; tauto|].
  unfold Geom_Spec.Contains in *. split; [intros [x y] Hp; apply K1 in Hp; unfold inside; cbn [fst snd]; tauto|]. intros c Hc. apply (K2 (bx0 c) (by0 c) (bx1 c) (by1 c)). intros x y Hp. specialize (Hc (x, y) Hp). unfold inside in Hc. cbn [fst snd] in Hc. tauto.
Qed.
Ltac kws := repeat (constructor; [first [eapply num_not_kwd; eassumption|assumption]|]); constructor.
(* an operator without an item *)
Ltac quiet R A n a c args :=
  apply (run_instr_inv getobj depth mkfont nested n a c _ args) in R as (s1 & E1 & E2); try reflexivity; try assumption; try exact (h_d _ _ _ _ _ A); try (kws; fail).
Ltac set_pen := intros ? X; cbn in X; try (injection X as <-; reflexivity); auto.
Ltac kws' := repeat (constructor; [intros ?; discriminate|]); constructor.
Ltac path N1 := match goal with E1 : Interp_Model.exec _ _ _ _ _ = _ |- _ => cbn [Interp_Model.exec] in E1; unfold with_num in E1; rewrite N1 in E1; injection E1 as <- end.
Ltac build A E2 IH := eapply IH; [|exact (E2 (h_d _ _ _ _ _ A))]; destruct A as [A1 A2 A3 A4 A5 A6 A7 A8]; constructor; try assumption; try reflexivity; cbn [s_path with_path]; rewrite A4; reflexivity.
Lemma draw_path k c eo T G S p p' l out s items s' : command (bs k) = Some c -> arity c = 0%nat -> exec c [] s = (paint s eo p', None) ->
  ~ slanted base T p' -> Sh s T G S p ->
  (forall s items s', Sh s T G S [] -> run s l = ((items, None), s') -> Forall2 Item out (shape_items items)) ->
  run s (OK k :: l) = ((items, None), s') -> Forall2 Item (DPath p' eo T G :: out) (shape_items items).
Proof.
  intros C Ar E Hp A IH R. change (OK k :: l) with ([] ++ OK k :: l) in R.
  eapply (run_drawn k 0 c s []) with (p := make_curve (s_ctm s) (s_g s) eo p') in R as (i2 & -> & R);
    [|exact C|exact Ar|reflexivity|constructor|exact (h_d _ _ _ _ _ A)|exact E|unfold paint; cbn; rewrite (h_d _ _ _ _ _ A); reflexivity].
  pose proof (curve_item (s_ctm s) (s_g s) _ _ eo p' (h_T _ _ _ _ _ A) (h_G _ _ _ _ _ A) Hp) as CI.
  assert (SI : shape_items (make_curve (s_ctm s) (s_g s) eo p' :: i2) = make_curve (s_ctm s) (s_g s) eo p' :: shape_items i2) by (clear - CI; remember (make_curve (s_ctm s) (s_g s) eo p') as it eqn:X; clear X; inversion CI; reflexivity).
  rewrite SI. constructor; [exact CI|]. eapply IH; [|exact R]. destruct A as [A1 A2 A3 A4 A5 A6 A7 A8]. constructor; try assumption; reflexivity.
Qed.
Ltac draw A C Hp IH R := eapply draw_path; [exact C|reflexivity|cbn [Interp_Model.exec]; rewrite (h_p _ _ _ _ _ A); reflexivity|exact Hp|exact A|exact IH|exact R].
Theorem C103_run T G S p l out : Shapes T G S p l out -> forall s items s', Sh s T G S p -> run s l = ((items, None), s') -> Forall2 Item out (shape_items items).
Proof.
  induction 1 as [T G S p|T G S p o l out Ho _ IH|T G S xs a b c d e f l out Hx _ IH|T G S l out _ IH|T G T1 S l out _ IH
    |T G S p x l out Hx _ IH|T G S p x l out Hx _ IH|T G S p x l out Hx _ IH|T G S p x y z r g b l out Hx _ IH|T G S p x y z r g b l out Hx _ IH|T G S p c m y k l out Hx _ IH
    |T G S p x y a b l out Hx _ IH|T G S p x y a b l out Hx _ IH|T G S p xs a1 b1 a2 b2 a3 b3 l out Hx _ IH|T G S p xs a2 b2 a3 b3 l out Hx _ IH|T G S p xs a1 b1 a3 b3 l out Hx _ IH
    |T G S p l out _ IH|T G S p xs a b c d l out Hx _ IH|T G S p k l out Hk Hp _ IH|T G S p k l out Hk Hp _ IH|T G S p k l out Hk Hp _ IH|T G S p l out Hp _ IH|T G S p l out _ IH
    |T G S p n st l out Hn Hm _ IH|T G S p n l out Hn _ IH|T G S p d raw w h l out Hw Hh Hm _ IH]; intros s items s' A R.
  - cbn [Interp_Model.run] in R. injection R as <- <-. constructor.
  - apply run_cons in R as (s1 & i1 & i2 & E1 & E2 & E3 & ->). destruct (step_kept s o s1 Ho E1) as (U1 & U2 & U3 & U4 & U5 & (U6 & U7 & U8) & extra & U9 & U10).
    rewrite (h_d _ _ _ _ _ A) in U9. cbn [app] in U9. rewrite U9 in E2. rewrite shape_items_app, (gflat_no_shape _ _ _ U10 E2). cbn [app]. eapply IH; [|exact E3].
    destruct A as [A1 A2 A3 A4 A5 A6 A7 A8]. constructor; unfold device_spaces; cbn [s_ctm s_g s_gstack s_path s_done s_cs s_xobjs with_done]; rewrite ?U1, ?U2, ?U3, ?U4, ?U5, ?U6, ?U7, ?U8; try assumption. reflexivity.
  - destruct (forall2_nums _ _ Hx) as (N1 & N2 & N3). quiet R A "cm"%string 6%nat o_cm xs.
    cbn [Interp_Model.exec] in E1. unfold with_num in E1. rewrite N1 in E1. injection E1 as <-. eapply IH; [|exact (E2 (h_d _ _ _ _ _ A))].
    destruct A as [A1 A2 A3 A4 A5 A6 A7 A8]. constructor; try assumption. apply trans_cm. exact A1.
  - quiet R A "q"%string 0%nat o_q (@nil obj). injection E1 as <-. eapply IH; [|exact (E2 (h_d _ _ _ _ _ A))].
    destruct A as [A1 A2 A3 A4 A5 A6 A7 A8]. constructor; try assumption. cbn [s_gstack with_gstack]. rewrite rev_app_distr. cbn [rev app]. constructor; assumption.
  - quiet R A "Q"%string 0%nat o_Q (@nil obj). destruct A as [A1 A2 A3 A4 A5 A6 A7 A8]. cbn [Interp_Model.exec] in E1.
    destruct (rev (s_gstack s)) as [|[[m t] g] st] eqn:Eg; [inversion A3|]. inversion A3 as [|? ? ? ? S1 S3]; subst. injection E1 as <-. eapply IH; [|exact (E2 A5)]. constructor; try assumption.
    cbn [s_gstack with_gstack with_ctm with_text]. rewrite rev_involutive. exact S3.
  - quiet R A "w"%string 1%nat o_w [x]. injection E1 as <-. eapply IH; [|exact (E2 (h_d _ _ _ _ _ A))]. destruct A as [A1 (G1 & G2 & G3) A3 A4 A5 A6 A7 A8]. constructor; try assumption. unfold drawn_with. splits; set_pen.
  - quiet R A "G"%string 1%nat o_G [x]. cbn [Interp_Model.exec] in E1. unfold device in E1. rewrite (h_cs _ _ _ _ _ A "DeviceGray"%string 1 ltac:(left; reflexivity)) in E1. injection E1 as <-.
    eapply IH; [|exact (E2 (h_d _ _ _ _ _ A))]. destruct A as [A1 (G1 & G2 & G3) A3 A4 A5 A6 A7 A8]. constructor; try assumption. unfold drawn_with. splits; set_pen.
  - quiet R A "g"%string 1%nat o_g [x]. cbn [Interp_Model.exec] in E1. unfold device in E1. rewrite (h_cs _ _ _ _ _ A "DeviceGray"%string 1 ltac:(left; reflexivity)) in E1. injection E1 as <-.
    eapply IH; [|exact (E2 (h_d _ _ _ _ _ A))]. destruct A as [A1 (G1 & G2 & G3) A3 A4 A5 A6 A7 A8]. constructor; try assumption. unfold drawn_with. splits; set_pen.
  - destruct (forall2_nums _ _ Hx) as (N1 & N2 & N3). quiet R A "RG"%string 3%nat o_RG [x; y; z]. cbn [Interp_Model.exec] in E1. rewrite N1 in E1. unfold device in E1.
    rewrite (h_cs _ _ _ _ _ A "DeviceRGB"%string 3 ltac:(right; left; reflexivity)) in E1. injection E1 as <-.
    eapply IH; [|exact (E2 (h_d _ _ _ _ _ A))]. destruct A as [A1 (G1 & G2 & G3) A3 A4 A5 A6 A7 A8]. constructor; try assumption. unfold drawn_with. splits; set_pen.
  - destruct (forall2_nums _ _ Hx) as (N1 & N2 & N3). quiet R A "rg"%string 3%nat o_rg [x; y; z]. cbn [Interp_Model.exec] in E1. rewrite N1 in E1. unfold device in E1.
    rewrite (h_cs _ _ _ _ _ A "DeviceRGB"%string 3 ltac:(right; left; reflexivity)) in E1. injection E1 as <-.
    eapply IH; [|exact (E2 (h_d _ _ _ _ _ A))]. destruct A as [A1 (G1 & G2 & G3) A3 A4 A5 A6 A7 A8]. constructor; try assumption. unfold drawn_with. splits; set_pen.
  - quiet R A "K"%string 4%nat o_K [c; m; y; k]. cbn [Interp_Model.exec] in E1. unfold device in E1. rewrite (h_cs _ _ _ _ _ A "DeviceCMYK"%string 4 ltac:(right; right; left; reflexivity)) in E1. injection E1 as <-.
    eapply IH; [|exact (E2 (h_d _ _ _ _ _ A))]. destruct A as [A1 (G1 & G2 & G3) A3 A4 A5 A6 A7 A8]. constructor; try assumption. unfold drawn_with. splits; set_pen.
  - destruct (forall2_nums _ _ Hx) as (N1 & N2 & N3). quiet R A "m"%string 2%nat o_m [x; y]. path N1. build A E2 IH.
  - destruct (forall2_nums _ _ Hx) as (N1 & N2 & N3). quiet R A "l"%string 2%nat o_l [x; y]. path N1. build A E2 IH.
  - destruct (forall2_nums _ _ Hx) as (N1 & N2 & N3). quiet R A "c"%string 6%nat o_c xs. path N1. build A E2 IH.
  - destruct (forall2_nums _ _ Hx) as (N1 & N2 & N3). quiet R A "v"%string 4%nat o_v xs. path N1. build A E2 IH.
  - destruct (forall2_nums _ _ Hx) as (N1 & N2 & N3). quiet R A "y"%string 4%nat o_y xs. path N1. build A E2 IH.
  - quiet R A "h"%string 0%nat o_h (@nil obj). injection E1 as <-. build A E2 IH.
  - destruct (forall2_nums _ _ Hx) as (N1 & N2 & N3). quiet R A "re"%string 4%nat o_re xs. path N1. build A E2 IH.
  - assert (C : command (bs k) = Some o_paint) by (cbn in Hk; decompose [or] Hk; subst; try contradiction; reflexivity).
    draw A C Hp IH R.
  - assert (C : command (bs k) = Some o_paint_eo) by (cbn in Hk; decompose [or] Hk; subst; try contradiction; reflexivity).
    draw A C Hp IH R.
  - assert (C : command (bs k) = Some o_close_paint) by (cbn in Hk; decompose [or] Hk; subst; try contradiction; reflexivity).
    draw A C Hp IH R.
  - assert (C : command (bs "b*") = Some o_close_paint_eo) by reflexivity. draw A C Hp IH R.
  - quiet R A "n"%string 0%nat o_n (@nil obj). injection E1 as <-. build A E2 IH.
  - assert (X : item_Do getobj depth (s_xobjs s) (s_ctm s) (s_resources s) (OName n) = Ok (Some (PItem (make_image st (s_ctm s))))).
    { destruct (item_Do getobj depth (s_xobjs s) (s_ctm s) (s_resources s) (OName n)) as [r|e] eqn:X; [f_equal; exact (h_x _ _ _ _ _ A n st Hn _ _ _ X)|]. exfalso.
      rewrite (run_push getobj depth mkfont nested [OName n] ltac:(kws') s _ (h_d _ _ _ _ _ A)) in R. apply run_cons in R as (s1 & i1 & i2 & E1 & _).
      rewrite (step_op getobj depth "Do" 1 o_Do s (s_args s) [OName n] eq_refl eq_refl eq_refl) in E1. replace (with_args s (s_args s)) with s in E1 by (destruct s; reflexivity).
      cbn [Interp_Model.exec] in E1. rewrite X in E1. discriminate. }
    eapply (run_drawn "Do" 1 o_Do s [OName n]) with (p := make_image st (s_ctm s)) in R as (i2 & -> & R); try reflexivity; [|kws'|exact (h_d _ _ _ _ _ A)|cbn [Interp_Model.exec]; rewrite X; reflexivity|cbn; rewrite (h_d _ _ _ _ _ A); reflexivity].
    change (shape_items (make_image st (s_ctm s) :: i2)) with (make_image st (s_ctm s) :: shape_items i2). constructor; [apply image_item; [exact (h_T _ _ _ _ _ A)|exact Hm]|].
    eapply IH; [|exact R]. destruct A as [A1 A2 A3 A4 A5 A6 A7 A8]. constructor; try assumption. reflexivity.
  - rewrite (run_push getobj depth mkfont nested [OName n] ltac:(kws') s _ (h_d _ _ _ _ _ A)) in R. apply run_cons in R as (s1 & i1 & i2 & E1 & E2 & E3 & ->).
    rewrite (step_op getobj depth "Do" 1 o_Do s (s_args s) [OName n] eq_refl eq_refl eq_refl) in E1. replace (with_args s (s_args s)) with s in E1 by (destruct s; reflexivity).
    cbn [Interp_Model.exec] in E1. pose proof (h_o _ _ _ _ _ A n Hn (s_ctm s) (s_resources s)) as X. unfold add_item in E1.
    destruct (item_Do getobj depth (s_xobjs s) (s_ctm s) (s_resources s) (OName n)) as [[q|]|e]; [| |discriminate]; injection E1 as <-.
    + cbn [s_done with_done s_g] in E2. rewrite (h_d _ _ _ _ _ A) in E2. cbn [app] in E2. assert (Y : Forall not_shape [q]) by (constructor; [apply X; reflexivity|constructor]).
      rewrite shape_items_app, (gflat_no_shape _ _ _ Y E2). cbn [app]. eapply IH; [|exact E3]. destruct A as [A1 A2 A3 A4 A5 A6 A7 A8]. constructor; try assumption. reflexivity.
    + rewrite (h_d _ _ _ _ _ A) in E2. injection E2 as <-. cbn [app]. eapply IH; [|exact E3]. destruct A as [A1 A2 A3 A4 A5 A6 A7 A8]. constructor; try assumption. reflexivity.
  - eapply (run_drawn "EI" 1 o_EI s [OStream d raw]) with (p := make_image (OStream d raw) (s_ctm s)) in R as (i2 & -> & R); try reflexivity; [|kws'|exact (h_d _ _ _ _ _ A)|cbn [Interp_Model.exec item_EI]; rewrite Hw, Hh; reflexivity|cbn; rewrite (h_d _ _ _ _ _ A); reflexivity].
    change (shape_items (make_image (OStream d raw) (s_ctm s) :: i2)) with (make_image (OStream d raw) (s_ctm s) :: shape_items i2). constructor; [apply image_item; [exact (h_T _ _ _ _ _ A)|exact Hm]|].
    eapply IH; [|exact R]. destruct A as [A1 A2 A3 A4 A5 A6 A7 A8]. constructor; try assumption. reflexivity.
Qed.
End main.
End props.
