(* Numbers of page geometry.  Python's int and float operands are modelled as exact rationals with Leibniz equality
   (Qc): the rounding of floating-point arithmetic is not modelled. *)
From Coq Require Import QArith Qround Qcanon Lqa ZArith Lia Bool.
Open Scope Qc_scope.

Notation num := Qc.
Definition qz (z : Z) : num := Q2Qc (inject_Z z).
Definition qle (a b : num) : bool := Qle_bool (this a) (this b).
Definition qlt (a b : num) : bool := negb (qle b a).
Definition qeqb (a b : num) : bool := Qeq_bool (this a) (this b).
(* Python's min(a, b) and max(a, b) *)
Definition qmin (a b : num) : num := if qlt b a then b else a.
Definition qmax (a b : num) : num := if qlt a b then b else a.
(* int(v): towards zero *)
Definition qtrunc (v : num) : Z := if qle (qz 0) v then Qfloor (this v) else (- Qfloor (- this v)%Q)%Z.

Lemma qle_iff a b : qle a b = true <-> a <= b.
Proof. unfold qle, Qcle. apply Qle_bool_iff. Qed.
Lemma qle_false a b : qle a b = false <-> b < a.
Proof.
  unfold qle, Qclt. split; intros H.
  - apply Qnot_le_lt. intros X. apply Qle_bool_iff in X. congruence.
  - destruct (Qle_bool (this a) (this b)) eqn:E; [|reflexivity]. apply Qle_bool_iff in E. exfalso. exact (Qlt_not_le _ _ H E).
Qed.
Lemma qlt_iff a b : qlt a b = true <-> a < b.
Proof. unfold qlt. rewrite negb_true_iff. apply qle_false. Qed.
Lemma qlt_false a b : qlt a b = false <-> b <= a.
Proof. unfold qlt. rewrite negb_false_iff. apply qle_iff. Qed.
Lemma qeqb_iff a b : qeqb a b = true <-> a = b.
Proof. unfold qeqb. rewrite Qeq_bool_iff. split; [apply Qc_is_canon|intros ->; reflexivity]. Qed.

Lemma this_add (a b : num) : (this (a + b) == this a + this b)%Q.
Proof. exact (Qred_correct _). Qed.
Lemma this_opp (a : num) : (this (- a) == - this a)%Q.
Proof. exact (Qred_correct _). Qed.
Lemma this_sub (a b : num) : (this (a - b) == this a - this b)%Q.
Proof. unfold Qcminus. rewrite this_add, this_opp. reflexivity. Qed.
Lemma this_mul (a b : num) : (this (a * b) == this a * this b)%Q.
Proof. exact (Qred_correct _). Qed.
Lemma this_qz z : (this (qz z) == inject_Z z)%Q.
Proof. exact (Qred_correct _). Qed.
Lemma qz_add a b : qz (a + b) = qz a + qz b.
Proof. apply Qc_is_canon. rewrite this_add, !this_qz. rewrite inject_Z_plus. reflexivity. Qed.
Lemma qz_mul a b : qz (a * b) = qz a * qz b.
Proof. apply Qc_is_canon. rewrite this_mul, !this_qz. rewrite inject_Z_mult. reflexivity. Qed.
Lemma qz_opp a : qz (- a) = - qz a.
Proof. apply Qc_is_canon. rewrite this_opp, !this_qz. rewrite inject_Z_opp. reflexivity. Qed.
Lemma qz_inj a b : qz a = qz b -> a = b.
Proof. intros H. assert (E : (inject_Z a == inject_Z b)%Q) by (rewrite <- !this_qz, H; reflexivity). unfold Qeq in E. cbn in E. lia. Qed.
Lemma qz_le a b : qz a <= qz b <-> (a <= b)%Z.
Proof. unfold Qcle. rewrite !this_qz. unfold Qle. cbn. lia. Qed.
Lemma qz_lt a b : qz a < qz b <-> (a < b)%Z.
Proof. unfold Qclt. rewrite !this_qz. unfold Qlt. cbn. lia. Qed.

(* linear arithmetic *)
Ltac qc_hyp H :=
  unfold Qcle, Qclt in H; repeat first [rewrite this_add in H | rewrite this_sub in H | rewrite this_opp in H | rewrite this_qz in H].
Ltac qc_lra :=
  repeat match goal with
  | H : ~ (_ <= _)%Qc |- _ => apply Qcnot_le_lt in H
  | H : ~ (_ < _)%Qc |- _ => apply Qcnot_lt_le in H
  | H : @eq Qc _ _ |- _ => apply (f_equal this) in H; apply Qeq_bool_eq in H || idtac
  end;
  unfold Qcle, Qclt in *;
  repeat match goal with
  | |- context [this (_ + _)] => rewrite this_add
  | |- context [this (_ - _)] => rewrite this_sub
  | |- context [this (- _)] => rewrite this_opp
  | |- context [this (qz _)] => rewrite this_qz
  | H : context [this (_ + _)] |- _ => rewrite this_add in H
  | H : context [this (_ - _)] |- _ => rewrite this_sub in H
  | H : context [this (- _)] |- _ => rewrite this_opp in H
  | H : context [this (qz _)] |- _ => rewrite this_qz in H
  end; unfold inject_Z in *; lra.
Lemma qc_le_antisym (a b : num) : a <= b -> b <= a -> a = b.
Proof. apply Qcle_antisym. Qed.

Lemma qmin_l a b : qmin a b <= a.
Proof. unfold qmin. destruct (qlt b a) eqn:E; [apply qlt_iff in E; qc_lra|apply Qcle_refl]. Qed.
Lemma qmin_r a b : qmin a b <= b.
Proof. unfold qmin. destruct (qlt b a) eqn:E; [apply Qcle_refl|apply qlt_false in E; exact E]. Qed.
Lemma qmin_glb a b c : c <= a -> c <= b -> c <= qmin a b.
Proof. unfold qmin. destruct (qlt b a); auto. Qed.
Lemma qmax_l a b : a <= qmax a b.
Proof. unfold qmax. destruct (qlt a b) eqn:E; [apply qlt_iff in E; qc_lra|apply Qcle_refl]. Qed.
Lemma qmax_r a b : b <= qmax a b.
Proof. unfold qmax. destruct (qlt a b) eqn:E; [apply Qcle_refl|apply qlt_false in E; exact E]. Qed.
Lemma qmax_lub a b c : a <= c -> b <= c -> qmax a b <= c.
Proof. unfold qmax. destruct (qlt a b); auto. Qed.
Lemma qmin_cases a b : qmin a b = a \/ qmin a b = b.
Proof. unfold qmin. destruct (qlt b a); auto. Qed.
Lemma qmax_cases a b : qmax a b = a \/ qmax a b = b.
Proof. unfold qmax. destruct (qlt a b); auto. Qed.

(* int(v) *)
Lemma qtrunc_bounds (v : num) : (v < qz 0 -> (this v <= inject_Z (qtrunc v))%Q /\ (inject_Z (qtrunc v) < this v + 1)%Q) /\
  (qz 0 <= v -> (inject_Z (qtrunc v) <= this v)%Q /\ (this v < inject_Z (qtrunc v) + 1)%Q).
Proof.
  unfold qtrunc. split; intros H.
  - apply qle_false in H. rewrite H. rewrite inject_Z_opp. pose proof (Qfloor_le (- this v)). pose proof (Qlt_floor (- this v)) as K.
    rewrite inject_Z_plus in K. change (inject_Z 1) with 1%Q in K. split; lra.
  - apply qle_iff in H. rewrite H. pose proof (Qfloor_le (this v)). pose proof (Qlt_floor (this v)) as K.
    rewrite inject_Z_plus in K. change (inject_Z 1) with 1%Q in K. split; lra.
Qed.
Lemma qtrunc_mono_all (u v : num) : u <= v -> (qtrunc u <= qtrunc v)%Z.
Proof.
  intros H. destruct (qtrunc_bounds u) as [U1 U2], (qtrunc_bounds v) as [V1 V2].
  assert (Z1 : forall a b, (inject_Z a < inject_Z b + 1)%Q -> (a <= b)%Z).
  { intros a b X. change 1%Q with (inject_Z 1) in X. rewrite <- inject_Z_plus, <- Zlt_Qlt in X. lia. }
  unfold Qcle in H.
  destruct (Qclt_le_dec u (qz 0)) as [Hu|Hu], (Qclt_le_dec v (qz 0)) as [Hv|Hv].
  - destruct (U1 Hu), (V1 Hv). apply Z1. lra.
  - destruct (U1 Hu), (V2 Hv). unfold Qclt in Hu. unfold Qcle in Hv. rewrite this_qz in *. change (inject_Z 0) with 0%Q in *.
    assert (qtrunc u <= 0)%Z. { apply Z1. change (inject_Z 0) with 0%Q. lra. }
    assert (0 <= qtrunc v)%Z. { apply Z1. change (inject_Z 0) with 0%Q. lra. }
    lia.
  - exfalso. unfold Qclt in Hv. unfold Qcle in Hu. lra.
  - destruct (U2 Hu), (V2 Hv). apply Z1. lra.
Qed.
(* int(v) of non-negative numbers *)
Lemma qtrunc_pos v : qz 0 <= v -> qtrunc v = Qfloor (this v).
Proof. intros H. unfold qtrunc. apply qle_iff in H. rewrite H. reflexivity. Qed.
Lemma qtrunc_mono u v : qz 0 <= u -> u <= v -> (qtrunc u <= qtrunc v)%Z.
Proof. intros H1 H2. rewrite !qtrunc_pos by (try assumption; eapply Qcle_trans; eassumption). apply Qfloor_resp_le. exact H2. Qed.
Lemma qtrunc_add v z : qz 0 <= v -> (0 <= z)%Z -> qtrunc (v + qz z) = (qtrunc v + z)%Z.
Proof.
  intros H Hz. assert (H2 : qz 0 <= v + qz z) by (apply (Qcle_trans _ (qz 0 + qz 0)); [rewrite <- qz_add; apply Qcle_refl|apply Qcplus_le_compat; [assumption|apply qz_le; assumption]]).
  rewrite !qtrunc_pos by assumption. rewrite (Qfloor_comp _ (this v + inject_Z z)%Q) by (rewrite this_add, this_qz; reflexivity).
  symmetry. apply Z.le_antisymm.
  - assert (K : (inject_Z (Qfloor (this v) + z) <= this v + inject_Z z)%Q).
    { rewrite inject_Z_plus. apply Qplus_le_compat; [apply Qfloor_le|apply Qle_refl]. }
    apply Qfloor_resp_le in K. rewrite Qfloor_Z in K. exact K.
  - assert (K : (this v + inject_Z z < inject_Z (Qfloor (this v) + z + 1))%Q).
    { pose proof (Qlt_floor (this v)) as L. rewrite !inject_Z_plus in *. lra. }
    pose proof (Qfloor_le (this v + inject_Z z)) as M. assert (N : (inject_Z (Qfloor (this v + inject_Z z)) < inject_Z (Qfloor (this v) + z + 1))%Q) by lra.
    rewrite <- Zlt_Qlt in N. lia.
Qed.
