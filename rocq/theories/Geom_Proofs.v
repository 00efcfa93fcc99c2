From Coq Require Import QArith Lqa.
From Verif Require Import Base Num Geom_Model Geom_Spec.
From Coq Require Import Qcanon ZifyBool ZifyNat.
Open Scope Z_scope.

(* ---------- ranges ---------- *)
Lemma zrange_in a b k : In k (zrange a b) <-> a <= k < b.
Proof.
  unfold zrange. rewrite in_map_iff. split.
  - intros (j & <- & Hj). apply in_seq in Hj. lia.
  - intros H. exists (Z.to_nat (k - a)). split; [lia|]. apply in_seq. lia.
Qed.
Lemma zrange_nodup a b : NoDup (zrange a b).
Proof.
  unfold zrange. assert (G : forall l, NoDup l -> NoDup (map (fun k => a + Z.of_nat k) l)).
  { induction 1 as [|x l Hx H IH]; cbn; constructor; [|assumption]. intros Hin. apply in_map_iff in Hin as (y & E & Hy).
    assert (y = x) by lia. subst. contradiction. }
  apply G. apply seq_NoDup.
Qed.
(* an edge that int() does not move across 0 *)
Definition fine (v : num) : Prop := (v <= qz (-1))%Qc \/ (qz 0 <= v)%Qc.
Lemma qtrunc_step m w d : 0 < d -> (m < w)%Qc -> fine w -> qtrunc m / d < qtrunc (w + qz d)%Qc / d.
Proof.
  intros Hd Hm Hf. pose proof (qtrunc_mono_all m w (Qclt_le_weak _ _ Hm)) as T.
  assert (G : forall t, qtrunc m / d <= t / d -> qtrunc m / d < (t + d) / d).
  { intros t X. assert (E : (t + d) / d = t / d + 1) by (rewrite <- (Z.mul_1_l d) at 1; apply Z.div_add; lia). lia. }
  destruct Hf as [Hf|Hf].
  - destruct (qtrunc_bounds w) as [W1 _]. destruct W1 as [W1 W2]; [qc_lra|].
    assert (Tw : qtrunc w <= -1).
    { unfold Qcle in Hf. rewrite this_qz in Hf. assert (X : (inject_Z (qtrunc w) < inject_Z 0)%Q) by (change (inject_Z (-1)) with (-1)%Q in Hf; change (inject_Z 0) with 0%Q; lra).
      rewrite <- Zlt_Qlt in X. lia. }
    destruct (qtrunc_bounds (w + qz d)%Qc) as [V1 V2]. rewrite this_add, this_qz in V1, V2.
    destruct (Qclt_le_dec (w + qz d)%Qc (qz 0)) as [Hs|Hs].
    + destruct (V1 Hs) as [A B]. assert (E : qtrunc (w + qz d)%Qc = qtrunc w + d).
      { assert (X1 : (inject_Z (qtrunc (w + qz d)%Qc) < inject_Z (qtrunc w + d + 1))%Q) by (rewrite !inject_Z_plus; change (inject_Z 1) with 1%Q; lra).
        assert (X2 : (inject_Z (qtrunc w + d) < inject_Z (qtrunc (w + qz d)%Qc + 1))%Q) by (rewrite !inject_Z_plus; change (inject_Z 1) with 1%Q; lra).
        rewrite <- Zlt_Qlt in X1, X2. lia. }
      rewrite E. apply G, Z.div_le_mono; assumption.
    + assert (L : qtrunc m / d <= -1).
      { assert (qtrunc m / d < 0); [apply Z.div_lt_upper_bound; lia|lia]. }
      assert (0 <= qtrunc (w + qz d)%Qc / d); [|lia]. apply Z.div_pos; [|assumption].
      destruct (V2 Hs) as [A B]. unfold Qcle in Hs. rewrite this_add, !this_qz in Hs. change (inject_Z 0) with 0%Q in Hs.
      assert (X : (inject_Z (-1) < inject_Z (qtrunc (w + qz d)%Qc))%Q) by (change (inject_Z (-1)) with (-1)%Q; lra). rewrite <- Zlt_Qlt in X. lia.
  - rewrite (qtrunc_add w d) by (first [assumption|lia]). apply G, Z.div_le_mono; assumption.
Qed.
Lemma drange_common u0 u1 v0 v1 d lu lv : 0 < d -> fine u1 -> fine v1 ->
  (u0 < v1)%Qc -> (v0 < u1)%Qc -> drange u0 u1 d = Ok lu -> drange v0 v1 d = Ok lv -> exists k, In k lu /\ In k lv.
Proof.
  intros Hd Hu Hv H1 H2. unfold drange. destruct (qlt u0 u1) eqn:Eu; [|discriminate]. destruct (qlt v0 v1) eqn:Ev; [|discriminate].
  apply qlt_iff in Eu, Ev. intros E1 E2. injection E1 as <-. injection E2 as <-.
  assert (HM : exists m, (u0 <= m)%Qc /\ (v0 <= m)%Qc /\ (m < u1)%Qc /\ (m < v1)%Qc).
  { exists (qmax u0 v0). repeat split; [apply qmax_l|apply qmax_r| |]; destruct (qmax_cases u0 v0) as [-> | ->]; assumption. }
  destruct HM as (m & Hm1 & Hm2 & Hm3 & Hm4). exists (qtrunc m / d).
  assert (K : forall w0 w1, fine w1 -> (w0 <= m)%Qc -> (m < w1)%Qc -> In (qtrunc m / d) (zrange (qtrunc w0 / d) (qtrunc (w1 + qz d)%Qc / d))).
  { intros w0 w1 Hw A B. apply zrange_in. split.
    - apply Z.div_le_mono; [assumption|]. apply qtrunc_mono_all; assumption.
    - apply qtrunc_step; assumption. }
  split; apply K; assumption.
Qed.

(* ---------- the grid ---------- *)
Lemma key_eq_iff a b : key_eq a b = true <-> a = b.
Proof. destruct a, b. unfold key_eq. cbn. split; [intros H; f_equal; lia|intros H; injection H as -> ->; lia]. Qed.
Definition cell (g : list ((Z * Z) * list Z)) (k : Z * Z) : list Z := match gget g k with Some l => l | None => [] end.
Lemma gget_gset g k l k' : gget (gset g k l) k' = if key_eq k k' then Some l else gget g k'.
Proof.
  induction g as [|[k0 l0] g IH]; cbn [gset gget].
  - destruct (key_eq k k'); reflexivity.
  - destruct (key_eq k0 k) eqn:E; cbn [gget].
    + apply key_eq_iff in E. subst k0. destruct (key_eq k k'); reflexivity.
    + rewrite IH. destruct (key_eq k0 k') eqn:E2; [|reflexivity]. apply key_eq_iff in E2. subst k0.
      destruct (key_eq k k') eqn:E3; [|reflexivity]. apply key_eq_iff in E3. subst. rewrite (proj2 (key_eq_iff k' k') eq_refl) in E. discriminate.
Qed.
Lemma cell_gset g k l k' : cell (gset g k l) k' = if key_eq k k' then l else cell g k'.
Proof. unfold cell. rewrite gget_gset. destruct (key_eq k k'); reflexivity. Qed.

Notation cnt := (count_occ Z.eq_dec).
Lemma grid_add_count o x k ks : NoDup ks -> forall g, cnt (cell (grid_add g ks o) k) x =
  (cnt (cell g k) x + (if (o =? x)%Z && existsb (key_eq k) ks then 1 else 0))%nat.
Proof.
  induction 1 as [|k0 ks Hk Hks IH]; intros g; cbn [grid_add fold_left existsb].
  - rewrite andb_false_r. lia.
  - fold (grid_add (match gget g k0 with None => gset g k0 [o] | Some l => gset g k0 (l ++ [o]) end) ks o). rewrite IH.
    assert (E : cell (match gget g k0 with None => gset g k0 [o] | Some l => gset g k0 (l ++ [o]) end) k = if key_eq k0 k then cell g k ++ [o] else cell g k).
    { destruct (key_eq k0 k) eqn:Ek; [apply key_eq_iff in Ek; subst k0|].
      - destruct (gget g k) eqn:Eg; rewrite cell_gset, (proj2 (key_eq_iff k k) eq_refl); unfold cell; rewrite Eg; reflexivity.
      - destruct (gget g k0); rewrite cell_gset, Ek; reflexivity. }
    rewrite E. destruct (key_eq k0 k) eqn:Ek.
    + apply key_eq_iff in Ek. subst k0. rewrite (proj2 (key_eq_iff k k) eq_refl). cbn [orb].
      assert (Hn : existsb (key_eq k) ks = false).
      { destruct (existsb (key_eq k) ks) eqn:Ex; [|reflexivity]. apply existsb_exists in Ex as (y & Hy & Ey). apply key_eq_iff in Ey. subst. contradiction. }
      rewrite Hn, andb_false_r, andb_true_r, count_occ_app. cbn [count_occ]. destruct (Z.eq_dec o x), (o =? x) eqn:Eo; lia.
    + assert (key_eq k k0 = false) as -> by (destruct (key_eq k k0) eqn:X; [apply key_eq_iff in X; subst; rewrite (proj2 (key_eq_iff k0 k0) eq_refl) in Ek; discriminate|reflexivity]).
      reflexivity.
Qed.
Lemma remove1_count l o x : cnt (remove1 l o) x = if o =? x then Nat.pred (cnt l x) else cnt l x.
Proof.
  induction l as [|y l IH]; cbn [remove1 count_occ]; [destruct (o =? x); reflexivity|].
  destruct (y =? o) eqn:E.
  - destruct (Z.eq_dec y x), (o =? x) eqn:E2; lia.
  - cbn [count_occ]. rewrite IH. destruct (Z.eq_dec y x), (o =? x) eqn:E2; lia.
Qed.
Lemma grid_remove_count o x k ks : NoDup ks -> forall g, cnt (cell (grid_remove g ks o) k) x =
  if (o =? x) && existsb (key_eq k) ks then Nat.pred (cnt (cell g k) x) else cnt (cell g k) x.
Proof.
  induction 1 as [|k0 ks Hk Hks IH]; intros g; cbn [grid_remove fold_left existsb].
  - rewrite andb_false_r. reflexivity.
  - fold (grid_remove (match gget g k0 with None => g | Some l => gset g k0 (remove1 l o) end) ks o). rewrite IH.
    assert (E : cell (match gget g k0 with None => g | Some l => gset g k0 (remove1 l o) end) k = if key_eq k0 k then remove1 (cell g k) o else cell g k).
    { destruct (key_eq k0 k) eqn:Ek; [apply key_eq_iff in Ek; subst k0|].
      - destruct (gget g k) eqn:Eg; [rewrite cell_gset, (proj2 (key_eq_iff k k) eq_refl)|]; unfold cell; rewrite Eg; reflexivity.
      - destruct (gget g k0); [rewrite cell_gset, Ek|]; reflexivity. }
    rewrite E. destruct (key_eq k0 k) eqn:Ek.
    + apply key_eq_iff in Ek. subst k0. rewrite (proj2 (key_eq_iff k k) eq_refl). cbn [orb].
      assert (Hn : existsb (key_eq k) ks = false).
      { destruct (existsb (key_eq k) ks) eqn:Ex; [|reflexivity]. apply existsb_exists in Ex as (y & Hy & Ey). apply key_eq_iff in Ey. subst. contradiction. }
      rewrite Hn, andb_false_r, andb_true_r, remove1_count. reflexivity.
    + assert (key_eq k k0 = false) as -> by (destruct (key_eq k k0) eqn:X; [apply key_eq_iff in X; subst; rewrite (proj2 (key_eq_iff k0 k0) eq_refl) in Ek; discriminate|reflexivity]).
      reflexivity.
Qed.

(* ---------- find ---------- *)
Section plane.
  Context (box : Z -> bbox) (pb : bbox) (d : Z).
  Lemma mem_iff o l : existsb (Z.eqb o) l = true <-> In o l.
  Proof. rewrite existsb_exists. split; [intros (x & H & E); apply Z.eqb_eq in E; subst; assumption|intros H; exists o; split; [assumption|apply Z.eqb_refl]]. Qed.
  Lemma mem_false o l : existsb (Z.eqb o) l = false <-> ~ In o l.
  Proof. rewrite <- mem_iff. destruct (existsb (Z.eqb o) l); split; congruence. Qed.

  Lemma find_cell_spec q l : forall done, let '(f, done') := find_cell box q done l in
    (forall o, In o done' <-> In o done \/ In o l) /\ NoDup f /\
    (forall o, In o f <-> In o l /\ ~ In o done /\ disjointb (box o) q = false).
  Proof.
    induction l as [|o l IH]; intros done; cbn [find_cell].
    - split; [cbn; tauto|]. split; [constructor|]. cbn. tauto.
    - destruct (existsb (Z.eqb o) done) eqn:E.
      + apply mem_iff in E. specialize (IH done). destruct (find_cell box q done l) as [f done']. destruct IH as (A & B & C).
        split; [intros x; rewrite A; cbn; intuition (subst; tauto)|]. split; [assumption|].
        intros x. rewrite C. cbn. intuition (subst; tauto).
      + apply mem_false in E. specialize (IH (o :: done)). destruct (find_cell box q (o :: done) l) as [f done']. destruct IH as (A & B & C).
        split; [intros x; rewrite A; cbn; tauto|]. destruct (disjointb (box o) q) eqn:Ed.
        * split; [assumption|]. intros x. rewrite C. cbn. split; [tauto|]. intros ([<-|H] & H2 & H3); [congruence|].
          split; [assumption|]. split; [|assumption]. intros [<-|H4]; [congruence|contradiction].
        * split; [constructor; [rewrite C; cbn; tauto|assumption]|]. intros x. cbn [In]. rewrite C. cbn [In]. split.
          -- intros [<-|(H1 & H2 & H3)]; [tauto|]. tauto.
          -- intros ([<-|H] & H2 & H3); [left; reflexivity|]. destruct (Z.eq_dec o x) as [->|Hn]; [left; reflexivity|right; tauto].
  Qed.
  Lemma find_cells_spec g q ks : forall done, NoDup (find_cells box g q done ks) /\
    forall o, In o (find_cells box g q done ks) <-> (exists k, In k ks /\ In o (cell g k)) /\ ~ In o done /\ disjointb (box o) q = false.
  Proof.
    induction ks as [|k ks IH]; intros done; cbn [find_cells].
    - split; [constructor|]. intros o. cbn. split; [contradiction|intros ((k & [] & _) & _)].
    - destruct (gget g k) as [l|] eqn:Eg.
      + pose proof (find_cell_spec q l done) as H. destruct (find_cell box q done l) as [f done']. destruct H as (A & B & C).
        destruct (IH done') as [N I]. split.
        * clear IH. induction f as [|x f IHf]; [exact N|]. inversion B as [|? ? B1 B2]; subst. cbn [app]. constructor.
          -- rewrite in_app_iff. intros [H|H]; [contradiction|]. apply I in H as (_ & H & _). apply H, A. right. apply (C x). left. reflexivity.
          -- revert IHf. clear -I A C B2 N B1 B. intros _.
             assert (G : forall f', (forall y, In y f' -> In y f) -> NoDup f' -> NoDup (f' ++ find_cells box g q done' ks)).
             { induction f' as [|y f' IH']; intros Hs Hn; [exact N|]. inversion Hn as [|? ? Y1 Y2]; subst. cbn [app]. constructor.
               - rewrite in_app_iff. intros [H|H]; [contradiction|]. apply I in H as (_ & H & _). apply H, A. right. apply (C y). right. apply Hs. left. reflexivity.
               - apply IH'; [intros z Hz; apply Hs; right; assumption|assumption]. }
             apply G; [auto|assumption].
        * intros o. rewrite in_app_iff, C, I. split.
          -- intros [(H1 & H2 & H3)|((k' & H1 & H2) & H3 & H4)].
             ++ split; [exists k; split; [left; reflexivity|unfold cell; rewrite Eg; assumption]|tauto].
             ++ split; [exists k'; split; [right; assumption|assumption]|]. split; [|assumption]. intros H. apply H3, A. left. assumption.
          -- intros ((k' & [<-|H1] & H2) & H3 & H4).
             ++ left. unfold cell in H2. rewrite Eg in H2. tauto.
             ++ destruct (in_dec Z.eq_dec o l) as [Hl|Hl]; [left; tauto|right]. split; [exists k'; tauto|]. split; [|assumption]. rewrite A. tauto.
      + destruct (IH done) as [N I]. split; [assumption|]. intros o. rewrite I. split.
        * intros ((k' & H1 & H2) & H3). split; [exists k'; split; [right; assumption|assumption]|assumption].
        * intros ((k' & [<-|H1] & H2) & H3); [unfold cell in H2; rewrite Eg in H2; destruct H2|]. split; [exists k'; tauto|assumption].
  Qed.

  (* ---------- _getrange ---------- *)
  Lemma getrange_nodup b ks : getrange pb d b = Ok ks -> NoDup ks.
  Proof.
    unfold getrange. destruct (_ || _); [intros H; injection H as <-; constructor|].
    destruct (drange (qmax (by0 pb) (by0 b)) _ d) as [ys|] eqn:Ey; cbn [bind]; [|discriminate]. destruct ys as [|y ys]; [intros H; injection H as <-; constructor|].
    destruct (drange (qmax (bx0 pb) (bx0 b)) _ d) as [xs|] eqn:Ex; cbn [bind]; [|discriminate]. intros H. apply (f_equal (fun r => match r with Ok l => l | Err _ => [] end)) in H. cbv iota in H. subst ks.
    assert (Nx : NoDup xs) by (unfold drange in Ex; destruct (qlt _ _); [injection Ex as <-; apply zrange_nodup|discriminate]).
    assert (Ny : NoDup (y :: ys)) by (unfold drange in Ey; destruct (qlt _ _); [injection Ey as <-; apply zrange_nodup|discriminate]).
    change (NoDup (flat_map (fun y => map (fun x => (x, y)) xs) (y :: ys))). clear -Nx Ny. set (l := y :: ys) in *. clearbody l. induction Ny as [|z l Hz Ny IH]; cbn [flat_map]; [constructor|].
    assert (G : forall a b : list (Z * Z), NoDup a -> NoDup b -> (forall p, In p a -> ~ In p b) -> NoDup (a ++ b)).
    { induction a as [|p a IHa]; intros bb Ha Hb Hd; [exact Hb|]. inversion Ha; subst. cbn. constructor.
      - rewrite in_app_iff. intros [H|H]; [contradiction|]. apply (Hd p); [left; reflexivity|assumption].
      - apply IHa; [assumption|assumption|intros p' Hp; apply Hd; right; assumption]. }
    apply G; [|exact IH|].
    - clear -Nx. induction Nx as [|x xs Hx Nx IH]; cbn; constructor; [|assumption]. rewrite in_map_iff. intros (x' & E & H). injection E as ->. contradiction.
    - intros p Hp Hq. apply in_map_iff in Hp as (x & <- & _). apply in_flat_map in Hq as (z' & Hz' & Hq). apply in_map_iff in Hq as (x' & E & _). injection E as _ ->. contradiction.
  Qed.
  Definition proper (b : bbox) : Prop := (bx0 b < bx1 b)%Qc /\ (by0 b < by1 b)%Qc.
  Definition inside (b : bbox) : Prop := (bx0 pb <= bx0 b)%Qc /\ (bx1 b <= bx1 pb)%Qc /\ (by0 pb <= by0 b)%Qc /\ (by1 b <= by1 pb)%Qc.
  Lemma getrange_ok b : proper b -> proper pb -> exists ks, getrange pb d b = Ok ks.
  Proof.
    intros [H1 H2] [H3 H4]. unfold getrange. destruct (_ || _) eqn:E; [eexists; reflexivity|].
    repeat (apply orb_false_iff in E as [E ?]). repeat match goal with H : qle _ _ = false |- _ => apply qle_false in H end.
    assert (Hx : (qmax (bx0 pb) (bx0 b) < qmin (bx1 pb) (bx1 b))%Qc) by (destruct (qmax_cases (bx0 pb) (bx0 b)) as [-> | ->], (qmin_cases (bx1 pb) (bx1 b)) as [-> | ->]; assumption).
    assert (Hy : (qmax (by0 pb) (by0 b) < qmin (by1 pb) (by1 b))%Qc) by (destruct (qmax_cases (by0 pb) (by0 b)) as [-> | ->], (qmin_cases (by1 pb) (by1 b)) as [-> | ->]; assumption).
    unfold drange. apply qlt_iff in Hx, Hy. rewrite Hx, Hy. cbn [bind]. destruct (zrange _ _); [eexists; reflexivity|eexists; reflexivity].
  Qed.
  Lemma disjointb_iff a b : disjointb a b = false <-> Overlap (bx0 a) (by0 a) (bx1 a) (by1 a) (bx0 b) (by0 b) (bx1 b) (by1 b).
  Proof.
    unfold disjointb, Overlap. rewrite !orb_false_iff, !qle_false. tauto.
  Qed.
  Definition fine_box (b : bbox) : Prop := fine (qmin (bx1 pb) (bx1 b)) /\ fine (qmin (by1 pb) (by1 b)).
  Lemma getrange_common a b ka kb : 0 < d -> fine_box a -> fine_box b -> inside a -> proper a ->
    disjointb a b = false -> getrange pb d a = Ok ka -> getrange pb d b = Ok kb -> exists k, In k ka /\ In k kb.
  Proof.
    intros Hd (Fa1 & Fa2) (Fb1 & Fb2) (I1 & I2 & I3 & I4) (A1 & A2) HO Ha Hb. apply disjointb_iff in HO as (O1 & O2 & O3 & O4).
    assert (Ea : qle (bx1 a) (bx0 pb) || qle (bx1 pb) (bx0 a) || qle (by1 a) (by0 pb) || qle (by1 pb) (by0 a) = false).
    { rewrite !orb_false_iff, !qle_false. repeat split; qc_lra. }
    assert (Eb : qle (bx1 b) (bx0 pb) || qle (bx1 pb) (bx0 b) || qle (by1 b) (by0 pb) || qle (by1 pb) (by0 b) = false).
    { rewrite !orb_false_iff, !qle_false. repeat split; qc_lra. }
    unfold getrange in Ha, Hb. rewrite Ea in Ha. rewrite Eb in Hb.
    destruct (drange (qmax (by0 pb) (by0 a)) _ d) as [ya|] eqn:Eya; cbn [bind] in Ha; [|discriminate].
    destruct (drange (qmax (by0 pb) (by0 b)) _ d) as [yb|] eqn:Eyb; cbn [bind] in Hb; [|discriminate].
    assert (Q : forall p0 p1 a0 a1 b0 b1, (p0 <= a0)%Qc -> (a1 <= p1)%Qc -> (a0 < a1)%Qc -> (a0 < b1)%Qc -> (b0 < a1)%Qc ->
      (qmax p0 a0 < qmin p1 b1)%Qc /\ (qmax p0 b0 < qmin p1 a1)%Qc).
    { intros p0 p1 a0 a1 b0 b1 h1 h2 h3 h4 h5. split.
      - destruct (qmax_cases p0 a0) as [-> | ->], (qmin_cases p1 b1) as [-> | ->]; qc_lra.
      - destruct (qmax_cases p0 b0) as [-> | ->], (qmin_cases p1 a1) as [-> | ->]; qc_lra. }
    destruct (Q _ _ _ _ _ _ I3 I4 A2 O3 O4) as [Qy1 Qy2]. destruct (Q _ _ _ _ _ _ I1 I2 A1 O1 O2) as [Qx1 Qx2].
    destruct (drange_common _ _ _ _ d ya yb Hd Fa2 Fb2 Qy1 Qy2 Eya Eyb) as (y & Hy1 & Hy2).
    destruct ya as [|y0 ya]; [destruct Hy1|]. destruct yb as [|y1 yb]; [destruct Hy2|].
    destruct (drange (qmax (bx0 pb) (bx0 a)) _ d) as [xa|] eqn:Exa; cbn [bind] in Ha; [|discriminate].
    destruct (drange (qmax (bx0 pb) (bx0 b)) _ d) as [xb|] eqn:Exb; cbn [bind] in Hb; [|discriminate].
    destruct (drange_common _ _ _ _ d xa xb Hd Fa1 Fb1 Qx1 Qx2 Exa Exb) as (x & Hx1 & Hx2).
    injection Ha as <-. injection Hb as <-. exists (x, y).
    split; [apply (in_flat_map (fun y => map (fun x => (x, y)) xa) (y0 :: ya))|apply (in_flat_map (fun y => map (fun x => (x, y)) xb) (y1 :: yb))];
      exists y; (split; [assumption|]); apply (in_map (fun x => (x, y))); assumption.
  Qed.

  (* ---------- histories ---------- *)
  Fixpoint run (p : plane) (ops : list op) : res plane :=
    match ops with
    | [] => Ok p
    | Add o :: r => do p' <- add box pb d p o; run p' r
    | Remove o :: r => do p' <- remove box pb d p o; run p' r
    end.
  Lemma run_app a b : forall p, run p (a ++ b) = do p' <- run p a; run p' b.
  Proof.
    induction a as [|[o|o] a IH]; intros p; cbn [app run bind]; [reflexivity| |].
    - destruct (add box pb d p o); cbn [bind]; [apply IH|reflexivity].
    - destruct (remove box pb d p o); cbn [bind]; [apply IH|reflexivity].
  Qed.
  Lemma present_add ops o x : Present (ops ++ [Add o]) x <-> Present ops x \/ x = o.
  Proof.
    split.
    - intros (a & b & E & H). destruct b as [|y b] using rev_ind.
      + apply app_inj_tail in E as [_ E]. injection E as ->. right. reflexivity.
      + clear IHb. rewrite app_comm_cons, app_assoc in E. apply app_inj_tail in E as [-> <-].
        left. exists a, b. split; [reflexivity|]. intros Hr. apply H. apply in_or_app. left. assumption.
    - intros [(a & b & -> & H)| ->].
      + exists a, (b ++ [Add o]). split; [rewrite <- app_assoc; reflexivity|]. rewrite in_app_iff. cbn. intros [Hr|[Hr|[]]]; [contradiction|discriminate].
      + exists ops, []. split; [reflexivity|auto].
  Qed.
  Lemma present_remove ops o x : Present (ops ++ [Remove o]) x <-> Present ops x /\ x <> o.
  Proof.
    split.
    - intros (a & b & E & H). destruct b as [|y b] using rev_ind.
      + apply app_inj_tail in E as [_ E]. discriminate.
      + clear IHb. rewrite app_comm_cons, app_assoc in E. apply app_inj_tail in E as [-> <-].
        split; [exists a, b; split; [reflexivity|]; intros Hr; apply H; apply in_or_app; left; assumption|].
        intros ->. apply H. apply in_or_app. right. left. reflexivity.
    - intros [(a & b & -> & H) Hn]. exists a, (b ++ [Remove o]). split; [rewrite <- app_assoc; reflexivity|].
      rewrite in_app_iff. cbn. intros [Hr|[Hr|[]]]; [contradiction|congruence].
  Qed.

  Definition PInv (ops : list op) (p : plane) : Prop :=
    NoDup (p_objs p) /\ (forall o, In o (p_objs p) <-> Present ops o) /\
    (forall k o ks, getrange pb d (box o) = Ok ks ->
       cnt (cell (p_grid p) k) o = if existsb (Z.eqb o) (p_objs p) && existsb (key_eq k) ks then 1%nat else 0%nat).

  Lemma run_inv ops : proper pb -> Valid ops -> (forall o, In (Add o) ops -> proper (box o)) ->
    exists p, run plane0 ops = Ok p /\ PInv ops p.
  Proof.
    intros Hpb HV. induction HV as [|ops o HV IH Hp|ops o HV IH Hp]; intros Hbox.
    - exists plane0. split; [reflexivity|]. split; [constructor|]. split; [|reflexivity]. intros o. cbn. split; [contradiction|].
      intros (a & b & E & _). destruct a; discriminate.
    - destruct IH as (p & E & N & I & C); [intros x Hx; apply Hbox, in_or_app; left; assumption|].
      destruct (getrange_ok (box o)) as (ks & Hks); [apply Hbox, in_or_app; right; left; reflexivity|assumption|].
      exists (mkPlane (p_seq p ++ [o]) (set_add (p_objs p) o) (grid_add (p_grid p) ks o)). split.
      { rewrite run_app, E. cbn [bind run]. unfold add. rewrite Hks. reflexivity. }
      assert (Hno : ~ In o (p_objs p)) by (rewrite I; assumption).
      unfold set_add. rewrite (proj2 (mem_false o (p_objs p)) Hno). split; [|split]; cbn [p_objs p_grid p_seq].
      + apply (NoDup_Add (a := o) (l := p_objs p)); [pose proof (Add_app o (p_objs p) []) as HA; rewrite app_nil_r in HA; exact HA|split; assumption].
      + intros x. rewrite in_app_iff, I, present_add. cbn. intuition.
      + intros k x kx Hkx. rewrite grid_add_count by (eapply getrange_nodup; eassumption). rewrite (C k x kx Hkx), existsb_app. cbn [existsb]. rewrite orb_false_r.
        destruct (o =? x) eqn:Eo.
        * assert (x = o) by lia. subst x. rewrite Hks in Hkx. injection Hkx as <-. rewrite (proj2 (mem_false o (p_objs p)) Hno), Z.eqb_refl. cbn [orb andb].
          destruct (existsb (key_eq k) ks); reflexivity.
        * replace (x =? o) with false by lia. rewrite orb_false_r. cbn [andb]. lia.
    - destruct IH as (p & E & N & I & C); [intros x Hx; apply Hbox, in_or_app; left; assumption|].
      assert (Hin : In o (p_objs p)) by (apply I; assumption).
      destruct (getrange_ok (box o)) as (ks & Hks); [|assumption|].
      { apply Hbox, in_or_app. left. destruct Hp as (a & b & -> & _). apply in_or_app. right. left. reflexivity. }
      exists (mkPlane (p_seq p) (remove1 (p_objs p) o) (grid_remove (p_grid p) ks o)). split.
      { rewrite run_app, E. cbn [bind run]. unfold remove. rewrite Hks. cbn [bind]. rewrite (proj2 (mem_iff _ _) Hin). reflexivity. }
      assert (R : forall x, In x (remove1 (p_objs p) o) <-> In x (p_objs p) /\ x <> o).
      { intros x. rewrite (count_occ_In Z.eq_dec), remove1_count, (count_occ_In Z.eq_dec (p_objs p)).
        pose proof (proj1 (NoDup_count_occ Z.eq_dec (p_objs p)) N x) as Hle. destruct (o =? x) eqn:Eo; lia. }
      split; [|split]; cbn [p_objs p_grid p_seq].
      + apply (NoDup_count_occ Z.eq_dec). intros x. rewrite remove1_count. pose proof (proj1 (NoDup_count_occ Z.eq_dec (p_objs p)) N x). destruct (o =? x); lia.
      + intros x. rewrite R, I, present_remove. tauto.
      + intros k x kx Hkx. rewrite grid_remove_count by (eapply getrange_nodup; eassumption). rewrite (C k x kx Hkx).
        assert (Em : existsb (Z.eqb x) (remove1 (p_objs p) o) = existsb (Z.eqb x) (p_objs p) && negb (o =? x)).
        { destruct (existsb (Z.eqb x) (remove1 (p_objs p) o)) eqn:E1; symmetry.
          - apply mem_iff, R in E1 as [A B]. apply andb_true_intro. split; [apply mem_iff; assumption|lia].
          - apply andb_false_iff. destruct (o =? x) eqn:Eo; [right; reflexivity|left]. apply mem_false. intros A. apply mem_false in E1. apply E1, R. split; [assumption|lia]. }
        rewrite Em. destruct (o =? x) eqn:Eo; cbn [negb andb].
        * assert (x = o) by lia. subst x. rewrite Hks in Hkx. injection Hkx as <-. rewrite andb_false_r. cbn [andb].
          destruct (existsb (Z.eqb o) (p_objs p) && existsb (key_eq k) ks) eqn:E2, (existsb (key_eq k) ks); try reflexivity.
          rewrite andb_false_r in E2. discriminate.
        * rewrite andb_true_r. reflexivity.
  Qed.

  Lemma cell_in ops p k o ks : PInv ops p -> getrange pb d (box o) = Ok ks -> (In o (cell (p_grid p) k) <-> Present ops o /\ In k ks).
  Proof.
    intros (N & I & C) Hks. rewrite (count_occ_In Z.eq_dec), (C k o ks Hks), <- I, <- mem_iff.
    assert (E : existsb (key_eq k) ks = true <-> In k ks).
    { rewrite existsb_exists. split; [intros (x & Hx & E); apply key_eq_iff in E; subst; assumption|intros H; exists k; split; [assumption|apply key_eq_iff; reflexivity]]. }
    rewrite <- E. destruct (existsb (Z.eqb o) (p_objs p)), (existsb (key_eq k) ks); cbn; split; try lia; intros [A B]; congruence.
  Qed.

  Lemma grid_add_in ks o x k : forall g, In x (cell (grid_add g ks o) k) -> In x (cell g k) \/ x = o.
  Proof.
    induction ks as [|k0 ks IH]; intros g H; [left; exact H|]. cbn [grid_add fold_left] in H. apply IH in H as [H|H]; [|right; assumption].
    destruct (gget g k0) as [l|] eqn:E; rewrite cell_gset in H; destruct (key_eq k0 k) eqn:Ek.
    - apply key_eq_iff in Ek. subst k0. apply in_app_iff in H as [H|[<-|[]]]; [left; unfold cell; rewrite E; assumption|right; reflexivity].
    - left. assumption.
    - destruct H as [<-|[]]. right. reflexivity.
    - left. assumption.
  Qed.
  Lemma remove1_in l o x : In x (remove1 l o) -> In x l.
  Proof. induction l as [|y l IH]; cbn; [auto|]. destruct (y =? o); [auto|]. cbn. tauto. Qed.
  Lemma grid_remove_in ks o x k : forall g, In x (cell (grid_remove g ks o) k) -> In x (cell g k).
  Proof.
    induction ks as [|k0 ks IH]; intros g H; [exact H|]. cbn [grid_remove fold_left] in H. apply IH in H.
    destruct (gget g k0) as [l|] eqn:E; [|assumption]. rewrite cell_gset in H. destruct (key_eq k0 k) eqn:Ek; [|assumption].
    apply key_eq_iff in Ek. subst k0. apply remove1_in in H. unfold cell. rewrite E. assumption.
  Qed.
  Lemma run_sound ops : forall p p', run p ops = Ok p' -> forall k o, In o (cell (p_grid p') k) -> In o (cell (p_grid p) k) \/ In (Add o) ops.
  Proof.
    induction ops as [|[x|x] ops IH]; intros p p' H k o Hin; cbn [run] in H.
    - injection H as ->. left. assumption.
    - unfold add in H. destruct (getrange pb d (box x)) as [ks|]; cbn [bind] in H; [|discriminate].
      apply (IH _ _ H) in Hin as [Hin|Hin]; [|right; right; assumption]. cbn [p_grid] in Hin. apply grid_add_in in Hin as [Hin| ->]; [left; assumption|right; left; reflexivity].
    - unfold remove in H. destruct (getrange pb d (box x)) as [ks|]; cbn [bind] in H; [|discriminate].
      destruct (existsb (Z.eqb x) (p_objs p)); [|discriminate]. cbn [bind] in H.
      apply (IH _ _ H) in Hin as [Hin|Hin]; [|right; right; assumption]. cbn [p_grid] in Hin. apply grid_remove_in in Hin. left. assumption.
  Qed.
End plane.
Lemma op_eq_dec (a b : op) : {a = b} + {a <> b}.
Proof. repeat decide equality. Qed.
(* uniq, pick, choplist *)
