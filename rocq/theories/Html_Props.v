(* C91: the file convert_to_html writes. *)
From Coq Require Import String.
From Verif Require Import Base Obj Num Geom_Model Page_Model Interp_Model.
From Verif Require Import Markup_Model Markup_Spec Markup_Proofs JsonWriter_Proofs Markup_Props Convert_Model XmlFile_Spec XmlFile_Props Html_Model Html_Spec.
From Coq Require Import Qcanon Field ZifyBool Lia.
Open Scope Z_scope.
Import ListNotations.

(* ---------- drawings ---------- *)
Lemma qz1 : qz 1 = 1%Qc. Proof. apply Qc_is_canon. reflexivity. Qed.
Lemma qz0 : qz 0 = 0%Qc. Proof. apply Qc_is_canon. reflexivity. Qed.
Lemma pos_nonzero q : (qz 0 < q)%Qc -> q <> 0%Qc.
Proof. intros H E. subst q. rewrite qz0 in H. exact (Qcle_not_lt _ _ (Qcle_refl _) H). Qed.
Lemma hundred : qz 100 <> 0%Qc.
Proof. rewrite <- qz0. intros E. apply qz_inj in E. discriminate. Qed.
Lemma centi_pos : (qz 0 < qz 1 / qz 100)%Qc.
Proof. vm_compute. reflexivity. Qed.
Lemma scale_lemma b : (qz 0 < high b)%Qc \/ wide b <> qz 0 -> exists d, svg_scale b = Some (d, view b) /\ forall p, svg_point b d p = in_view b p.
Proof.
  intros H. unfold svg_scale, view, in_view, svg_point. fold (wide b). fold (high b). destruct (qlt (qz 0) (high b)) eqn:E.
  - eexists. split; [reflexivity|]. intros p. apply qlt_iff in E. apply pos_nonzero in E as N. cbn [fst snd]. unfold qmax, centi. f_equal.
    + destruct (qlt (wide b) (qz 1 / qz 100)) eqn:F.
      * rewrite qz1. pose proof hundred. field. splits; [exact N|assumption|discriminate].
      * apply qlt_false in F. assert (W : wide b <> 0%Qc). { intros X. rewrite X, <- qz0 in F. exact (Qcle_not_lt _ _ F centi_pos). } field. auto.
    + rewrite qz1. unfold high. field. exact N.
  - destruct (qeqb (wide b) (qz 0)) eqn:F.
    + apply qeqb_iff in F. destruct H as [H|H]; [|contradiction]. apply qlt_iff in H. congruence.
    + eexists. split; [reflexivity|]. intros p. cbn [fst snd]. rewrite qz1. assert (W : wide b <> 0%Qc). { intros X. rewrite X, <- qz0 in F. apply Bool.not_true_iff_false in F. apply F, qeqb_iff. reflexivity. }
      f_equal; [field; exact W|unfold high; ring].
Qed.
(* C91: every point of a curve is shown where it is on the page, if its box is at least 1/100 wide, or flat *)
Theorem C91_placement height b p : ((qz 0 < high b)%Qc /\ (qz 1 / qz 100 <= wide b)%Qc) \/ (high b = qz 0 /\ wide b <> qz 0 /\ snd p = by1 b) ->
  exists d, svg_scale b = Some (d, view b) /\ shown_at height b (svg_point b d p) = (fst p, (height - snd p)%Qc).
Proof.
  intros H. destruct (scale_lemma b) as (d & E & P); [tauto|]. exists d. split; [exact E|]. rewrite P. unfold shown_at, in_view, view. destruct H as [(H1 & H2)|(H1 & H2 & H3)].
  - apply qlt_iff in H1 as E1. rewrite E1. assert (E2 : qlt (wide b) (qz 1 / qz 100) = false) by (apply qlt_false; exact H2). rewrite E2. cbn [fst snd].
    apply pos_nonzero in H1. assert (W : wide b <> 0%Qc). { intros X. rewrite X, <- qz0 in H2. exact (Qcle_not_lt _ _ H2 centi_pos). }
    rewrite qz1. f_equal; field; repeat split; try assumption; discriminate.
  - assert (E1 : qlt (qz 0) (high b) = false) by (apply qlt_false; rewrite H1; apply Qcle_refl). rewrite E1. cbn [fst snd]. rewrite qz1, qz0 in *. f_equal; [field; repeat split; try assumption; discriminate|]. rewrite H3. unfold Qcdiv. rewrite H1. ring.
Qed.
(* C91: the points within the box of a curve are within the drawing *)
Lemma div_bounds a b c : (qz 0 < c)%Qc -> (qz 0 <= a)%Qc -> (a <= b)%Qc -> (qz 0 <= a / c)%Qc /\ (a / c <= b / c)%Qc.
Proof.
  intros Hc Ha Hb. rewrite qz0 in *. assert (I : (0 <= / c)%Qc).
  { apply Qcnot_lt_le. intros X. assert (Y : (c * / c < c * 0)%Qc).
    { rewrite !(Qcmult_comm c). apply Qcmult_lt_compat_r; assumption. }
    rewrite Qcmult_inv_r, Qcmult_0_r in Y by (apply pos_nonzero; rewrite qz0; exact Hc). vm_compute in Y. discriminate Y. }
  unfold Qcdiv. split; [|apply Qcmult_le_compat_r; assumption]. replace 0%Qc with (0 * / c)%Qc by ring. apply Qcmult_le_compat_r; assumption.
Qed.
Theorem C91_inside b p : (bx0 b <= fst p <= bx1 b)%Qc -> (by0 b <= snd p <= by1 b)%Qc -> (qz 0 < high b)%Qc \/ (qz 0 < wide b)%Qc ->
  exists d, svg_scale b = Some (d, view b) /\
    let q := svg_point b d p in (qz 0 <= fst q <= fst (view b))%Qc /\ (qz 0 <= snd q <= snd (view b))%Qc.
Proof.
  intros (X1 & X2) (Y1 & Y2) H. destruct (scale_lemma b) as (d & E & P).
  { destruct H as [H|H]; [now left|right]. intros X. rewrite X in H. exact (Qcle_not_lt _ _ (Qcle_refl _) H). }
  exists d. split; [exact E|]. cbv zeta. rewrite P. unfold in_view, view.
  assert (A1 : (qz 0 <= fst p - bx0 b)%Qc /\ (fst p - bx0 b <= wide b)%Qc) by (unfold wide; split; qc_lra).
  assert (A2 : (qz 0 <= by1 b - snd p)%Qc /\ (by1 b - snd p <= high b)%Qc) by (unfold high; split; qc_lra).
  assert (W : (qz 0 <= wide b)%Qc) by (unfold wide in *; destruct A1; qc_lra).
  destruct (qlt (qz 0) (high b)) eqn:F.
  - apply qlt_iff in F. cbn [fst snd]. split.
    + destruct (qlt (wide b) (qz 1 / qz 100)) eqn:G; [|apply div_bounds; tauto]. apply qlt_iff in G.
      assert (U : (wide b * qz 100 <= 1)%Qc).
      { replace 1%Qc with (qz 1 / qz 100 * qz 100)%Qc by (rewrite qz1; field; exact hundred). apply Qcmult_le_compat_r; [apply Qclt_le_weak; exact G|apply qz_le; lia]. }
      assert (U0 : (qz 0 <= wide b * qz 100)%Qc). { rewrite qz0 in *. replace 0%Qc with (0 * qz 100)%Qc by ring. apply Qcmult_le_compat_r; [exact W|rewrite <- qz0; apply qz_le; lia]. }
      apply div_bounds; [exact F| |].
      * rewrite <- Qcmult_assoc. rewrite qz0 in *. replace 0%Qc with (0 * (wide b * qz 100))%Qc by ring. apply Qcmult_le_compat_r; tauto.
      * rewrite <- Qcmult_assoc, Qcmult_comm. apply Qcle_trans with (1 * (fst p - bx0 b))%Qc; [apply Qcmult_le_compat_r; [exact U|rewrite <- qz0; tauto]|]. rewrite Qcmult_1_l. tauto.
    + replace (qz 1) with (high b / high b)%Qc by (rewrite qz1; field; apply pos_nonzero; exact F). apply div_bounds; tauto.
  - apply qlt_false in F. destruct H as [H|H]; [exfalso; exact (Qcle_not_lt _ _ F H)|]. cbn [fst snd]. split.
    + replace (qz 1) with (wide b / wide b)%Qc by (rewrite qz1; field; apply pos_nonzero; exact H). apply div_bounds; tauto.
    + assert ((qz 0 < qz 1)%Qc) by (apply qz_lt; lia). destruct A2. split; [tauto|]. apply Qcle_trans with (qz 0); [|apply Qclt_le_weak; assumption]. apply Qcle_trans with (high b); assumption.
Qed.

(* ---------- calls and trees ---------- *)
Definition yieldsH (c : xcall) (t : xtree) : Prop := Good c /\ forall u, Shows c u -> LikeH t u.
Lemma yieldsH_list cs ts : Forall2 yieldsH cs ts -> Forall Good cs /\ forall us, Holds cs us -> LikeHList ts us.
Proof.
  intros H. split; [induction H as [|c t cs ts [HG _] _ IH]; constructor; assumption|].
  intros us HS. revert ts H. induction HS as [|w cs us Hw _ IH|c u cs us Hu _ IH]; intros ts H.
  - inversion H; subst. constructor.
  - apply lhl_white; [exact Hw|apply IH; exact H].
  - inversion H as [|? t ? ts' [_ Ht] H2]; subst. apply lhl_cons; [apply Ht; exact Hu|apply IH; exact H2].
Qed.
Lemma yieldsH_elem tag l nle noadd cs ts : is_name tag -> attrs_ok l l -> Forall2 yieldsH cs ts -> yieldsH (CElm tag l nle noadd cs) (TElem tag l ts).
Proof.
  intros Hn Ha Hk. destruct (yieldsH_list _ _ Hk) as [HG HS]. split; [apply Good_elem; [exact Hn|eapply attrs_good; exact Ha|exact HG]|].
  intros u Hu. inversion Hu as [? ? l'' ? ? ? ks HA HH|? ? l'' ? t t' HA HT|? ? l'' ? t t' w w' HA HT|]; subst.
  - rewrite (attrs_read _ _ _ Ha HA). apply lh_elem. apply HS; exact HH.
  - exfalso. inversion HG as [|? ? X]; subst. inversion X.
  - exfalso. inversion HG as [|? ? X]; subst. inversion X.
Qed.
Lemma yieldsH_single tag l : is_name tag -> attrs_ok l l -> yieldsH (CSingle tag l) (TElem tag l []).
Proof.
  intros Hn Ha. split; [apply Good_single; [exact Hn|eapply attrs_good; exact Ha]|]. intros u Hu. inversion Hu; subst.
  rewrite (attrs_read _ _ _ Ha ltac:(eassumption)). apply lh_elem. constructor.
Qed.
Lemma yieldsH_text tag l nle x : is_name tag -> attrs_ok l l -> plain_text x -> yieldsH (CElm tag l nle false [CText x nl sp]) (TElem tag l [TText x]).
Proof.
  intros Hn Ha Hx. unfold plain_text in Hx. assert (EX : expand x = Some x) by (apply expand_clean; eapply Forall_impl; [|exact Hx]; cbn; tauto).
  split.
  - apply Good_line; [exact Hn|eapply attrs_good; exact Ha| |eapply Forall_impl; [|exact Hx]; cbn; tauto]. split; [eapply Forall_impl; [|exact Hx]; cbn; tauto|].
    exists x. split; [exact EX|]. eapply forallb_Forall; [|exact Hx]. cbn. tauto.
  - intros u Hu. inversion Hu as [? ? l'' ? ? ? ks HA HH| |? ? l'' ? t t' w w' HA HT|]; subst.
    + exfalso. clear - HH. remember [CText x nl sp] as l eqn:E.
      induction HH as [|w cs ks Hw _ IH|c t cs ks Hs _ _]; [discriminate|exact (IH E)|]. injection E as -> _. inversion Hs.
    + rewrite EX in HT. injection HT as <-. rewrite (attrs_read _ _ _ Ha HA). now apply lh_text.
Qed.
Definition clean_attr (a : list Z * list Z) : Prop := is_name (fst a) /\ clean_text (snd a).
Lemma clean_attrs l : Forall clean_attr l -> NoDup (map fst l) -> attrs_ok l l.
Proof. intros H HN. split; [|exact HN]. clear HN. induction H as [|[n v] l (H1 & H2) _ IH]; constructor; [apply clean_value; assumption|exact IH]. Qed.
Lemma clean_app x y : clean_text x -> clean_text y -> clean_text (x ++ y).
Proof. intros. apply Forall_app; auto. Qed.
Definition cleanb (x : list Z) : bool := forallb (fun c => xml_char c && negb (existsb (Z.eqb c) [10; 38; 60; 34])) x.
Lemma clean_b x : cleanb x = true -> clean_text x.
Proof.
  intros H. apply Forall_forall. intros c Hc. unfold cleanb in H. rewrite forallb_forall in H. specialize (H c Hc). apply andb_true_iff in H as [H1 H2]. split; [exact H1|]. cbn [existsb] in H2. lia.
Qed.
Lemma style_clean l : Forall (fun a => clean_text (fst a) /\ clean_text (snd a)) l -> clean_text (style l).
Proof.
  induction 1 as [|[n v] l (H1 & H2) Hl IH]; [constructor|]. cbn [fst snd] in *. destruct l as [|a l]; cbn [style].
  - repeat (apply clean_app; [first [assumption|now apply clean_b]|]). assumption.
  - repeat (apply clean_app; [first [assumption|now apply clean_b]|]). exact IH.
Qed.
Lemma style_join l : join (bs ";") (map (fun a => fst a ++ bs ": " ++ snd a) l) = style l.
Proof.
  induction l as [|[n v] l IH]; [reflexivity|]. destruct l as [|a l]; [reflexivity|]. cbn [map] in *.
  change (join (bs ";") (?x :: ?y :: ?r)) with (x ++ bs ";" ++ join (bs ";") (y :: r)). rewrite IH. cbn [fst snd]. change (style ((n, v) :: a :: l)) with (n ++ bs ": " ++ v ++ bs ";" ++ style (a :: l)). rewrite <- !app_assoc. reflexivity.
Qed.
Lemma html_attrs_new l css : ~ In (bs "style") (map fst l) -> html_attrs l (Some css) = l ++ [(bs "style", style css)].
Proof. intros H. unfold html_attrs. rewrite set_attr_new by exact H. rewrite style_join. reflexivity. Qed.
Lemma commas_join l : join (bs ",") l = commas l.
Proof. induction l as [|x l IH]; [reflexivity|]. destruct l; [reflexivity|]. change (join (bs ",") (x :: l :: l0)) with (x ++ bs "," ++ join (bs ",") (l :: l0)). rewrite IH. reflexivity. Qed.

(* ---------- the file ---------- *)
Section file.
  Context (num_text : Num.num -> list Z) (str_text : obj -> list Z) (image_name : obj -> list Z) (font_css : tstate -> list Z * list Z * list Z).
  Context (Hnum : forall q, clean_text (num_text q)).
  Notation v_px := (v_px num_text).
  Notation v_css_color := (v_css_color num_text str_text).
  Notation HOkItem := (HOkItem str_text image_name font_css).
  Notation html_item := (html_item num_text str_text image_name font_css).
  Notation h_item_trees := (h_item_trees num_text str_text image_name font_css).
  Notation html_page := (html_page num_text str_text image_name font_css).
  Notation h_page_tree := (h_page_tree num_text str_text image_name font_css).

  Ltac name := split; reflexivity.
  Ltac nodup := apply nodupb_sound; vm_compute; reflexivity.
  Lemma px_clean q : clean_text (v_px q).
  Proof. apply clean_app; [apply Hnum|now apply clean_b]. Qed.
  Ltac clean_one := first [apply Hnum|apply px_clean|assumption|now apply clean_b].
  Ltac clean := repeat (apply clean_app; [clean_one|]); clean_one.
  Ltac clean_list := repeat (constructor; [split; [try name; now apply clean_b|clean]|]); constructor.
  Lemma commas_clean l : Forall clean_text l -> clean_text (commas l).
  Proof.
    induction 1 as [|x l Hx Hl IH]; [constructor|]. destruct l; [exact Hx|]. change (commas (x :: l :: l0)) with (x ++ [44] ++ commas (l :: l0)). apply clean_app; [exact Hx|]. apply clean_app; [now apply clean_b|exact IH].
  Qed.
  Lemma color_lemma c d : h_color str_text c -> clean_text d -> get_color num_text str_text c d = Ok (v_css_color c d) /\ clean_text (v_css_color c d).
  Proof.
    unfold h_color, get_color, Html_Spec.v_css_color, has_n, components. destruct (c_space c) as [cs|]; [|intros _ H; split; [reflexivity|exact H]]. intros (H1 & H2 & H3) _.
    rewrite commas_join. assert (HC : clean_text (commas (map str_text (c_vals c)))).
    { apply commas_clean. clear -H2. induction H2; cbn [map]; constructor; assumption. }
    assert (HN : clean_text match cs_name cs with OName x => x | _ => [] end) by (destruct (cs_name cs); try constructor; now apply H1).
    assert (CALL : forall f, clean_text f -> clean_text (f ++ bs "(" ++ commas (map str_text (c_vals c)) ++ bs ")")).
    { intros f Hf. clean. }
    unfold cs_text. destruct (num_of (cs_n cs)) as [n|] eqn:EN.
    2: { split; [reflexivity|]. apply CALL, HN. }
    destruct (qeqb n (qz 1)) eqn:E1.
    - apply qeqb_iff in E1. subst n. destruct (c_vals c) as [|v r] eqn:EV; [exfalso; apply H3; reflexivity|].
      destruct v; cbn [num_of]; (split; [reflexivity|]); first [apply CALL, HN|clean].
    - destruct (c_vals c) as [|v r] eqn:EV; (destruct (qeqb n (qz 3)); [split; [reflexivity|apply CALL; now apply clean_b]|]); (destruct (qeqb n (qz 4)); [split; [reflexivity|apply CALL; now apply clean_b]|]);
        (split; [reflexivity|apply CALL, HN]).
  Qed.
  Lemma pair_clean b p : clean_text (pair_text num_text b p).
  Proof. unfold pair_text. clean. Qed.
  Lemma data_lemma b d paths : (forall p, svg_point b d p = in_view b p) ->
    svg_text num_text (svg_path b d paths) = flat_map (seg_data num_text b) paths /\ clean_text (flat_map (seg_data num_text b) paths).
  Proof.
    intros H. induction paths as [|s r (IH1 & IH2)]; [split; [reflexivity|constructor]|]. split.
    - change (svg_path b d (s :: r)) with (svg_path b d [s] ++ svg_path b d r) || (unfold svg_path; cbn [flat_map]; fold (svg_path b d r)).
      assert (SA : forall x y, svg_text num_text (x ++ y) = svg_text num_text x ++ svg_text num_text y) by (intros; apply flat_map_app).
      rewrite SA, IH1. cbn [flat_map]. f_equal. unfold svg_text, svg_path. destruct s; cbn [flat_map map join fst snd seg_data app]; rewrite ?H; try reflexivity; unfold pair_text; change (67 =? 90) with false; change (77 =? 90) with false; change (76 =? 90) with false; cbv iota; rewrite ?app_nil_r, <- ?app_assoc; cbn [app]; rewrite <- ?app_assoc; cbn [app]; rewrite <- ?app_assoc; try reflexivity.
    - apply clean_app; [|exact IH2]. destruct s; cbn [seg_data]; repeat (apply clean_app; [first [apply pair_clean|now apply clean_b]|]); first [now apply clean_b|constructor].
  Qed.
  Lemma styled tag attrs css inside ts : is_name tag -> Forall clean_attr attrs -> NoDup (map fst (attrs ++ [(bs "style", style css)])) ->
    Forall (fun a => clean_text (fst a) /\ clean_text (snd a)) css -> Forall2 yieldsH inside ts ->
    yieldsH (helm tag attrs css inside) (TElem tag (attrs ++ [(bs "style", style css)]) ts).
  Proof.
    intros Hn Ha HN Hc Hi. unfold helm. rewrite html_attrs_new. 2: { rewrite map_app in HN. apply NoDup_remove_2 in HN. rewrite app_nil_r in HN. exact HN. }
    apply yieldsH_elem; [exact Hn| |exact Hi]. apply clean_attrs; [|exact HN]. apply Forall_app. split; [exact Ha|]. constructor; [|constructor]. split; [name|apply style_clean, Hc].
  Qed.
  Lemma curve_yields height k w p b st f e : HOkItem (ICurve k w p b st f e) -> yieldsH (html_curve num_text str_text height p b st f) (curve_tree num_text str_text height p b st f).
  Proof.
    intros H. inversion H as [| | | |? ? ? ? ? ? ? HB H1 H2]; subst. destruct (scale_lemma b HB) as ((dx & dy) & E & P). unfold html_curve, curve_tree. rewrite E.
    destruct (color_lemma st [] H1 (Forall_nil _)) as (E1 & C1). destruct (color_lemma f [] H2 (Forall_nil _)) as (E2 & C2). rewrite E1, E2.
    destruct (data_lemma b (dx, dy) p P) as (D1 & D2). rewrite D1.
    match goal with |- context [CSingle _ (html_attrs (_ :: ?l) _)] => set (css := l) end.
    match goal with |- context [TElem (bs "path") (_ :: ?l ++ _) _] => replace l with css by (unfold css; destruct (v_css_color f []), (v_css_color st []); reflexivity) end.
    assert (HC : Forall clean_attr css).
    { unfold css. apply Forall_app. split; [destruct (v_css_color f []); [constructor|]|destruct (v_css_color st []); [constructor|]]; (constructor; [split; [name|assumption]|constructor]). }
    assert (HN : NoDup (map fst ((bs "d", flat_map (seg_data num_text b) p) :: css ++ [(bs "style", style css)]))).
    { unfold css. destruct (v_css_color f []), (v_css_color st []); apply nodupb_sound; reflexivity. }
    apply (styled (bs "svg") (svg_attrs num_text b (view b)) (svg_css num_text height b)).
    - name.
    - unfold svg_attrs. repeat (apply Forall_cons; [split; [name|cbn [snd]; first [match goal with |- context [if ?x then _ else _] => destruct x; clean end|clean]]|]). apply Forall_nil.
    - apply nodupb_sound. reflexivity.
    - unfold svg_css. repeat (constructor; [split; cbn [fst snd]; [now apply clean_b|clean]|]). constructor.
    - constructor; [|constructor]. rewrite html_attrs_new. 2: { change (~ In (bs "style") (bs "d" :: map fst css)). unfold css. destruct (v_css_color f []), (v_css_color st []); cbn; intuition discriminate. }
      apply (yieldsH_single (bs "path") ((bs "d", flat_map (seg_data num_text b) p) :: css ++ [(bs "style", style css)])); [name|]. apply clean_attrs; [|exact HN]. constructor; [split; [name|exact D2]|]. apply Forall_app. split; [exact HC|]. constructor; [|constructor]. split; [name|]. apply style_clean.
      unfold css in *. apply Forall_app. split; [destruct (v_css_color f []); [constructor|]|destruct (v_css_color st []); [constructor|]]; (constructor; [split; [now apply clean_b|assumption]|constructor]).
  Qed.
  Lemma size_clean b : Forall (fun a => clean_text (fst a) /\ clean_text (snd a)) (size_style num_text b).
  Proof. unfold size_style. cbn [map app]. repeat (constructor; [split; cbn [fst snd]; [now apply clean_b|clean]|]). constructor. Qed.
  Lemma char_yields c : plain_text (fst c) -> yieldsH (html_char num_text c) (h_char_tree num_text c).
  Proof.
    intros H. unfold html_char, h_char_tree, helm. rewrite html_attrs_new by (cbn; intuition discriminate). apply yieldsH_text; [name| |exact H].
    apply clean_attrs; [|apply nodupb_sound; reflexivity]. constructor; [split; [name|now apply clean_b]|]. constructor; [split; [name|]|constructor]. apply style_clean. apply size_clean.
  Qed.
  Lemma block_yields cb : h_block str_text font_css cb -> yieldsH (html_char_block num_text str_text font_css cb) (h_block_tree num_text str_text font_css cb).
  Proof.
    intros (H1 & H2 & H3). unfold html_char_block, h_block_tree. destruct (color_lemma (cb_color cb) (bs "black") H2 ltac:(now apply clean_b)) as (E & C). rewrite E.
    destruct (font_css (cb_text cb)) as [[fname weight] angle]. cbn [fst snd]. destruct H3 as (F1 & F2 & F3).
    replace (cb_size cb) with (v_size cb) by (unfold cb_size, v_size; destruct (t_font (cb_text cb)) as [f|]; [destruct (f_vertical f)|]; reflexivity).
    apply (styled (bs "span") [(bs "class", bs "char-block")]); [name|constructor; [split; [name|now apply clean_b]|constructor]|apply nodupb_sound; reflexivity| |].
    - apply Forall_app. split; [repeat (constructor; [split; cbn [fst snd]; [now apply clean_b|clean]|]); constructor|]. apply Forall_app. split; [apply size_clean|].
      repeat (constructor; [split; cbn [fst snd]; [now apply clean_b|clean]|]). constructor.
    - induction H1; cbn [map]; constructor; [apply char_yields; assumption|assumption].
  Qed.
  Lemma items_yield height : forall i, HOkItem i -> Forall2 yieldsH (html_item height i) (h_item_trees height i).
  Proof.
    fix IH 2. intros i H. destruct H as [|b Hb|s b Hs|s b l Hl|k w p b st f e HB H1 H2].
    - constructor.
    - constructor; [|constructor]. apply yieldsH_elem; [name|apply clean_attrs; [constructor; [split; [name|now apply clean_b]|constructor]|apply nodupb_sound; reflexivity]|].
      clear IH. induction Hb as [|cb l Hcb _ IHl]; cbn [map]; constructor; [apply block_yields; exact Hcb|exact IHl].
    - constructor; [|constructor]. apply yieldsH_single; [name|]. apply clean_attrs; [|apply nodupb_sound; reflexivity]. repeat (constructor; [split; cbn [fst snd]; [name|clean]|]). constructor.
    - constructor; [|constructor]. apply (styled (bs "div") [(bs "class", bs "xobject")]); [name|constructor; [split; [name|now apply clean_b]|constructor]|apply nodupb_sound; reflexivity| |].
      + repeat (constructor; [split; cbn [fst snd]; [now apply clean_b|clean]|]). constructor.
      + induction Hl as [|i l Hi Hl IHl]; [constructor|]. apply Forall2_app; [apply IH; exact Hi|exact IHl].
    - constructor; [|constructor]. eapply curve_yields. apply (hok_curve _ _ _ k w p b st f e HB H1 H2).
  Qed.
  Lemma flat_yieldsH height l : Forall HOkItem l -> Forall2 yieldsH (flat_map (html_item height) l) (flat_map (h_item_trees height) l).
  Proof. induction 1 as [|i l Hi _ IH]; [constructor|]. cbn [flat_map]. apply Forall2_app; [apply items_yield; exact Hi|exact IH]. Qed.
  Definition page_attrs (p : opage) : list (list Z * list Z) := [(bs "class", bs "page"); (bs "id", bs "page-" ++ py_str_int (pg_num p))].
  Definition page_style (p : opage) : list (list Z * list Z) := [(bs "width", v_px (pg_width p)); (bs "height", v_px (pg_height p))].
  Lemma page_attrs_clean p : Forall clean_attr (page_attrs p).
  Proof. constructor; [split; [name|now apply clean_b]|]. constructor; [|constructor]. split; [name|]. cbn [snd]. apply clean_app; [now apply clean_b|apply id_clean]. Qed.
  Lemma page_style_clean p : Forall (fun a => clean_text (fst a) /\ clean_text (snd a)) (page_style p).
  Proof. unfold page_style. repeat (constructor; [split; cbn [fst snd]; [now apply clean_b|clean]|]). constructor. Qed.
  Definition hok_page (p : opage) : Prop := Forall HOkItem (fst (pg_items p)) /\ snd (pg_items p) = None.
  Lemma pages_yieldH ps : Forall hok_page ps -> Forall2 yieldsH (map html_page ps) (map h_page_tree ps).
  Proof.
    induction 1 as [|p ps [H1 H2] _ IH]; constructor; [|exact IH]. unfold Html_Model.html_page. rewrite H2. cbn [raises]. rewrite app_nil_r.
    apply (styled (bs "div") (page_attrs p) (page_style p)); [name|apply page_attrs_clean|apply nodupb_sound; reflexivity|apply page_style_clean|apply flat_yieldsH; exact H1].
  Qed.
  Definition head_calls (codec : list Z) : xcall := CElm (bs "head") [] false false
         [CSingle (bs "meta") ([(bs "http-equiv", bs "Content-Type"); (bs "content", bs "text/html")] ++ match codec with [] => [] | _ => [(bs "charset", codec)] end);
          CElm (bs "style") [] false false [CText (bs ".page { position: relative; overflow: hidden;border: 1px black solid;}") nl sp]].
  Definition head_tree (codec : list Z) : xtree := TElem (bs "head") []
         [TElem (bs "meta") ([(bs "http-equiv", bs "Content-Type"); (bs "content", bs "text/html")] ++ match codec with [] => [] | _ => [(bs "charset", codec)] end) [];
          TElem (bs "style") [] [TText (bs ".page { position: relative; overflow: hidden;border: 1px black solid;}")]].
  Lemma empty_attrs : attrs_ok [] [].
  Proof. split; constructor. Qed.
  Lemma head_yields codec : clean_text codec -> yieldsH (head_calls codec) (head_tree codec).
  Proof.
    intros H. apply yieldsH_elem; [name|apply empty_attrs|]. constructor; [|constructor; [|constructor]].
    - apply yieldsH_single; [name|]. apply clean_attrs; [|destruct codec; apply nodupb_sound; reflexivity]. repeat (constructor; [split; [name|now apply clean_b]|]). destruct codec; [constructor|]. constructor; [split; [name|exact H]|constructor].
    - apply yieldsH_text; [name|apply empty_attrs|]. repeat (constructor; [splits; [reflexivity|discriminate..]|]). constructor.
  Qed.
  (* C91. The HTML file of a document is one element with the pages and the items of the document, in order *)
  Theorem C91_html_partial codec ps : clean_text codec -> Forall hok_page ps ->
    exists text t, convert_to_html num_text str_text image_name font_css codec (ps, None) = (text, false) /\
      xml_document text = Some t /\ LikeH (html_tree num_text str_text image_name font_css codec ps) t.
  Proof.
    intros HC H. assert (Y : yieldsH (html_calls num_text str_text image_name font_css codec (ps, None)) (html_tree num_text str_text image_name font_css codec ps)).
    { apply yieldsH_elem; [name|apply empty_attrs|]. constructor; [apply head_yields, HC|]. constructor; [|constructor]. cbn [fst snd raises]. rewrite app_nil_r. apply yieldsH_elem; [name|apply empty_attrs|apply pages_yieldH; exact H]. }
    destruct Y as [YG YS]. destruct (C54_wellformed_partial _ YG) as (F & t & D & S). unfold convert_to_html.
    destruct (xrender_list 0 _) as [text raised]. cbn [fst snd] in *. subst raised. exists text, t. splits; [reflexivity|exact D|apply YS; exact S].
  Qed.
  (* Refuted: one file element with every page, whatever comes out of the interpreter.  After an exception, or at a curve without extent
     (a ZeroDivisionError), the file has no end: it is not a document *)
  Definition no_extent (i : item) : Prop := match i with ICurve _ _ _ b _ _ _ => (high b <= qz 0)%Qc /\ wide b = qz 0 | _ => False end.
  Lemma no_extent_raises height i : no_extent i -> html_item height i = [CRaise].
  Proof.
    destruct i; cbn [no_extent]; try contradiction. match goal with |- context [wide ?x] => set (b := x) end. intros (H1 & H2). cbn [Html_Model.html_item]. unfold html_curve, svg_scale. fold (wide b). fold (high b).
    assert (E : qlt (qz 0) (high b) = false) by (apply qlt_false; exact H1). rewrite E. assert (F : qeqb (wide b) (qz 0) = true) by (apply qeqb_iff; exact H2). rewrite F. reflexivity.
  Qed.
  Theorem C91_exception_refuted codec ps e : clean_text codec -> Forall hok_page ps ->
    (exists err, e = ([], Some err)) \/
    (exists p rest err before, e = (p :: rest, err) /\ Forall HOkItem before /\
      ((fst (pg_items p) = before /\ snd (pg_items p) <> None) \/ exists i after, fst (pg_items p) = before ++ i :: after /\ no_extent i)) ->
    exists text, convert_to_html num_text str_text image_name font_css codec (ps ++ fst e, snd e) = (text, true) /\ xml_document text = None.
  Proof.
    intros HC H He. destruct (yieldsH_list _ _ (pages_yieldH ps H)) as [HG _]. destruct (head_yields codec HC) as [HH _].
    assert (C : cut (fun level => xrender_list level (map html_page (ps ++ fst e) ++ raises (snd e)))).
    { rewrite map_app, <- app_assoc. destruct He as [(err & ->)|(p & rest & err & before & -> & Hp & Hx)]; cbn [fst snd map app].
      - apply (cut_list _ CRaise []); [exact HG|apply cut_raise].
      - apply cut_list; [exact HG|]. intros level w n a k st Hw. unfold Html_Model.html_page, helm. rewrite html_attrs_new by (cbn; intuition discriminate).
        match goal with |- context [CElm _ _ _ _ ?l] => destruct (cut_elem (bs "div") (page_attrs p ++ [(bs "style", style (page_style p))]) false false l ltac:(name)) with (level := level) (w := w) (n := n) (a := a) (k := k) (st := st) as (w' & f' & st' & A & B & L) end; [| |exact Hw|].
        + eapply attrs_good. apply clean_attrs; [|apply nodupb_sound; reflexivity]. apply Forall_app. split; [apply page_attrs_clean|]. constructor; [|constructor]. split; [name|]. apply style_clean. apply page_style_clean.
        + destruct (yieldsH_list _ _ (flat_yieldsH (pg_height p) _ Hp)) as [HI _]. destruct Hx as [(E1 & E2)|(i & after & E1 & E2)].
          * rewrite E1. destruct (snd (pg_items p)) as [x|]; [|congruence]. cbn [raises]. apply cut_list; [exact HI|apply cut_raise].
          * rewrite E1, flat_map_app, <- app_assoc. cbn [flat_map]. rewrite (no_extent_raises _ _ E2). cbn [app]. apply cut_list; [exact HI|apply cut_raise].
        + exists w', f', st'. splits; [exact A|exact B|lia]. }
    assert (C2 : cut (fun level => xrender_list level [head_calls codec; CElm (bs "body") [] false false (map html_page (ps ++ fst e) ++ raises (snd e))])).
    { apply (cut_list [head_calls codec] _ []); [constructor; [exact HH|constructor]|]. intros level w n a k st Hw.
      destruct (cut_elem (bs "body") [] false false _ ltac:(name) ltac:(split; constructor) C level w n a k st Hw) as (w' & f' & st' & A & B & L). exists w', f', st'. splits; [exact A|exact B|lia]. }
    destruct (cut_elem (bs "html") [] true false _ ltac:(name) ltac:(split; constructor) C2 0%nat [] [] [] [] [] eq_refl) as (w' & f' & st' & A & B & L).
    unfold convert_to_html, html_calls. cbn [fst snd] in *. fold (head_calls codec). cbn [xrender_list]. unfold xml_document, xml_read.
    destruct (xrender 0 _) as [text raised]. cbn [fst snd] in *. subst raised. exists text. split; [reflexivity|]. rewrite B. destruct st'; [cbn in L; lia|reflexivity].
  Qed.
End file.

(* ---------- cases ---------- *)
Definition gray : color := mkColor (Some (mkCs (OName (bs "DeviceGray")) (OInt 1))) [OInt 0].
Definition rgb : color := mkColor (Some (mkCs (OName (bs "DeviceRGB")) (OInt 3))) [OInt 1; OInt 0; OInt 0].
Definition css0 : tstate -> list Z * list Z * list Z := fun _ => (bs "Arial", bs "400", bs "0").
Definition cbh : charblock := mkCB [(bs "a", b0); (bs "b c", b0)] b0 gray t0.
Definition pageh (paths : list seg) : opage := mkPage 3 (qz 1) (qz 1)
  ([IXObj ONull b0 [IText (mkTB (Some b0) [cbh]); INone]; ICurve CCurve (OInt 1) paths b0 rgb gray false; IImage ONull b0], None).
Lemma gray_ok : h_color vt gray.
Proof. unfold h_color. cbn [gray c_space c_vals cs_name]. splits; [intros n [= <-]; now apply clean_b|repeat (apply Forall_cons; [now apply clean_b|]); apply Forall_nil|discriminate]. Qed.
Lemma rgb_ok : h_color vt rgb.
Proof. unfold h_color. cbn [rgb c_space c_vals cs_name]. splits; [intros n [= <-]; now apply clean_b|repeat (apply Forall_cons; [now apply clean_b|]); apply Forall_nil|discriminate]. Qed.
Lemma pageh_ok paths : hok_page vt (fun _ => bs "img1") css0 (pageh paths).
Proof.
  split; [|reflexivity]. constructor; [|constructor; [|constructor; [|constructor]]].
  - apply hok_form. constructor; [|constructor; [apply hok_none|constructor]]. apply hok_text. constructor; [|constructor]. unfold h_block. splits.
    + repeat (apply Forall_cons; [repeat (apply Forall_cons; [splits; [reflexivity|discriminate..]|]); apply Forall_nil|]). apply Forall_nil.
    + apply gray_ok.
    + cbn [css0]; unfold css0; splits; now apply clean_b.
  - apply hok_curve; [left; vm_compute; reflexivity|apply rgb_ok|apply gray_ok].
  - apply hok_image. now apply clean_b.
Qed.
Example C91_case : exists t, xml_document (fst (convert_to_html nt vt (fun _ => bs "img1") css0 (bs "utf-8") ([pageh [SMove (qz 0, qz 1); SLine (qz 1, qz 1); SClose]], None))) = Some t /\
  LikeH (html_tree nt vt (fun _ => bs "img1") css0 (bs "utf-8") [pageh [SMove (qz 0, qz 1); SLine (qz 1, qz 1); SClose]]) t.
Proof.
  destruct (C91_html_partial nt vt (fun _ => bs "img1") css0 nt_clean (bs "utf-8") [pageh [SMove (qz 0, qz 1); SLine (qz 1, qz 1); SClose]]) as (text & t & E & D & L).
  - now apply clean_b.
  - constructor; [apply pageh_ok|constructor].
  - exists t. rewrite E. split; [exact D|exact L].
Qed.
(* Refuted: the curve is drawn.  The file is the same without the segments of the operators v and y *)
Theorem C91_curves_refuted num_text str_text image_name font_css codec p q before after rest :
  convert_to_html num_text str_text image_name font_css codec ([pageh (before ++ SNext p q :: SFirst p q :: after)], rest) =
  convert_to_html num_text str_text image_name font_css codec ([pageh (before ++ after)], rest).
Proof.
  unfold convert_to_html, html_calls. cbn [fst snd map]. do 6 f_equal. unfold html_page, pageh. cbn [pg_items fst snd flat_map html_item pg_height pg_width pg_num]. f_equal. f_equal. f_equal. f_equal.
  unfold html_curve. destruct (svg_scale b0) as [[[dx dy] v]|]; [|reflexivity]. unfold svg_path. rewrite !flat_map_app. reflexivity.
Qed.
(* Refuted: text is shown as it is.  Text is not escaped: it makes elements of its own, or a file that is no document *)
Definition said (x : list Z) : opage := mkPage 1 (qz 1) (qz 1) ([IText (mkTB (Some b0) [mkCB [(x, b0)] b0 gray t0])], None).
Fixpoint has_element (n : list Z) (t : xtree) : bool :=
  match t with
  | TText _ => false
  | TElem m _ l => list_eqb n m || (fix go (l : list xtree) : bool := match l with [] => false | t :: r => has_element n t || go r end) l
  end.
Theorem C91_text_refuted :
  (exists t, xml_document (fst (convert_to_html nt vt (fun _ => []) css0 (bs "utf-8") ([said (bs "<script>x</script>")], None))) = Some t /\ has_element (bs "script") t = true) /\
  xml_document (fst (convert_to_html nt vt (fun _ => []) css0 (bs "utf-8") ([said (bs "a<b")], None))) = None /\
  xml_document (fst (convert_to_html nt vt (fun _ => []) css0 (bs "utf-8") ([said (bs "a&b")], None))) = None.
Proof. splits; [eexists; split; [vm_compute; reflexivity|vm_compute; reflexivity]|vm_compute; reflexivity..]. Qed.
(* Refuted: every point is shown where it is on the page.  A curve of a box less than 1/100 wide is squeezed *)
Theorem C91_narrow_refuted height : exists b p d, (bx0 b <= fst p <= bx1 b)%Qc /\ (by0 b <= snd p <= by1 b)%Qc /\ (qz 0 < wide b)%Qc /\ (qz 0 < high b)%Qc /\
  svg_scale b = Some (d, view b) /\ fst (shown_at height b (svg_point b d p)) <> fst p.
Proof.
  exists (mkBox (qz 0) (qz 0) (qz 1 / qz 200)%Qc (qz 1)), ((qz 1 / qz 200)%Qc, qz 1).
  eexists. splits; [vm_compute; discriminate..|vm_compute; reflexivity|vm_compute; reflexivity|vm_compute; reflexivity|vm_compute; discriminate].
Qed.
(* Refuted: the drawing is visible.  A vertical line has a coordinate system of no width, which is not shown *)
Theorem C91_vertical_refuted b : wide b = qz 0 -> fst (view b) = qz 0 \/ (high b <= qz 0)%Qc.
Proof.
  intros H. unfold view. destruct (qlt (qz 0) (high b)) eqn:E; [left|right; apply qlt_false; exact E]. cbn [fst]. rewrite H, qz0. unfold Qcdiv. ring.
Qed.
