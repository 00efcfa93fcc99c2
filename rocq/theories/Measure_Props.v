(* C96: the measures of a font are those its dictionary gives. *)
From Coq Require Import String.
From Verif Require Import Base Lex_Spec Obj Stack_Spec Stream_Model Stream_Spec Stream_Props Num Geom_Model Page_Model Interp_Model CMap_Spec CMap_Model CMap_Proofs CMap_Props
  Font_Model Font_Spec Font_Proofs Font_Props Font_Witness Names_Props Total_Spec Total_Props FontTotal_Spec FontTotal_Props Names_Props Measure_Spec.
From Coq Require Import Qcanon ZifyBool ZifyNat.
Open Scope Z_scope.
Import ListNotations.

Section measure.
  Context (getobj : Z -> option obj).
  Context (glyphs : list Z -> option (list Z)) (bases : list umap)
          (metrics : list Z -> option (dict * list (list Z * num)))
          (load_cmap : list Z -> option (bool * list (Z * trie))) (load_umap : list Z -> bool -> option umap).
  Lemma same_dget d d' k : same d d' -> dget d' k = dget d k.
  Proof. intros H. symmetry. apply H. Qed.
  Lemma value_same d d' k o v : same d d' -> Value getobj d k o v -> Value getobj d' k o v.
  Proof. intros H [E|o' v' E L]; [constructor 1|econstructor 2; [|exact L]]; rewrite (same_dget _ _ _ H); exact E. Qed.
  Lemma simple_same d d' : same d d' -> simple_type d -> simple_type d'.
  Proof. intros H. unfold simple_type. rewrite (same_dget _ _ _ H). auto. Qed.
  Lemma name_same d d' n : same d d' -> BaseName d n -> BaseName d' n.
  Proof. intros H. unfold BaseName. rewrite (same_dget _ _ _ H). auto. Qed.
  Lemma subtype_same d d' l : same d d' -> subtype d l -> subtype d' l.
  Proof. intros H (n & Hn & E). exists n. split; [exact Hn|]. rewrite (same_dget _ _ _ H). exact E. Qed.
  Lemma widths_same d d' mw w : same d d' -> WidthsFrom getobj d mw w -> WidthsFrom getobj d' mw w.
  Proof. intros H (fc & ws & qs & V1 & V2 & F & K). exists fc, ws, qs. splits; try assumption; eapply value_same; eassumption. Qed.

  Section one.
  Context (depth : nat) (get_data : obj -> res (list Z)) (bufsiz : nat).
  Notation make_font := (make_font getobj depth glyphs bases metrics load_cmap load_umap get_data bufsiz).
  Definition lines (f : pfont) (below tall : num) : Prop := scaled (pf_descent f) (pf_vscale f) = Ok below /\ pf_height f = Ok tall.
  Lemma figure_num d k q x : Figure getobj d k q -> num_value getobj depth (get_or d k (OInt 0)) = Ok x -> Interp_Model.num_of x = Some q.
  Proof. intros (o & V & N) E. rewrite (value_num _ _ _ _ _ _ _ _ V N E). exact (number_num _ _ N). Qed.
  Lemma line_base d w cw dw um enc cm disps disp0 f below tall : base_font getobj depth d w cw dw um enc cm disps disp0 = Ok f -> Line getobj d below tall ->
    lines f (below * thousandth)%Qc (tall * thousandth)%Qc.
  Proof.
    intros H HL. unfold base_font in H. steps. subst f. unfold lines, pf_height. cbn [pf_descent pf_vscale pf_bbox pf_ascent].
    assert (K : forall asc desc x0 y0 x1 y1, Figure getobj d "Ascent" asc -> Figure getobj d "Descent" desc -> FontBox getobj d x0 y0 x1 y1 ->
      Interp_Model.num_of a = Some asc /\ Interp_Model.num_of a0 = Some desc /\ exists b0 b1 b2 b3, a2 = [b0; b1; b2; b3] /\ Interp_Model.num_of b1 = Some y0 /\ Interp_Model.num_of b3 = Some y1).
    { intros asc desc x0 y0 x1 y1 F1 F2 (l & V & N). split; [eapply figure_num; eassumption|]. split; [eapply figure_num; eassumption|].
      apply (value_list _ _ _ _ _ _ _ V) in E2. subst a2.
      inversion N as [|? ? ? ? N0 N']; subst. inversion N' as [|? ? ? ? N1 N'']; subst. inversion N'' as [|? ? ? ? N2 N''']; subst. inversion N''' as [|? ? ? ? N3 N4]; subst. inversion N4; subst.
      do 4 eexists. splits; [reflexivity|exact (number_num _ _ N1)|exact (number_num _ _ N3)]. }
    destruct HL as [asc desc x0 y0 x1 y1 F1 F2 FB Hne|asc desc x0 y x1 F1 F2 FB]; destruct (K _ _ _ _ _ _ F1 F2 FB) as (K1 & K2 & b0 & b1 & b2 & b3 & -> & K3 & K4); rewrite K1, K2, K3, K4;
      (split; [unfold scaled; rewrite K2; reflexivity|]).
    - destruct (qeqb (y1 - y0)%Qc (qz 0)) eqn:Q; [|reflexivity]. apply qeqb_iff in Q. exfalso. apply Hne. change (qz 0) with 0%Qc in Q.
      assert (X : y1 = (y1 - y0 + y0)%Qc) by ring. rewrite X, Q. ring.
    - assert (qeqb (y - y)%Qc (qz 0) = true) as -> by (apply qeqb_iff; change (qz 0) with 0%Qc; ring). reflexivity.
  Qed.
  Lemma tfind_none l t : ~ In t (map fst l) -> tfind l t = None.
  Proof. induction l as [|[t' w] l IH]; [reflexivity|]. cbn [map fst In tfind]. intros H. destruct (list_eqb t' t) eqn:E; [apply list_eqb_eq in E; tauto|apply IH; tauto]. Qed.
  Lemma tfind_in l t w : NoDup (map fst l) -> In (t, w) l -> tfind l t = Some w.
  Proof.
    induction l as [|[t' w'] l IH]; [intros _ []|]. cbn [map fst]. intros ND HI. inversion ND as [|? ? Hn ND']; subst. cbn [tfind].
    destruct (list_eqb t' t) eqn:E.
    - apply list_eqb_eq in E. subst t'. destruct HI as [[= ->]|HI]; [reflexivity|]. exfalso. apply Hn. change t with (fst (t, w)). apply in_map. exact HI.
    - destruct HI as [[= -> ->]|HI]; [rewrite (proj2 (list_eqb_eq t t) eq_refl) in E; discriminate|apply IH; assumption].
  Qed.
  Lemma last_before {A} (qs : list A) : forall fc c, c < fc -> last_for (combine (codes fc (length qs)) qs) c = None.
  Proof.
    induction qs as [|x qs IH]; intros fc c H; [reflexivity|]. cbn [length]. rewrite codes_cons. cbn [combine last_for]. rewrite IH by lia.
    destruct (Z.eqb_spec fc c); [lia|reflexivity].
  Qed.
  Lemma last_after {A} (qs : list A) : forall fc c, fc + Z.of_nat (length qs) <= c -> last_for (combine (codes fc (length qs)) qs) c = None.
  Proof.
    induction qs as [|x qs IH]; intros fc c H; [reflexivity|]. cbn [length] in *. rewrite codes_cons. cbn [combine last_for]. rewrite IH by lia.
    destruct (Z.eqb_spec fc c); [lia|reflexivity].
  Qed.
  Lemma last_at {A} (qs : list A) : forall fc i q, nth_error qs i = Some q -> last_for (combine (codes fc (length qs)) qs) (fc + Z.of_nat i) = Some q.
  Proof.
    induction qs as [|x qs IH]; intros fc i q H; [destruct i; discriminate|]. cbn [length]. rewrite codes_cons. cbn [combine last_for]. destruct i as [|i].
    - injection H as ->. rewrite last_before by lia. destruct (Z.eqb_spec fc (fc + Z.of_nat 0)); [reflexivity|lia].
    - replace (fc + Z.of_nat (S i)) with (fc + 1 + Z.of_nat i) by lia. rewrite (IH _ _ _ H). reflexivity.
  Qed.
  Lemma last_widths fc qs (w : Z -> num) mw : (forall c, (exists i q, nth_error qs i = Some q /\ c = fc + Z.of_nat i /\ w c = q) \/ ((c < fc \/ fc + Z.of_nat (length qs) <= c) /\ w c = mw)) ->
    forall c, match last_for (combine (codes fc (length qs)) qs) c with Some q => q | None => mw end = w c.
  Proof.
    intros H c. destruct (H c) as [(i & q & E1 & -> & E2)|[[E1|E1] E2]].
    - rewrite (last_at _ _ _ _ E1). congruence.
    - rewrite last_before by exact E1. congruence.
    - rewrite last_after by exact E1. congruence.
  Qed.
  (* a simple font *)
  Lemma type1_more spec f : type1_font getobj depth glyphs bases metrics get_data bufsiz spec = Ok f -> pf_cmap f = None /\ pf_hscale f = milli.
  Proof.
    intros H. unfold type1_font in H. steps. destruct a0 as [[d w] cw]. steps. assert (G : pf_cmap a0 = None /\ pf_hscale a0 = milli) by (unfold simple_font, base_font in E1; steps; subst a0; split; reflexivity).
    destruct (dget spec "Encoding"), (dget d "FontFile"); steps; subst f; exact G.
  Qed.
  Lemma type1_lines spec n f d below tall : type1_font getobj depth glyphs bases metrics get_data bufsiz spec = Ok f -> BaseName spec n ->
    match metrics n with Some (d', _) => d = d' | None => Value getobj spec "FontDescriptor" (ODict []) (ODict d) end -> Line getobj d below tall ->
    lines f (below * thousandth)%Qc (tall * thousandth)%Qc.
  Proof.
    intros H HB HD HL. unfold type1_font in H. steps.
    assert (EA : a = Some n) by (destruct HB as [HB|[HB ->]]; rewrite HB in E; congruence). subst a. clear E.
    assert (ED : fst (fst a0) = d).
    { destruct (metrics n) as [[d' cw]|]; [subst d'; injection E0 as <-; reflexivity|].
      destruct (dict_value getobj depth (get_or spec "FontDescriptor" (ODict []))) as [d0|] eqn:ED; [|discriminate E0]. cbn [bind] in E0.
      destruct (spec_widths getobj depth spec) as [w0|]; [|discriminate E0]. injection E0 as <-. exact (value_dict _ _ _ _ _ _ _ HD ED). }
    destruct a0 as [[d0 w] cw]. cbn [fst] in ED. subst d0. steps.
    assert (G : lines a (below * thousandth)%Qc (tall * thousandth)%Qc) by (unfold simple_font in E; steps; eapply line_base; eassumption).
    destruct (dget spec "Encoding"), (dget d "FontFile"); steps; subst f; exact G.
  Qed.
  Lemma type1_standard spec n f d cw mw : type1_font getobj depth glyphs bases metrics get_data bufsiz spec = Ok f -> BaseName spec n -> metrics n = Some (d, cw) ->
    Figure getobj d "MissingWidth" mw -> pf_widths f = [] /\ pf_chars f = cw /\ Interp_Model.num_of (pf_default f) = Some mw.
  Proof.
    intros H HB HM HF. unfold type1_font in H. steps.
    assert (EA : a = Some n) by (destruct HB as [HB|[HB ->]]; rewrite HB in E; congruence). subst a. rewrite HM in E0. injection E0 as <-. cbn [bind] in H. steps.
    assert (G : pf_widths a = [] /\ pf_chars a = cw /\ Interp_Model.num_of (pf_default a) = Some mw).
    { unfold simple_font, base_font in E0. steps. subst a. splits; try reflexivity. cbn [pf_default]. eapply figure_num; eassumption. }
    destruct (dget spec "Encoding"), (dget d "FontFile"); steps; subst f; exact G.
  Qed.
  Definition measured (f : pfont) (composite : bool) (w : Z -> num) (below tall : num) : Prop :=
    (forall c, char_width f c = Ok (w c)) /\ is_vertical f = false /\ match pf_cmap f with Some _ => true | None => false end = composite /\ lines f below tall.
  Lemma measures_font spec texts composite w below tall : Measures getobj metrics load_cmap spec texts composite w below tall ->
    forall spec' fuel f, same spec spec' -> make_font fuel spec' = Ok f -> (forall c, to_unichr f c = texts c) -> measured f composite w below tall.
  Proof.
    induction 1 as [spec texts n d cw mw w w' below tall HS HB HM ND HF HL HW Hw|spec texts n d mw w w' below tall HS HB HM HD HF HL HW Hw
      |spec texts d m a s e g mw w w' x0 y0 x1 y1 HS HD HBx HMx HN HF HW Hw|spec texts n codes d ws decl dw w below tall HS HE HC HD HL HW HEn HDW Hw
      |spec texts x l sub sub' composite w below tall HT HD HX HMg _ IH]; intros spec' fuel f SM MF TX.
    - rewrite make_simple in MF by (eapply simple_same; eassumption). pose proof (name_same _ _ _ SM HB) as HB'.
      destruct (type1_more _ _ MF) as [M1 M2]. destruct (type1_standard _ _ _ _ _ _ MF HB' HM HF) as (P1 & P2 & P3).
      unfold measured. splits.
      + intros c. unfold char_width. rewrite P1, TX, P2, Hw. cbn [nget]. destruct (HW c) as [(t & T1 & T2)|[T1 T2]].
        * rewrite T1, (tfind_in _ _ _ ND T2), M2. reflexivity.
        * unfold scaled. rewrite P3, M2, T2. destruct (texts c) as [t|]; [rewrite tfind_none by (apply T1; reflexivity)|]; reflexivity.
      + unfold is_vertical. rewrite M1. reflexivity.
      + rewrite M1. reflexivity.
      + eapply type1_lines; try eassumption. rewrite HM. reflexivity.
    - rewrite make_simple in MF by (eapply simple_same; eassumption). pose proof (name_same _ _ _ SM HB) as HB'. pose proof (value_same _ _ _ _ _ SM HD) as HD'. pose proof (simple_same _ _ SM HS) as HS'.
      destruct (type1_more _ _ MF) as [M1 M2]. destruct (widths_same _ _ _ _ SM HW) as (fc & ws & qs & V1 & V2 & FN & K). destruct HF as (o & VM & NM).
      unfold measured. splits.
      + intros c. rewrite (C43_simple getobj depth glyphs bases metrics load_cmap load_umap get_data bufsiz fuel spec' f fc ws qs mw); try assumption.
        * rewrite (last_widths fc qs w' mw K c), Hw. reflexivity.
        * rewrite make_simple by assumption. exact MF.
        * intros n' E. destruct HB' as [HB'|[HB' _]]; rewrite HB' in E; [injection E as <-; exact HM|discriminate].
        * intros E. destruct HB' as [HB'|[HB' ->]]; [rewrite HB' in E; discriminate|exact HM].
        * econstructor; eassumption.
      + unfold is_vertical. rewrite M1. reflexivity.
      + rewrite M1. reflexivity.
      + eapply type1_lines; try eassumption. rewrite HM. exact HD'.
    - assert (MF' : type3_font getobj depth glyphs bases get_data bufsiz spec' = Ok f).
      { rewrite <- (same_dget _ _ _ SM) in HS. destruct fuel; cbn [Font_Model.make_font] in MF; unfold get_or in MF; rewrite HS in MF; exact MF. }
      clear MF. unfold type3_font in MF'. destruct (spec_widths getobj depth spec') as [wm|] eqn:EW; [|discriminate]. cbn [bind] in MF'. unfold spec_widths in EW.
      destruct (widths_same _ _ _ _ SM HW) as (fc & ws & qs & V1 & V2 & FN & K). destruct HF as (mo & VM & NM).
      destruct (Stream_Model.int_value getobj depth _) as [fc'|] eqn:HFC'; [|discriminate EW]. cbn [bind] in EW.
      destruct (list_value getobj depth _) as [ws'|] eqn:HLL; [|discriminate EW]. cbn [bind] in EW. injection EW as <-.
      apply (value_int _ _ _ _ _ _ _ V1) in HFC'. apply (value_list _ _ _ _ _ _ _ V2) in HLL. subst fc' ws'.
      destruct (match dget spec' "FontDescriptor" with Some o => _ | None => _ end) as [dd|] eqn:ED; [|discriminate MF']. cbn [bind] in MF'.
      assert (dd = d) as ->.
      { destruct HD as [(o & D1 & D2)|(D1 & b & D2 & D3)]; rewrite (same_dget _ _ "FontDescriptor" SM), D1 in ED; [exact (dict_value_leads _ _ _ _ _ D2 ED)|].
        rewrite (same_dget _ _ "FontBBox" SM), D2 in ED. congruence. }
      destruct (simple_font _ _ _ _ _ _ _ _ _ _) as [f0|] eqn:SF; [|discriminate MF']. cbn [bind] in MF'.
      destruct (list_value getobj depth (get_or spec' "FontMatrix" ONull)) as [m'|] eqn:HMM; [|discriminate MF']. cbn [bind] in MF'.
      pose proof (value_same _ _ _ _ _ SM HMx) as HMx'.
      assert (m' = m) as -> by (inversion HMx' as [H0 H1|o v H0 H1]; subst; unfold get_or in HMM; rewrite H0 in HMM; exact (list_value_leads _ _ _ _ _ H1 HMM)).
      destruct HBx as (bl & VB & NB). unfold simple_font, base_font in SF. steps. subst f0. cbn [pf_bbox pf_widths pf_chars pf_default pf_umap pf_enc pf_cmap pf_disps pf_disp0] in MF'.
      match goal with HB : list_value getobj depth (get_or d "FontBBox" _) = Ok _ |- _ => apply (value_list _ _ _ _ _ _ _ VB) in HB; subst end.
      match goal with HB : num_value getobj depth (get_or d "MissingWidth" _) = Ok _ |- _ => apply (value_num _ _ _ _ _ _ _ _ VM NM) in HB; subst end.
      clear HMx HMx' HMM VB. inversion NB as [|b0 ? ? ? B0 NB1]; subst. inversion NB1 as [|b1 ? ? ? B1 NB2]; subst. inversion NB2 as [|b2 ? ? ? B2 NB3]; subst. inversion NB3 as [|b3 ? ? ? B3 NB4]; subst. inversion NB4; subst.
      inversion HN as [|m0 ? ? ? M0 N1]; subst. inversion N1 as [|m1 ? ? ? M1 N2]; subst. inversion N2 as [|m2 ? ? ? M2 N3]; subst. inversion N3 as [|m3 ? ? ? M3 N4]; subst.
      inversion N4 as [|m4 ? ? ? M4 N5]; subst. inversion N5 as [|m5 ? ? ? M5 N6]; subst. inversion N6; subst.
      apply number_num in M0, M1, M2, M3, M4, M5, B1, B3. cbn [nums] in MF'. rewrite M0, M1, M2, M3, M4, M5 in MF'. injection MF' as <-.
      assert (A0 : (a + qz 0)%Qc = a) by (change (qz 0) with 0%Qc; ring). assert (S0 : (qz 0 + s)%Qc = s) by (change (qz 0) with 0%Qc; ring). rewrite A0, S0.
      unfold measured, lines, pf_height. cbn [pf_descent pf_vscale pf_bbox pf_ascent pf_cmap]. splits; try reflexivity.
      + intros c. pose proof (last_widths fc qs w' mw K c) as LW. destruct (put_list_upd Number ws qs FN [] fc) as [U _]. specialize (U c). unfold char_width. cbn [pf_widths pf_hscale pf_chars pf_default]. rewrite Hw.
        destruct (last_for (combine (codes fc (length qs)) qs) c) as [q|].
        * destruct U as (o & -> & Ho). unfold scaled. rewrite (number_num _ _ Ho), LW. reflexivity.
        * rewrite U. cbn [nget tfind]. unfold scaled. rewrite (number_num _ _ NM), LW. destruct (to_unichr _ c); reflexivity.
      + unfold scaled. rewrite B1. reflexivity.
      + rewrite B1, B3. destruct (qeqb _ _); reflexivity.
    - rewrite make_cid in MF by (eapply subtype_same; eassumption).
      assert (CM : exists cm, pf_cmap f = Some cm /\ cmap_vertical cm = false /\ lines f (below * thousandth)%Qc (tall * thousandth)%Qc).
      { destruct (ev_cmap load_cmap n false codes HC) as (cm & C1 & C2 & _). unfold cid_font in MF. steps. unfold get_or in E4 at 1. rewrite (same_dget _ _ "Encoding" SM), HE in E4.
        rewrite C1 in E4. injection E4 as <-. rewrite C2 in MF. steps. exists cm. apply (value_dict _ _ _ _ _ _ _ (value_same _ _ _ _ _ SM HD)) in E5. subst a5.
        pose proof (line_base _ _ _ _ _ _ _ _ _ _ _ _ MF HL). unfold base_font in MF. steps. subst f. splits; [reflexivity|exact C2|assumption]. }
      destruct CM as (cm & C1 & C2 & C3). assert (V : is_vertical f = false) by (unfold is_vertical; rewrite C1; exact C2).
      unfold measured. splits; [|exact V|rewrite C1; reflexivity|exact C3].
      intros c. pose proof (value_same _ _ _ _ _ SM HW) as HW'. pose proof (subtype_same _ _ _ SM HS) as HS'. rewrite Hw. rewrite <- (make_cid getobj depth glyphs bases metrics load_cmap load_umap get_data bufsiz fuel) in MF by exact HS'.
      destruct (last_for decl c) as [q|] eqn:EL; [eapply C43_cid_declared; eassumption|]. eapply C43_cid_default; try eassumption. rewrite (same_dget _ _ "DW" SM). exact HDW.
    - destruct fuel as [|fuel].
      + cbn [Font_Model.make_font] in MF. unfold get_or in MF. rewrite (same_dget _ _ "Subtype" SM), HT in MF. discriminate MF.
      + destruct (C71_composite_partial getobj depth glyphs bases metrics load_cmap load_umap get_data bufsiz fuel spec' f l x sub) as (s2 & G1 & G2); try assumption.
        * rewrite (same_dget _ _ _ SM). exact HT.
        * eapply value_same; eassumption.
        * eapply (IH s2 fuel f); [|exact G2|exact TX]. eapply merged_one; [|exact G1]. eapply same_merged; eassumption.
  Qed.
  End one.
  (* C96. A font dictionary that is well formed and gives the measures of a font: the font is read without an exception and has these
     measures. *)
  Theorem C96_measures (get_data : nat -> obj -> res (list Z)) bufsiz (data : obj -> list Z -> Prop) o g : (0 < bufsiz)%nat ->
    (forall a r t, data (OStream a r) t -> exists n, forall d, (n <= d)%nat -> get_data d (OStream a r) = Ok t) ->
    FontMeasured getobj glyphs bases metrics load_cmap load_umap data o g ->
    exists f n, (forall d fuel, (n <= d)%nat -> (n <= fuel)%nat -> get_font getobj d glyphs bases metrics load_cmap load_umap (get_data d) bufsiz fuel [] o =
        Ok (f, match o with ORef i => if i =? 0 then [] else iput [] i f | _ => [] end)) /\
      (forall s cids, f_decode g s = Ok cids -> decode f s = Ok cids) /\ (forall c, to_unichr f c = f_unichr g c) /\
      (forall c, char_width f c = Ok (f_width g c)) /\ is_vertical f = false /\ match pf_cmap f with Some _ => true | None => false end = f_multibyte g /\
      scaled (pf_descent f) (pf_vscale f) = Ok (f_descent g) /\ pf_height f = Ok (f_height g).
  Proof.
    intros Hb HD (spec & codes & texts & composite & w & below & tall & HL & HF & HM & D1 & D2 & D3 & D4 & D5 & D6 & D7).
    destruct (C86_font getobj glyphs bases metrics load_cmap load_umap get_data bufsiz data Hb HD spec codes texts HF) as (f & n & F & R1 & R2). destruct (leads_dict _ _ _ HL) as (m & L).
    destruct (measures_font (n + m) (get_data (n + m)%nat) bufsiz _ _ _ _ _ _ HM spec (n + m)%nat f ltac:(intros k; reflexivity) (F (n + m)%nat (n + m)%nat (Nat.le_add_r _ _) (Nat.le_add_r _ _)) R2) as (M1 & M2 & M3 & M4 & M5).
    exists f, (n + m)%nat. splits; try assumption.
    - intros d fuel Hd Hf. unfold get_font. rewrite L by lia. cbn [bind].
      replace (match match o with ORef i => if i =? 0 then None else Some i | _ => None end with Some i => iget [] i | None => None end) with (@None pfont) by (destruct o; try reflexivity; destruct (_ =? 0); reflexivity).
      rewrite F by lia. cbn [bind]. destruct o; try reflexivity. destruct (_ =? 0); reflexivity.
    - intros s cids E. apply R1, D1, E.
    - intros c. rewrite R2, D2. reflexivity.
    - intros c. rewrite M1, D3. reflexivity.
    - rewrite M3, D5. reflexivity.
    - rewrite M4, D6. reflexivity.
    - rewrite M5, D7. reflexivity.
  Qed.
End measure.

(* a case: a simple font with widths and a descriptor, and a Type 3 font *)
Definition m_desc : list (obj * obj) := [(ON "Ascent", OInt 800); (ON "Descent", OInt (-200)); (ON "MissingWidth", OInt 300); (ON "FontBBox", OArr [OInt 0; OInt (-250); OInt 1000; OInt 900])].
Definition m_simple : list (obj * obj) := [(ON "Subtype", ON "TrueType"); (ON "BaseFont", ON "Mine"); (ON "FirstChar", OInt 65); (ON "Widths", OArr [OInt 500; OInt 600]); (ON "FontDescriptor", ODict m_desc)].
Definition m_font : font := mkFont (fun s => Ok s) (fun c => base fbases (bs "StandardEncoding") c)
  (fun c => (qz (if c =? 65 then 500 else if c =? 66 then 600 else 300) * thousandth)%Qc) (fun _ => (None, qz 0)) false false (qz 0) (qz 1150 * thousandth)%Qc (qz (-200) * thousandth)%Qc.
Definition m_type3 : font := mkFont (fun s => Ok s) (fun c => base fbases (bs "StandardEncoding") c)
  (fun c => (qz (if c =? 500 then 300 else 0) * real_val (bs "0.001"))%Qc) (fun _ => (None, qz 0)) false false (qz 0) ((qz 9 - qz 0) * real_val (bs "0.001"))%Qc (qz 0 * real_val (bs "0.001"))%Qc.
Example C96_hypotheses : FontMeasured fdoc two_glyphs fbases helv (fun _ => None) (fun _ _ => None) fdata (ODict m_simple) m_font /\
  FontMeasured fdoc two_glyphs fbases helv (fun _ => None) (fun _ _ => None) fdata (ODict ft_type3) m_type3.
Proof.
  split.
  - exists m_simple, one_byte, (fun c => match last_for [] c with Some t => Some t | None => base fbases (bs "StandardEncoding") c end), false, (f_width m_font), (f_descent m_font), (f_height m_font).
    splits; try reflexivity.
    + apply Leads_stop; discriminate.
    + eapply FR_simple with (n := bs "Mine") (d := m_desc).
      * right. exists (bs "TrueType"). split; [reflexivity|]. intros H. cbn [map In] in H. destruct H as [H|[H|[H|[H|[]]]]]; discriminate H.
      * left. reflexivity.
      * reflexivity.
      * eapply V_present; [reflexivity|]. apply Leads_stop; discriminate.
      * repeat constructor; intros o H; injection H as <-; eexists; apply Leads_stop; discriminate.
      * intros o H; injection H as <-; eexists; apply Leads_stop; discriminate.
      * intros o H; injection H as <-; eexists; apply Leads_stop; discriminate.
      * apply UO_none. reflexivity.
      * apply CO_entry; [right; reflexivity|]. apply EN_name, V_absent. reflexivity.
    + eapply Me_simple with (n := bs "Mine") (d := m_desc) (mw := qz 300) (w' := fun c => qz (if c =? 65 then 500 else if c =? 66 then 600 else 300)).
      * right. exists (bs "TrueType"). split; [reflexivity|]. intros H. cbn [map In] in H. destruct H as [H|[H|[H|[H|[]]]]]; discriminate H.
      * left. reflexivity.
      * reflexivity.
      * eapply V_present; [reflexivity|]. apply Leads_stop; discriminate.
      * exists (OInt 300). split; [eapply V_present; [reflexivity|apply Leads_stop; discriminate]|constructor].
      * replace (qz 1150) with (qz 900 - qz (-250))%Qc by (apply Qc_is_canon; reflexivity).
        eapply Li_box with (asc := qz 800) (x0 := qz 0) (x1 := qz 1000).
        -- exists (OInt 800). split; [eapply V_present; [reflexivity|apply Leads_stop; discriminate]|constructor].
        -- exists (OInt (-200)). split; [eapply V_present; [reflexivity|apply Leads_stop; discriminate]|constructor].
        -- exists [OInt 0; OInt (-250); OInt 1000; OInt 900]. split; [eapply V_present; [reflexivity|apply Leads_stop; discriminate]|repeat constructor].
        -- discriminate.
      * exists 65, [OInt 500; OInt 600], [qz 500; qz 600]. splits.
        -- eapply V_present; [reflexivity|]. apply Leads_stop; discriminate.
        -- eapply V_present; [reflexivity|]. apply Leads_stop; discriminate.
        -- repeat constructor.
        -- intros c. cbn [length]. destruct (Z.eqb_spec c 65) as [->|]; [left; exists 0%nat, (qz 500); splits; reflexivity|]. destruct (Z.eqb_spec c 66) as [->|]; [left; exists 1%nat, (qz 600); splits; reflexivity|].
           right. split; [lia|reflexivity].
      * intros c. reflexivity.
    + intros s cids [= <-]. reflexivity.
  - exists ft_type3, one_byte, (fun c => match last_for [] c with Some t => Some t | None => base fbases (bs "StandardEncoding") c end), false, (f_width m_type3), (f_descent m_type3), (f_height m_type3).
    splits; try reflexivity.
    + apply Leads_stop; discriminate.
    + apply C86_hypotheses.
    + eapply Me_type3 with (d := [(ON "Ascent", OInt 0); (ON "Descent", OInt 0); (ON "FontBBox", OArr [OInt 0; OInt 0; OInt 9; OInt 9])]) (mw := qz 0) (w' := fun c => qz (if c =? 500 then 300 else 0))
        (m := [OReal (bs "0.001"); OInt 0; OInt 0; OReal (bs "0.001"); OInt 0; OInt 0]) (e := qz 0) (g := qz 0) (x0 := qz 0) (x1 := qz 9).
      * reflexivity.
      * right. split; [reflexivity|]. eexists. split; reflexivity.
      * exists [OInt 0; OInt 0; OInt 9; OInt 9]. split; [eapply V_present; [reflexivity|apply Leads_stop; discriminate]|repeat constructor].
      * eapply V_present; [reflexivity|]. apply Leads_stop; discriminate.
      * repeat constructor.
      * exists (OInt 0). split; [apply V_absent; reflexivity|constructor].
      * exists 500, [OInt 300], [qz 300]. splits.
        -- eapply V_present; [reflexivity|]. eapply Leads_ref; [reflexivity|]. apply Leads_stop; discriminate.
        -- eapply V_present; [reflexivity|]. apply Leads_stop; discriminate.
        -- repeat constructor.
        -- intros c. cbn [length]. destruct (Z.eqb_spec c 500) as [->|]; [left; exists 0%nat, (qz 300); splits; reflexivity|]. right. split; [lia|reflexivity].
      * intros c. reflexivity.
    + intros s cids [= <-]. reflexivity.
Qed.
