(* Fonts: widths (C43), characters (C68), the font cache (C69), composite fonts (C71). *)
From Coq Require Import String.
From Verif Require Import Base Lex_Model Lex_Spec Obj Stack_Model Stream_Model Stream_Spec Stream_Props Num Geom_Model Page_Model Interp_Model CMap_Spec CMap_Model CMap_Proofs Enc_Proofs CMap_Props Font_Model Font_Spec Font_Proofs.
From Coq Require Import Qcanon ZifyBool ZifyNat.
Open Scope Z_scope.

(* C43. The W array alone: for every sequence of entries, each character has the width declared last for it, and no other
   number is a key of the result. *)
Theorem C43_widths : forall seq decl, Entries WEntry seq decl ->
  exists m, get_widths seq = Ok m /\
    (forall c, match last_for decl c with Some q => exists o, nget m (qz c) = Some o /\ Number o q | None => nget m (qz c) = None end) /\
    (forall q, (forall c, q <> qz c) -> nget m q = None).
Proof.
  intros seq decl H. destruct (widths_entries seq decl H []) as (m & E & U & K). exists m. splits; [exact E| |].
  - intros c. specialize (U c). destruct (last_for decl c); exact U.
  - intros q Hq. rewrite (K q Hq). reflexivity.
Qed.
Theorem C43_widths_vertical : forall seq decl, Entries W2Entry seq decl ->
  exists m, get_widths2 seq = Ok m /\
    (forall c, match last_for decl c with
       | Some (w, (x, y)) => exists ow ox oy, nget m (qz c) = Some (ow, (ox, oy)) /\ Number ow w /\ Number ox x /\ Number oy y
       | None => nget m (qz c) = None end) /\
    (forall q, (forall c, q <> qz c) -> nget m q = None).
Proof.
  intros seq decl H. destruct (widths2_entries seq decl H []) as (m & E & U & K). exists m. splits; [exact E| |].
  - intros c. specialize (U c). destruct (last_for decl c) as [[w [x y]]|]; [|exact U].
    destruct U as ([ow [ox oy]] & G & H1 & H2 & H3). exists ow, ox, oy. splits; assumption.
  - intros q Hq. rewrite (K q Hq). reflexivity.
Qed.

Section fonts.
  Context (getobj : Z -> option obj) (depth : nat).
  Context (glyphs : list Z -> option (list Z)) (bases : list umap)
          (metrics : list Z -> option (dict * list (list Z * num)))
          (load_cmap : list Z -> option (bool * list (Z * trie))) (load_umap : list Z -> bool -> option umap)
          (get_data : obj -> res (list Z)) (bufsiz : nat).
  Notation make_font := (make_font getobj depth glyphs bases metrics load_cmap load_umap get_data bufsiz).
  Notation cid_font := (cid_font getobj depth glyphs load_cmap load_umap get_data bufsiz).
  Notation type1_font := (type1_font getobj depth glyphs bases metrics get_data bufsiz).
  Notation get_font := (get_font getobj depth glyphs bases metrics load_cmap load_umap get_data bufsiz).

  Definition CID := ["CIDFontType0"; "CIDFontType2"]%string.
  Lemma make_cid fuel spec : subtype spec CID -> make_font fuel spec = cid_font spec.
  Proof. intros (n & Hn & E). destruct fuel; cbn [Font_Model.make_font]; unfold get_or; rewrite E; cbn in Hn; destruct Hn as [<-|[<-|[]]]; reflexivity. Qed.
  (* Type1, MMType1, TrueType, any other name, no Subtype *)
  Definition simple_type (spec : dict) : Prop :=
    dget spec "Subtype" = None \/ exists n, dget spec "Subtype" = Some (OName n) /\
      ~ In n (map bs ["Type0"; "Type3"; "CIDFontType0"; "CIDFontType2"]%string).
  Lemma make_simple fuel spec : simple_type spec -> make_font fuel spec = type1_font spec.
  Proof.
    intros [E|(n & E & Hn)]; [destruct fuel; cbn [Font_Model.make_font]; unfold get_or; rewrite E; reflexivity|].
    assert (HH : forall s, In s ["Type0"; "Type3"; "CIDFontType0"; "CIDFontType2"]%string -> list_eqb n (bs s) = false).
    { intros s Hs. destruct (list_eqb n (bs s)) eqn:F; [|reflexivity]. apply list_eqb_eq in F. exfalso. apply Hn. subst n. apply in_map. exact Hs. }
    destruct fuel; cbn [Font_Model.make_font]; unfold get_or; rewrite E; rewrite (HH "Type0"%string), (HH "Type3"%string), (HH "CIDFontType0"%string), (HH "CIDFontType2"%string) by (cbn; tauto); cbn [orb];
      (destruct (list_eqb n (bs "Type1") || list_eqb n (bs "MMType1") || list_eqb n (bs "TrueType")); reflexivity).
  Qed.

  (* what a CID font is made of *)
  Lemma cid_horizontal spec f : cid_font spec = Ok f -> is_vertical f = false ->
    exists seq d mw, list_value getobj depth (get_or spec "W" (OArr [])) = Ok seq /\ get_widths seq = Ok (pf_widths f) /\
      dict_value getobj depth (get_or spec "FontDescriptor" (ODict [])) = Ok d /\
      num_value getobj depth (get_or d "MissingWidth" (OInt 0)) = Ok mw /\ pf_chars f = [] /\ pf_hscale f = milli /\
      pf_default f = (if truthy_w (get_or spec "DW" (OInt 1000)) then get_or spec "DW" (OInt 1000) else mw).
  Proof.
    intros H V. unfold Font_Model.cid_font in H. steps.
    destruct (cmap_vertical a4) eqn:Ev.
    - exfalso. steps. assert (G : pf_cmap f = Some a4).
      { destruct (get_or spec "DW2" _); try discriminate. destruct l as [|x [|y [|z l]]]; try discriminate. unfold base_font in H. steps. subst f. reflexivity. }
      unfold is_vertical in V. rewrite G, Ev in V. discriminate.
    - steps. unfold base_font in H. steps. subst f. cbn [pf_widths pf_chars pf_hscale pf_default]. exists a8, a5, a12. splits; try assumption; reflexivity.
  Qed.
  Lemma cid_vertical spec f : cid_font spec = Ok f -> is_vertical f = true ->
    exists seq m vy w d mw, list_value getobj depth (get_or spec "W2" (OArr [])) = Ok seq /\ get_widths2 seq = Ok m /\
      get_or spec "DW2" (OArr [OInt 880; OInt (-1000)]) = OArr [vy; w] /\
      dict_value getobj depth (get_or spec "FontDescriptor" (ODict [])) = Ok d /\
      num_value getobj depth (get_or d "MissingWidth" (OInt 0)) = Ok mw /\
      pf_widths f = map (fun e => (fst e, fst (snd e))) m /\ pf_disps f = map (fun e => (fst e, snd (snd e))) m /\
      pf_chars f = [] /\ pf_hscale f = milli /\ pf_disp0 f = vy /\
      pf_default f = (if truthy_w w then w else mw).
  Proof.
    intros H V. unfold Font_Model.cid_font in H. steps.
    destruct (cmap_vertical a4) eqn:Ev.
    - steps. destruct (get_or spec "DW2" (OArr [OInt 880; OInt (-1000)])) eqn:ED; try discriminate. destruct l as [|x [|y [|z l]]]; try discriminate.
      unfold base_font in H. steps. subst f. cbn [pf_widths pf_chars pf_hscale pf_default pf_disps pf_disp0].
      exists a8, a9, x, y, a5, a12. splits; try assumption; reflexivity.
    - exfalso. steps. unfold base_font in H. steps. subst f. unfold is_vertical in V. cbn [pf_cmap] in V. congruence.
  Qed.
  Lemma number_nonzero o q : Number o q -> q <> qz 0 -> truthy_w o = true.
  Proof. intros H Hq. unfold truthy_w. rewrite (number_num _ _ H). destruct (qeqb q (qz 0)) eqn:E; [apply qeqb_iff in E; congruence|reflexivity]. Qed.
  Lemma number_zero o : Number o (qz 0) -> truthy_w o = false.
  Proof. intros H. unfold truthy_w. rewrite (number_num _ _ H). reflexivity. Qed.

  (* C43. A horizontal CID font: char_width is the width declared last in W, in thousandths; *)
  Theorem C43_cid_declared : forall fuel spec f seq decl, subtype spec CID -> make_font fuel spec = Ok f -> is_vertical f = false ->
    Value getobj spec "W" (OArr []) (OArr seq) -> Entries WEntry seq decl ->
    forall c w, last_for decl c = Some w -> char_width f c = Ok (w * milli)%Qc.
  Proof.
    intros fuel spec f seq decl HS HF HV HW HE c w Hc. rewrite make_cid in HF by assumption.
    destruct (cid_horizontal _ _ HF HV) as (seq' & d & mw & E1 & E2 & E3 & E4 & Ech & Esc & Edf).
    rewrite (value_list _ _ _ _ _ _ _ HW E1) in E2. destruct (C43_widths _ _ HE) as (m & Em & U & _). rewrite Em in E2. injection E2 as E2. subst m.
    specialize (U c). rewrite Hc in U. destruct U as (o & Eo & HN). unfold char_width. rewrite Eo. unfold scaled. rewrite (number_num _ _ HN), Esc. reflexivity.
  Qed.
  (* and for the others DW (1000 if absent), if that is not 0, *)
  Theorem C43_cid_default : forall fuel spec f seq decl q, subtype spec CID -> make_font fuel spec = Ok f -> is_vertical f = false ->
    Value getobj spec "W" (OArr []) (OArr seq) -> Entries WEntry seq decl ->
    (dget spec "DW" = None /\ q = qz 1000 \/ exists o, dget spec "DW" = Some o /\ Number o q /\ q <> qz 0) ->
    forall c, last_for decl c = None -> char_width f c = Ok (q * milli)%Qc.
  Proof.
    intros fuel spec f seq decl q HS HF HV HW HE HD c Hc. rewrite make_cid in HF by assumption.
    destruct (cid_horizontal _ _ HF HV) as (seq' & d & mw & E1 & E2 & E3 & E4 & Ech & Esc & Edf).
    rewrite (value_list _ _ _ _ _ _ _ HW E1) in E2. destruct (C43_widths _ _ HE) as (m & Em & U & _). rewrite Em in E2. injection E2 as E2. subst m.
    specialize (U c). rewrite Hc in U. unfold char_width. rewrite U, Ech. cbn [tfind].
    assert (EN : exists o, Number o q /\ pf_default f = o).
    { unfold get_or in Edf. destruct HD as [[ED ->]|(o & ED & HN & Hq)]; rewrite ED in Edf.
      - exists (OInt 1000). split; [constructor|]. rewrite Edf. reflexivity.
      - exists o. split; [assumption|]. rewrite Edf, (number_nonzero _ _ HN Hq). reflexivity. }
    destruct EN as (o & HN & ->). unfold scaled. rewrite (number_num _ _ HN), Esc. destruct (to_unichr f c); reflexivity.
  Qed.
  (* and MissingWidth if DW is 0: the full claim (the width is DW whatever DW is) fails, see C43_zero_refuted *)
  Theorem C43_cid_zero_partial : forall fuel spec f seq decl o q, subtype spec CID -> make_font fuel spec = Ok f -> is_vertical f = false ->
    Value getobj spec "W" (OArr []) (OArr seq) -> Entries WEntry seq decl ->
    dget spec "DW" = Some o -> Number o (qz 0) -> Missing getobj spec q ->
    forall c, last_for decl c = None -> char_width f c = Ok (q * milli)%Qc.
  Proof.
    intros fuel spec f seq decl o q HS HF HV HW HE HD HZ HM c Hc. rewrite make_cid in HF by assumption.
    destruct (cid_horizontal _ _ HF HV) as (seq' & d' & mw & E1 & E2 & E3 & E4 & Ech & Esc & Edf).
    rewrite (value_list _ _ _ _ _ _ _ HW E1) in E2. destruct (C43_widths _ _ HE) as (m & Em & U & _). rewrite Em in E2. injection E2 as E2. subst m.
    pose proof (missing_num _ _ _ _ _ _ _ HM E3 E4) as HN.
    specialize (U c). rewrite Hc in U. unfold char_width. rewrite U, Ech. cbn [tfind].
    unfold get_or in Edf. rewrite HD, (number_zero _ HZ) in Edf. unfold scaled. rewrite Edf, HN, Esc. destruct (to_unichr f c); reflexivity.
  Qed.

  (* C43, vertical fonts: W2 gives displacement and position vector; DW2 [vy w] (880 -1000 if absent) to the others *)
  Theorem C43_vertical_declared : forall fuel spec f seq decl, subtype spec CID -> make_font fuel spec = Ok f -> is_vertical f = true ->
    Value getobj spec "W2" (OArr []) (OArr seq) -> Entries W2Entry seq decl ->
    forall c w x y, last_for decl c = Some (w, (x, y)) -> char_width f c = Ok (w * milli)%Qc /\
      exists ox oy, char_disp f c = (Some ox, oy) /\ Number ox x /\ Number oy y.
  Proof.
    intros fuel spec f seq decl HS HF HV HW HE c w x y Hc. rewrite make_cid in HF by assumption.
    destruct (cid_vertical _ _ HF HV) as (seq' & m' & vy & w0 & d & mw & E1 & E2 & E3 & E4 & E5 & Ew & Ed & Ech & Esc & E0 & Edf).
    rewrite (value_list _ _ _ _ _ _ _ HW E1) in E2. destruct (C43_widths_vertical _ _ HE) as (m & Em & U & _). rewrite Em in E2. injection E2 as E2. subst m.
    specialize (U c). rewrite Hc in U. destruct U as (ow & ox & oy & Eo & Hw & Hx & Hy).
    assert (Ew' : nget (pf_widths f) (qz c) = Some ow) by (rewrite Ew, (nget_map fst), Eo; reflexivity).
    assert (Ed' : nget (pf_disps f) (qz c) = Some (ox, oy)) by (rewrite Ed, (nget_map snd), Eo; reflexivity).
    unfold char_width, char_disp, scaled. rewrite Ew', Ed', (number_num _ _ Hw), Esc. split; [reflexivity|]. exists ox, oy. splits; [reflexivity|assumption|assumption].
  Qed.
  Theorem C43_vertical_default : forall fuel spec f seq decl vy w, subtype spec CID -> make_font fuel spec = Ok f -> is_vertical f = true ->
    Value getobj spec "W2" (OArr []) (OArr seq) -> Entries W2Entry seq decl ->
    (dget spec "DW2" = None /\ vy = qz 880 /\ w = qz (-1000) \/
     exists oy ow, dget spec "DW2" = Some (OArr [oy; ow]) /\ Number oy vy /\ Number ow w /\ w <> qz 0) ->
    forall c, last_for decl c = None -> char_width f c = Ok (w * milli)%Qc /\
      exists oy, char_disp f c = (None, oy) /\ Number oy vy.
  Proof.
    intros fuel spec f seq decl vy w HS HF HV HW HE HD c Hc. rewrite make_cid in HF by assumption.
    destruct (cid_vertical _ _ HF HV) as (seq' & m' & vy0 & w0 & d & mw & E1 & E2 & E3 & E4 & E5 & Ew & Ed & Ech & Esc & E0 & Edf).
    rewrite (value_list _ _ _ _ _ _ _ HW E1) in E2. destruct (C43_widths_vertical _ _ HE) as (m & Em & U & _). rewrite Em in E2. injection E2 as E2. subst m.
    specialize (U c). rewrite Hc in U.
    assert (Ew' : nget (pf_widths f) (qz c) = None) by (rewrite Ew, (nget_map fst), U; reflexivity).
    assert (Ed' : nget (pf_disps f) (qz c) = None) by (rewrite Ed, (nget_map snd), U; reflexivity).
    unfold char_width, char_disp. rewrite Ew', Ed', Ech. cbn [tfind].
    assert (EN : Number w0 w /\ pf_default f = w0 /\ Number vy0 vy).
    { unfold get_or in E3. destruct HD as [(ED & -> & ->)|(oy & ow & ED & Hy & Hw & Hq)]; rewrite ED in E3; injection E3 as <- <-.
      - splits; [constructor|exact Edf|constructor].
      - splits; [assumption| |assumption]. rewrite Edf, (number_nonzero _ _ Hw Hq). reflexivity. }
    destruct EN as (HN & Ef & Hy). split.
    - unfold scaled. rewrite Ef, (number_num _ _ HN), Esc. destruct (to_unichr f c); reflexivity.
    - exists (pf_disp0 f). split; [reflexivity|]. rewrite E0. assumption.
  Qed.

  (* C43, simple fonts without built-in metrics: Widths from FirstChar on, MissingWidth elsewhere *)
  Lemma type1_parts spec f : type1_font spec = Ok f ->
    (forall n, dget spec "BaseFont" = Some (OName n) -> metrics n = None) -> (dget spec "BaseFont" = None -> metrics (bs "unknown") = None) ->
    exists fc ws d mw, Stream_Model.int_value getobj depth (get_or spec "FirstChar" (OInt 0)) = Ok fc /\
      list_value getobj depth (get_or spec "Widths" (OArr (repeat (OInt 0) 256))) = Ok ws /\
      dict_value getobj depth (get_or spec "FontDescriptor" (ODict [])) = Ok d /\
      num_value getobj depth (get_or d "MissingWidth" (OInt 0)) = Ok mw /\
      pf_widths f = put_list [] (qz fc) ws /\ pf_chars f = [] /\ pf_hscale f = milli /\ pf_default f = mw.
  Proof.
    intros H M1 M2. unfold Font_Model.type1_font in H. steps.
    assert (EM : match a with Some n => metrics n | None => None end = None).
    { destruct (dget spec "BaseFont") as [o|]; [destruct o; try discriminate; injection E as <-; try reflexivity; apply M1; reflexivity|].
      injection E as <-. apply M2; reflexivity. }
    rewrite EM in E0. 
    destruct (dict_value getobj depth (get_or spec "FontDescriptor" (ODict []))) as [d|] eqn:HD; [|discriminate E0]. cbn [bind] in E0.
    destruct (spec_widths getobj depth spec) as [w|] eqn:HW; [|discriminate E0]. cbn [bind] in E0. injection E0 as E0. subst a0. cbn [bind] in H.
    unfold spec_widths in HW.
    destruct (Stream_Model.int_value getobj depth _) as [fc|] eqn:HFC; [|discriminate HW]. cbn [bind] in HW.
    destruct (list_value getobj depth _) as [ws|] eqn:HL; [|discriminate HW]. cbn [bind] in HW. injection HW as HW. subst w.
    destruct (simple_font _ _ _ _ _ _ _ _ _ _) as [f0|] eqn:HF; [|discriminate H]. cbn [bind] in H.
    unfold simple_font, base_font in HF. steps.
    match goal with HH : num_value getobj depth (get_or d "MissingWidth" (OInt 0)) = Ok ?x |- _ => exists fc, ws, d, x end.
    assert (G : pf_widths f = pf_widths f0 /\ pf_chars f = pf_chars f0 /\ pf_hscale f = pf_hscale f0 /\ pf_default f = pf_default f0).
    { destruct (dget spec "Encoding"), (dget d "FontFile"); steps; subst f; splits; reflexivity. }
    destruct G as (G1 & G2 & G3 & G4). rewrite G1, G2, G3, G4. subst f0. splits; try assumption; reflexivity.
  Qed.
  Theorem C43_simple : forall fuel spec f fc ws qs mw, simple_type spec -> make_font fuel spec = Ok f ->
    (forall n, dget spec "BaseFont" = Some (OName n) -> metrics n = None) -> (dget spec "BaseFont" = None -> metrics (bs "unknown") = None) ->
    Value getobj spec "FirstChar" (OInt 0) (OInt fc) -> Value getobj spec "Widths" (OArr (repeat (OInt 0) 256)) (OArr ws) -> Forall2 Number ws qs ->
    Missing getobj spec mw ->
    forall c, char_width f c = Ok ((match last_for (combine (codes fc (length qs)) qs) c with Some q => q | None => mw end) * milli)%Qc.
  Proof.
    intros fuel spec f fc ws qs mw HS HF M1 M2 HFC HW HQ HM c. rewrite make_simple in HF by assumption.
    destruct (type1_parts _ _ HF M1 M2) as (fc' & ws' & d' & mw' & E1 & E2 & E3 & E4 & Ew & Ech & Esc & Edf).
    apply (value_int _ _ _ _ _ _ _ HFC) in E1. apply (value_list _ _ _ _ _ _ _ HW) in E2. subst fc' ws'.
    pose proof (missing_num _ _ _ _ _ _ _ HM E3 E4) as HN.
    destruct (put_list_upd Number ws qs HQ [] fc) as [U _]. rewrite <- Ew in U. specialize (U c). unfold char_width.
    destruct (last_for (combine (codes fc (length qs)) qs) c) as [q|].
    - destruct U as (o & -> & Ho). unfold scaled. rewrite (number_num _ _ Ho), Esc. reflexivity.
    - rewrite U. cbn [nget]. rewrite Ech. cbn [tfind]. unfold scaled. rewrite Edf, HN, Esc. destruct (to_unichr f c); reflexivity.
  Qed.
  (* the 14 standard fonts: the width of a code is the built-in width of its character *)
  Theorem C43_standard : forall fuel spec f n d cw, simple_type spec -> make_font fuel spec = Ok f ->
    dget spec "BaseFont" = Some (OName n) -> metrics n = Some (d, cw) ->
    forall c t w, to_unichr f c = Some t -> tfind cw t = Some w -> char_width f c = Ok (w * milli)%Qc.
  Proof.
    intros fuel spec f n d cw HS HF HB HM c t w Ht Hw. rewrite make_simple in HF by assumption.
    unfold Font_Model.type1_font in HF. rewrite HB in HF. cbn [bind] in HF. rewrite HM in HF. cbn [bind] in HF. steps.
    assert (G : pf_widths f = [] /\ pf_chars f = cw /\ pf_hscale f = milli).
    { unfold simple_font, base_font in E. steps. destruct (dget spec "Encoding"), (dget d "FontFile"); steps; subst; splits; reflexivity. }
    destruct G as (G1 & G2 & G3). unfold char_width. rewrite G1. cbn [nget]. rewrite Ht, G2, Hw, G3. reflexivity.
  Qed.
  (* Type 3 fonts: glyph space is scaled by the first element of FontMatrix if that does not skew *)
  Theorem C43_type3_partial : forall fuel spec f fc ws qs a b d e g m, dget spec "Subtype" = Some (ON "Type3") -> make_font fuel spec = Ok f ->
    Value getobj spec "FirstChar" (OInt 0) (OInt fc) -> Value getobj spec "Widths" (OArr (repeat (OInt 0) 256)) (OArr ws) -> Forall2 Number ws qs ->
    Value getobj spec "FontMatrix" ONull (OArr m) -> Forall2 Number m [a; b; qz 0; d; e; g] ->
    forall c q, last_for (combine (codes fc (length qs)) qs) c = Some q -> char_width f c = Ok (q * a)%Qc.
  Proof.
    intros fuel spec f fc ws qs a b d e g m HS HF HFC HW HQ HM HN c q Hq.
    assert (HF' : type3_font getobj depth glyphs bases get_data bufsiz spec = Ok f).
    { destruct fuel; cbn [Font_Model.make_font] in HF; unfold get_or in HF; rewrite HS in HF; exact HF. }
    clear HF. unfold type3_font in HF'. destruct (spec_widths getobj depth spec) as [w|] eqn:EW; [|discriminate]. cbn [bind] in HF'. 
    unfold spec_widths in EW.
    destruct (Stream_Model.int_value getobj depth _) as [fc'|] eqn:HFC'; [|discriminate EW]. cbn [bind] in EW.
    destruct (list_value getobj depth _) as [ws'|] eqn:HL; [|discriminate EW]. cbn [bind] in EW. injection EW as EW. subst w.
    apply (value_int _ _ _ _ _ _ _ HFC) in HFC'. apply (value_list _ _ _ _ _ _ _ HW) in HL. subst fc' ws'.
    destruct (match dget spec "FontDescriptor" with Some o => _ | None => _ end) as [dd|]; [|discriminate HF']. cbn [bind] in HF'.
    destruct (simple_font _ _ _ _ _ _ _ _ _ _) as [f0|] eqn:HF; [|discriminate HF']. cbn [bind] in HF'.
    destruct (list_value getobj depth (get_or spec "FontMatrix" ONull)) as [m'|] eqn:HMM; [|discriminate HF']. cbn [bind] in HF'.
    assert (EM : m' = m).
    { inversion HM as [H0 H1|o v H0 H1]; subst. unfold get_or in HMM. rewrite H0 in HMM. exact (list_value_leads _ _ _ _ _ H1 HMM). }
    subst m'. destruct (pf_bbox f0) as [|b0 [|b1 [|b2 [|b3 [|b4 bb]]]]]; try discriminate.
    do 7 match goal with HN : Forall2 Number _ (_ :: _) |- _ => inversion HN; clear HN; subst | HN : Forall2 Number _ [] |- _ => inversion HN; clear HN; subst end.
    repeat match goal with HN : Number _ _ |- _ => apply number_num in HN end.
    cbn [nums] in HF'. repeat match goal with HN : nof _ = Some _ |- _ => rewrite HN in HF'; clear HN end. injection HF' as <-.
    destruct (put_list_upd Number ws qs HQ [] fc) as [U _]. specialize (U c). rewrite Hq in U. destruct U as (o & Eo & HN).
    assert (EW : pf_widths f0 = put_list [] (qz fc) ws) by (unfold simple_font, base_font in HF; steps; subst f0; reflexivity).
    unfold char_width. cbn [pf_widths pf_hscale]. rewrite EW, Eo. unfold scaled. rewrite (number_num _ _ HN). f_equal.
    replace (a + qz 0)%Qc with a; [reflexivity|]. symmetry. apply Qcplus_0_r.
  Qed.

  (* ---------- C68 ---------- *)
  (* the assignments of the font's ToUnicode stream, none if it has no such stream *)
  Inductive ToUnicodeOf (spec : dict) : list (Z * list Z) -> Prop :=
  | TU_none : dget spec "ToUnicode" = None -> ToUnicodeOf spec []
  | TU_stream : forall o a r text exact ts asg, dget spec "ToUnicode" = Some o -> Leads getobj ONull o (OStream a r) ->
      get_data (OStream a r) = Ok text -> Layout exact 0 ts text -> Program [] (map snd ts) asg -> ToUnicodeOf spec asg.
  (* a base encoding by name: unknown names are StandardEncoding (C44_base) *)
  Definition base (n : list Z) (c : Z) : option (list Z) := iget (nth (base_addr n) bases []) c.
  (* the characters of the font's encoding *)
  Inductive EncodingOf (spec : dict) : (Z -> option (list Z)) -> Prop :=
  | EN_name : forall n, Value getobj spec "Encoding" (ON "StandardEncoding") (OName n) -> EncodingOf spec (base n)
  | EN_dict : forall o d n diff l, dget spec "Encoding" = Some o -> Leads getobj ONull o (ODict d) ->
      (dget d "BaseEncoding" = Some (OName n) \/ dget d "BaseEncoding" = None /\ n = bs "StandardEncoding") ->
      Value getobj d "Differences" (OArr []) (OArr diff) -> differences diff -> Texts glyphs (declared 0 diff) l ->
      EncodingOf spec (fun c => match last_for l c with Some t => Some t | None => base n c end).

  Lemma to_unicode_lemma spec asg um : (0 < bufsiz)%nat -> ToUnicodeOf spec asg -> to_unicode getobj depth glyphs get_data bufsiz spec = Ok um ->
    forall c, match um with Some m => iget m c | None => None end = last_for asg c.
  Proof.
    intros Hb H E c. unfold to_unicode in E. destruct H as [H|o a r text exact ts asg H HL HG HT HP]; rewrite H in E.
    - injection E as <-. reflexivity.
    - unfold stream_of in E. destruct (resolved getobj depth o) as [x|] eqn:F; [|discriminate]. cbn [bind] in E.
      apply (resolved_leads _ _ _ _ _ HL) in F. subst x. rewrite HG in E. cbn [bind] in E.
      destruct (C46_tounicode_partial glyphs bufsiz exact ts text asg Hb HT HP) as (m & Em & U). rewrite Em in E. injection E as <-. apply U.
  Qed.
  Lemma encoding_lemma spec e enc : EncodingOf spec e -> simple_encoding getobj depth glyphs bases spec = Ok enc -> forall c, iget enc c = e c.
  Proof.
    intros H E c. unfold simple_encoding in E.
    destruct (resolved getobj depth (get_or spec "Encoding" (ON "StandardEncoding"))) as [x|] eqn:F; [|discriminate]. cbn [bind] in E.
    destruct H as [n H|o d n diff l H HL HB HV HD HT].
    - assert (Hx : x = OName n).
      { destruct H as [H|o v H HL]; unfold get_or in F; rewrite H in F.
        - unfold resolved in F. destruct depth; cbn in F; [discriminate|]. congruence.
        - exact (resolved_leads _ _ _ _ _ HL F). }
      subst x. cbn [name_of bind] in E. injection E as <-. reflexivity.
    - unfold get_or in F. rewrite H in F. apply (resolved_leads _ _ _ _ _ HL) in F. subst x.
      assert (EN : name_of (get_or d "BaseEncoding" (ON "StandardEncoding")) = Ok n).
      { unfold get_or. destruct HB as [HB|[HB ->]]; rewrite HB; reflexivity. }
      rewrite EN in E. cbn [bind] in E.
      destruct (list_value getobj depth (get_or d "Differences" (OArr []))) as [diff'|] eqn:EL; [|discriminate]. cbn [bind] in E.
      apply (value_list _ _ _ _ _ _ _ HV) in EL. subst diff'.
      destruct diff as [|o1 diff].
      + cbn [declared] in HT. inversion HT; subst. cbn in E. injection E as <-. reflexivity.
      + destruct (C44_differences_partial glyphs bases n (o1 :: diff) l) as (a & h & Eg & _ & _ & U); [discriminate|assumption|assumption|].
        rewrite Eg in E. cbn [bind] in E. injection E as <-. apply U.
  Qed.
  Lemma simple_font_parts d w cw spec f : simple_font getobj depth glyphs bases get_data bufsiz d w cw spec = Ok f ->
    exists enc um, simple_encoding getobj depth glyphs bases spec = Ok enc /\ to_unicode getobj depth glyphs get_data bufsiz spec = Ok um /\
      pf_enc f = Some enc /\ pf_umap f = um /\ pf_cmap f = None.
  Proof. intros H. unfold simple_font, base_font in H. steps. subst f. exists a, a0. splits; reflexivity. Qed.

  Lemma type1_enc spec f : type1_font spec = Ok f ->
    (dget spec "Encoding" <> None \/ forall d, Value getobj spec "FontDescriptor" (ODict []) d -> forall d', d = ODict d' -> dget d' "FontFile" = None) ->
    (forall n, dget spec "BaseFont" = Some (OName n) -> metrics n = None) -> (dget spec "BaseFont" = None -> metrics (bs "unknown") = None) ->
    exists enc um, simple_encoding getobj depth glyphs bases spec = Ok enc /\ to_unicode getobj depth glyphs get_data bufsiz spec = Ok um /\
      pf_enc f = Some enc /\ pf_umap f = um.
  Proof.
    intros HF HP M1 M2. unfold Font_Model.type1_font in HF. steps.
    assert (EM : match a with Some n => metrics n | None => None end = None).
    { destruct (dget spec "BaseFont") as [o|]; [destruct o; try discriminate; injection E as <-; try reflexivity; apply M1; reflexivity|].
      injection E as <-. apply M2; reflexivity. }
    rewrite EM in E0.
    destruct (dict_value getobj depth (get_or spec "FontDescriptor" (ODict []))) as [d|] eqn:HD; [|discriminate E0]. cbn [bind] in E0.
    destruct (spec_widths getobj depth spec) as [w|] eqn:HW; [|discriminate E0]. cbn [bind] in E0. injection E0 as E0. subst a0. cbn [bind] in HF.
    destruct (simple_font _ _ _ _ _ _ _ _ _ _) as [f0|] eqn:HF0; [|discriminate HF]. cbn [bind] in HF.
    destruct (simple_font_parts _ _ _ _ _ HF0) as (enc & um & P1 & P2 & P3 & P4 & _).
    assert (Ef : f = f0).
    { destruct (dget spec "Encoding") eqn:EE; [injection HF as <-; reflexivity|]. destruct (dget d "FontFile") eqn:EF; [|injection HF as <-; reflexivity].
      exfalso. destruct HP as [HP|HP]; [congruence|].
      unfold dict_value in HD. destruct (resolved getobj depth (get_or spec "FontDescriptor" (ODict []))) as [x|] eqn:ER; [|discriminate]. cbn [bind] in HD.
      destruct x as [| | | | | | | |dd| |]; injection HD as <-; try discriminate EF.
      assert (V : Value getobj spec "FontDescriptor" (ODict []) (ODict dd)).
      { unfold get_or in ER. destruct (dget spec "FontDescriptor") as [o1|] eqn:EFD.
        - eapply V_present; [exact EFD|]. apply C59_resolve1. unfold resolved in ER. exists depth. intros g.
          destruct (resolve1 getobj depth ONull o1) as [y|] eqn:ER1; [|discriminate]. injection ER as ->.
          apply (resolve1_more getobj ONull depth); [assumption|lia].
        - unfold resolved in ER. destruct depth; cbn in ER; [discriminate|]. injection ER as <-. apply V_absent. assumption. }
      rewrite (HP _ V dd eq_refl) in EF. discriminate. }
    subst f0. exists enc, um. splits; assumption.
  Qed.
  (* C68. A simple font (Type1, MMType1, TrueType, Type3, ...): the character of a code is the one its ToUnicode stream assigns to it,
     else the one its encoding gives it, else undefined.  A font program is only consulted if Encoding is absent. *)
  Theorem C68_simple_partial : forall fuel spec f asg e, (0 < bufsiz)%nat -> simple_type spec \/ dget spec "Subtype" = Some (ON "Type3") ->
    make_font fuel spec = Ok f -> ToUnicodeOf spec asg -> EncodingOf spec e ->
    (dget spec "Encoding" <> None \/ dget spec "Subtype" = Some (ON "Type3") \/
     forall d, Value getobj spec "FontDescriptor" (ODict []) d -> forall d', d = ODict d' -> dget d' "FontFile" = None) ->
    (forall n, dget spec "BaseFont" = Some (OName n) -> metrics n = None) -> (dget spec "BaseFont" = None -> metrics (bs "unknown") = None) ->
    forall c, to_unichr f c = match last_for asg c with Some t => Some t | None => e c end.
  Proof.
    intros fuel spec f asg e Hb HS HF HU HE HP M1 M2 c.
    assert (G : exists enc um, simple_encoding getobj depth glyphs bases spec = Ok enc /\ to_unicode getobj depth glyphs get_data bufsiz spec = Ok um /\
      pf_enc f = Some enc /\ pf_umap f = um).
    { destruct (dget spec "Subtype") as [st|] eqn:ES; [destruct (match st with OName n => list_eqb n (bs "Type3") | _ => false end) eqn:E3|].
      - destruct st as [| | | | |n| | | | |]; try discriminate. apply list_eqb_eq in E3. subst n.
        assert (HF' : type3_font getobj depth glyphs bases get_data bufsiz spec = Ok f).
        { destruct fuel; cbn [Font_Model.make_font] in HF; unfold get_or in HF; rewrite ES in HF; exact HF. }
        clear HF. unfold type3_font in HF'.
        destruct (spec_widths getobj depth spec) as [w|]; [|discriminate]. cbn [bind] in HF'.
        destruct (match dget spec "FontDescriptor" with Some o => _ | None => _ end) as [dd|]; [|discriminate HF']. cbn [bind] in HF'.
        destruct (simple_font _ _ _ _ _ _ _ _ _ _) as [f0|] eqn:HF0; [|discriminate HF']. cbn [bind] in HF'.
        destruct (list_value getobj depth (get_or spec "FontMatrix" ONull)) as [m'|]; [|discriminate HF']. cbn [bind] in HF'.
        destruct (simple_font_parts _ _ _ _ _ HF0) as (enc & um & P1 & P2 & P3 & P4 & _).
        exists enc, um. splits; [assumption|assumption| |];
          (destruct (pf_bbox f0) as [|b0 [|b1 [|b2 [|b3 [|b4 bb]]]]]; try discriminate HF';
           destruct m' as [|? [|? [|? [|? [|? [|? [|? ?]]]]]]]; try discriminate HF';
           destruct (nums _) as [[|? [|? [|? [|? [|? [|? [|? ?]]]]]]]|]; try discriminate HF'; injection HF' as <-; assumption).
      - destruct HS as [HS|HS]; [|injection HS as ->; discriminate E3]. rewrite make_simple in HF by assumption.
        apply (type1_enc _ _ HF); try assumption. destruct HP as [HP|[HP|HP]]; [left; exact HP|injection HP as ->; discriminate E3|right; exact HP].
      - destruct HS as [HS|HS]; [|discriminate]. rewrite make_simple in HF by assumption.
        apply (type1_enc _ _ HF); try assumption. destruct HP as [HP|[HP|HP]]; [left; exact HP|discriminate HP|right; exact HP]. }
    destruct G as (enc & um & G1 & G2 & G3 & G4). unfold to_unichr. rewrite G3, G4.
    rewrite (to_unicode_lemma _ _ _ Hb HU G2), (encoding_lemma _ _ _ HE G1). reflexivity.
  Qed.
  (* A CID font: the character the ToUnicode stream assigns to the CID, and otherwise undefined *)
  Theorem C68_cid_partial : forall fuel spec f asg, (0 < bufsiz)%nat -> subtype spec CID -> make_font fuel spec = Ok f ->
    dget spec "ToUnicode" <> None -> ToUnicodeOf spec asg -> forall c, to_unichr f c = last_for asg c.
  Proof.
    intros fuel spec f asg Hb HS HF HT HU c. rewrite make_cid in HF by assumption. unfold Font_Model.cid_font in HF.
    destruct (dget spec "ToUnicode") as [o|] eqn:EO; [|congruence].
    destruct (to_unicode getobj depth glyphs get_data bufsiz spec) as [um|] eqn:EU.
    - assert (G : pf_umap f = um /\ pf_enc f = None).
      { steps. destruct (cmap_vertical a4); steps.
        - destruct (get_or spec "DW2" _); try discriminate. destruct l as [|x [|y [|z l]]]; try discriminate. unfold base_font in HF. steps. subst f. split; reflexivity.
        - unfold base_font in HF. steps. subst f. split; reflexivity. }
      destruct G as [G1 G2]. unfold to_unichr. rewrite G1, G2, (to_unicode_lemma _ _ _ Hb HU EU). destruct (last_for asg c); reflexivity.
    - exfalso. steps. discriminate HF.
  Qed.

  (* ---------- C69 ---------- *)
  (* A history of requests for fonts, threading the cache; an exception ends the reading of the page, the cache stays *)
  Fixpoint history (fuel : nat) (cache : imap pfont) (os : list obj) : list (res pfont) * imap pfont :=
    match os with
    | [] => ([], cache)
    | o :: r => match get_font fuel cache o with
                | Ok (f, c) => let (fs, c') := history fuel c r in (Ok f :: fs, c')
                | Err e => let (fs, c') := history fuel cache r in (Err e :: fs, c')
                end
    end.
  (* what the font is without a cache *)
  Definition fresh (fuel : nat) (o : obj) : res pfont := do spec <- dict_value getobj depth o; make_font fuel spec.
  (* C69. Over every history of requests, starting with an empty cache, each request gets the font (or the exception) it would get
     if the font were built afresh. *)
  Theorem C69_cache : forall fuel os, fst (history fuel [] os) = map (fresh fuel) os.
  Proof.
    intros fuel os.
    assert (G : forall os cache, (forall i f, iget cache i = Some f -> fresh fuel (ORef i) = Ok f) -> fst (history fuel cache os) = map (fresh fuel) os).
    { clear os. induction os as [|o os IH]; intros cache HC; [reflexivity|]. cbn [history map].
      unfold Font_Model.get_font, fresh at 1. destruct (dict_value getobj depth o) as [spec|e] eqn:ED; cbn [bind].
      - destruct (match match o with ORef i => if i =? 0 then None else Some i | _ => None end with Some i => iget cache i | None => None end) as [f|] eqn:EC.
        + assert (EF : make_font fuel spec = Ok f).
          { destruct o as [| | | | | | | | |j|]; try discriminate. destruct (j =? 0); [discriminate|]. apply HC in EC. unfold fresh in EC. rewrite ED in EC. exact EC. }
          specialize (IH cache HC). destruct (history fuel cache os) as [fs c']. cbn [fst] in *. rewrite IH, EF. reflexivity.
        + destruct (make_font fuel spec) as [f|e] eqn:EF; cbn [bind].
          * match goal with |- context [history fuel ?c os] => assert (HC' : forall i g, iget c i = Some g -> fresh fuel (ORef i) = Ok g) end.
            { intros i g. destruct o as [| | | | | | | | |j|]; try exact (HC i g). destruct (j =? 0); [exact (HC i g)|].
              rewrite iget_iput. destruct (j =? i) eqn:EJ; [|exact (HC i g)]. apply Z.eqb_eq in EJ. subst j. intros X. injection X as <-.
              unfold fresh. rewrite ED. exact EF. }
            specialize (IH _ HC'). match goal with |- context [history fuel ?c os] => destruct (history fuel c os) as [fs c'] end. cbn [fst] in *. rewrite IH. reflexivity.
          * specialize (IH cache HC). destruct (history fuel cache os) as [fs c']. cbn [fst] in *. rewrite IH. reflexivity.
      - specialize (IH cache HC). destruct (history fuel cache os) as [fs c']. cbn [fst] in *. rewrite IH. reflexivity. }
    apply G. intros i f H. discriminate H.
  Qed.

  (* ---------- C71 ---------- *)
  (* the descendant's dictionary with Encoding and ToUnicode of the Type0 font *)
  Definition merged (spec sub sub' : dict) : Prop :=
    (forall k, In k ["Encoding"; "ToUnicode"]%string ->
       match dget spec k with
       | Some o => exists v, Leads getobj ONull o v /\ dget sub' k = Some v
       | None => dget sub' k = dget sub k
       end) /\
    (forall k, k <> bs "Encoding" -> k <> bs "ToUnicode" -> dict_get sub' (OName k) = dict_get sub (OName k)).
  Lemma resolved_leads2 o v : resolved getobj depth o = Ok v -> Leads getobj ONull o v.
  Proof.
    intros H. apply C59_resolve1. unfold resolved in H. exists depth. intros g.
    destruct (resolve1 getobj depth ONull o) as [y|] eqn:E; [|discriminate]. injection H as ->. apply (resolve1_more getobj ONull depth); [assumption|lia].
  Qed.
  Lemma key_ne a b : a <> b -> key_eqb (OName a) (OName b) = false.
  Proof. intros H. cbn [key_eqb]. destruct (list_eqb a b) eqn:E; [apply list_eqb_eq in E; congruence|reflexivity]. Qed.
  (* C71. A Type0 font is its descendant, with Encoding and ToUnicode taken from the Type0 font where it has them. *)
  Theorem C71_composite_partial : forall fuel spec f l x sub, dget spec "Subtype" = Some (ON "Type0") -> make_font (S fuel) spec = Ok f ->
    Value getobj spec "DescendantFonts" ONull (OArr (x :: l)) -> Leads getobj ONull x (ODict sub) ->
    exists sub', merged spec sub sub' /\ make_font fuel sub' = Ok f.
  Proof.
    intros fuel spec f l x sub HS HF HD HX. cbn [Font_Model.make_font] in HF. unfold get_or in HF. rewrite HS in HF.
    cbn [ON] in HF. change (list_eqb (bs "Type0") (bs "Type0")) with true in HF.
    change (list_eqb (bs "Type0") (bs "Type1")) with false in HF. change (list_eqb (bs "Type0") (bs "MMType1")) with false in HF.
    change (list_eqb (bs "Type0") (bs "TrueType")) with false in HF. change (list_eqb (bs "Type0") (bs "Type3")) with false in HF.
    change (list_eqb (bs "Type0") (bs "CIDFontType0")) with false in HF. change (list_eqb (bs "Type0") (bs "CIDFontType2")) with false in HF.
    cbn [orb] in HF. inversion HD as [|o v HDD HDL]; subst. rewrite HDD in HF.
    destruct (list_value getobj depth o) as [ls|] eqn:EL; [|discriminate]. cbn [bind] in HF. apply (list_value_leads _ _ _ _ _ HDL) in EL. subst ls.
    destruct (dict_value getobj depth x) as [s0|] eqn:EX; [|discriminate]. cbn [bind] in HF. apply (dict_value_leads _ _ _ _ _ HX) in EX. subst s0.
    destruct (dget spec "Encoding") as [oe|] eqn:EE.
    - destruct (resolved getobj depth oe) as [ve|] eqn:RE; [|discriminate]. cbn [bind] in HF. apply resolved_leads2 in RE.
      destruct (dget spec "ToUnicode") as [ot|] eqn:ET.
      + destruct (resolved getobj depth ot) as [vt|] eqn:RT; [|discriminate]. cbn [bind] in HF. apply resolved_leads2 in RT.
        eexists. split; [|exact HF]. split.
        * intros k [<-|[<-|[]]]; rewrite ?EE, ?ET; [exists ve|exists vt]; (split; [assumption|]); unfold dget.
          -- rewrite dict_get_set_other by reflexivity. apply dict_get_set_same. reflexivity.
          -- apply dict_get_set_same. reflexivity.
        * intros k K1 K2. unfold ON. rewrite !dict_get_set_other by (apply key_ne; congruence). reflexivity.
      + cbn [bind] in HF. eexists. split; [|exact HF]. split.
        * intros k [<-|[<-|[]]]; rewrite ?EE, ?ET.
          -- exists ve. split; [assumption|]. apply dict_get_set_same. reflexivity.
          -- unfold dget. rewrite dict_get_set_other by reflexivity. reflexivity.
        * intros k K1 K2. unfold ON. rewrite !dict_get_set_other by (apply key_ne; congruence). reflexivity.
    - cbn [bind] in HF. destruct (dget spec "ToUnicode") as [ot|] eqn:ET.
      + destruct (resolved getobj depth ot) as [vt|] eqn:RT; [|discriminate]. cbn [bind] in HF. apply resolved_leads2 in RT.
        eexists. split; [|exact HF]. split.
        * intros k [<-|[<-|[]]]; rewrite ?EE, ?ET.
          -- unfold dget. rewrite dict_get_set_other by reflexivity. reflexivity.
          -- exists vt. split; [assumption|]. apply dict_get_set_same. reflexivity.
        * intros k K1 K2. unfold ON. rewrite !dict_get_set_other by (apply key_ne; congruence). reflexivity.
      + cbn [bind] in HF. exists sub. split; [|exact HF]. split; [|reflexivity]. intros k [<-|[<-|[]]]; rewrite ?EE, ?ET; reflexivity.
  Qed.
  (* which codes: a CID font decodes with the CMap its Encoding names *)
  Theorem C71_decode : forall fuel spec f n, subtype spec CID -> make_font fuel spec = Ok f -> dget spec "Encoding" = Some (OName n) ->
    (n = bs "Identity-H" -> is_vertical f = false /\ forall s, decode f s = identity_decode s) /\
    (n = bs "Identity-V" -> is_vertical f = true /\ forall s, decode f s = identity_decode s) /\
    (forall v root, n <> bs "Identity-H" -> n <> bs "Identity-V" -> load_cmap (filter (fun c => negb (c =? 0)) n) = Some (v, root) ->
       is_vertical f = v /\ forall s, decode f s = Ok (cmap_decode root root s)).
  Proof.
    intros fuel spec f n HS HF HE. rewrite make_cid in HF by assumption.
    assert (G : exists cm, match get_cmap load_cmap (OName n) with Err CMapNotFound => Ok (CTable false []) | x => x end = Ok cm /\ pf_cmap f = Some cm).
    { unfold Font_Model.cid_font in HF. steps. match goal with H : context [get_cmap load_cmap] |- _ => rename H into EC end. unfold get_or in EC. rewrite HE in EC. exists a4. split; [exact EC|].
      destruct (cmap_vertical a4); steps.
      - destruct (get_or spec "DW2" _); try discriminate. destruct l as [|x [|y [|z l]]]; try discriminate. unfold base_font in HF. steps. subst f. reflexivity.
      - unfold base_font in HF. steps. subst f. reflexivity. }
    destruct G as (cm & G1 & G2). unfold is_vertical, decode. rewrite G2. cbn [get_cmap] in G1. splits.
    - intros ->. injection G1 as <-. split; reflexivity.
    - intros ->. injection G1 as <-. split; reflexivity.
    - intros v root N1 N2 HL. assert (H1 : list_eqb n (bs "Identity-H") = false).
      { destruct (list_eqb n (bs "Identity-H")) eqn:E; [apply list_eqb_eq in E; congruence|reflexivity]. }
      assert (H2 : list_eqb n (bs "Identity-V") = false).
      { destruct (list_eqb n (bs "Identity-V")) eqn:E; [apply list_eqb_eq in E; congruence|reflexivity]. }
      rewrite H1, H2, HL in G1. injection G1 as <-. split; reflexivity.
  Qed.
  (* An unknown CMap loses the text: every string decodes to no characters *)
  Theorem C71_unknown_refuted : forall fuel spec f n, subtype spec CID -> make_font fuel spec = Ok f -> dget spec "Encoding" = Some (OName n) ->
    n <> bs "Identity-H" -> n <> bs "Identity-V" -> load_cmap (filter (fun c => negb (c =? 0)) n) = None -> forall s, decode f s = Ok [].
  Proof.
    intros fuel spec f n HS HF HE N1 N2 HL s. rewrite make_cid in HF by assumption.
    assert (G : pf_cmap f = Some (CTable false [])).
    { unfold Font_Model.cid_font in HF. steps. match goal with H : context [get_cmap load_cmap] |- _ => rename H into EC end. unfold get_or in EC. rewrite HE in EC. cbn [get_cmap] in EC.
      assert (H1 : list_eqb n (bs "Identity-H") = false).
      { destruct (list_eqb n (bs "Identity-H")) eqn:EQ; [apply list_eqb_eq in EQ; congruence|reflexivity]. }
      assert (H2 : list_eqb n (bs "Identity-V") = false).
      { destruct (list_eqb n (bs "Identity-V")) eqn:EQ; [apply list_eqb_eq in EQ; congruence|reflexivity]. }
      rewrite H1, H2, HL in EC. injection EC as <-. cbn [cmap_vertical] in HF. steps. unfold base_font in HF. steps. subst f. reflexivity. }
    unfold decode. rewrite G. f_equal. induction s as [|i s IH]; [reflexivity|exact IH].
  Qed.
  (* An embedded CMap (a stream as Encoding) makes the font unusable *)
  Theorem C71_embedded_refuted : forall fuel spec a r f, subtype spec CID -> dget spec "Encoding" = Some (OStream a r) -> make_font fuel spec <> Ok f.
  Proof.
    intros fuel spec a r f HS HE HF. rewrite make_cid in HF by assumption. unfold Font_Model.cid_font in HF. steps.
    match goal with H : context [get_cmap load_cmap] |- _ => rename H into EC end. unfold get_or in EC. rewrite HE in EC. cbn [get_cmap] in EC. discriminate EC.
  Qed.
End fonts.
