(* C86. Every well-formed font dictionary gives a font, which cuts strings into codes and gives codes their texts as the dictionary says. *)
From Coq Require Import String.
From Verif Require Import Base Lex_Spec Obj Stack_Spec Stream_Model Stream_Spec Stream_Props Num Geom_Model Page_Model Interp_Model CMap_Spec CMap_Model CMap_Proofs CMap_Props
  TrueType_Model TrueType_Proofs Font_Model Font_Spec Font_Proofs Font_Props Font_Witness Names_Props Total_Spec Total_Props FontTotal_Spec.
From Coq Require Import Qcanon ZifyBool ZifyNat.
Open Scope Z_scope.

Definition Ev (P : nat -> Prop) : Prop := exists n, forall d, (n <= d)%nat -> P d.
Lemma ev_const (P : Prop) : P -> Ev (fun _ => P).
Proof. intros H. exists O. intros; exact H. Qed.
Lemma ev_and (P Q : nat -> Prop) : Ev P -> Ev Q -> Ev (fun d => P d /\ Q d).
Proof. intros (n & H) (m & K). exists (n + m)%nat. intros d Hd. split; [apply H|apply K]; lia. Qed.
Lemma ev_imp (P Q : nat -> Prop) : (forall d, P d -> Q d) -> Ev P -> Ev Q.
Proof. intros H (n & K). exists n. intros d Hd. apply H, K, Hd. Qed.

Section lookups.
  Context (getobj : Z -> option obj).
  Lemma ev_leads o v : Leads getobj ONull o v -> Ev (fun d => resolved getobj d o = Ok v).
  Proof. exact (leads_resolved getobj o v). Qed.
  Lemma ev_direct o : (forall i, o <> ORef i) -> Ev (fun d => resolved getobj d o = Ok o).
  Proof. intros H. apply ev_leads. constructor. exact H. Qed.
  Lemma ev_value sp k dflt v : Value getobj sp k dflt v -> (forall i, dflt <> ORef i) -> Ev (fun d => resolved getobj d (get_or sp k dflt) = Ok v).
  Proof. intros [H|o x H L] Hd; unfold get_or; rewrite H; [apply ev_direct, Hd|apply ev_leads, L]. Qed.
  Lemma ev_entry sp k dflt : EndsAt getobj sp k -> (forall i, dflt <> ORef i) -> exists v, Ev (fun d => resolved getobj d (get_or sp k dflt) = Ok v).
  Proof.
    intros H Hd. unfold get_or. destruct (dget sp k) as [o|] eqn:E; [|exists dflt; apply ev_direct, Hd].
    destruct (H o E) as (v & L). exists v. apply ev_leads, L.
  Qed.
  Lemma ev_list o v : Ev (fun d => resolved getobj d o = Ok v) -> Ev (fun d => list_value getobj d o = Ok (match v with OArr l => l | _ => [] end)).
  Proof. apply ev_imp. intros d H. unfold list_value. rewrite H. reflexivity. Qed.
  Lemma ev_dict o v : Ev (fun d => resolved getobj d o = Ok v) -> Ev (fun d => dict_value getobj d o = Ok (match v with ODict l => l | _ => [] end)).
  Proof. apply ev_imp. intros d H. unfold dict_value. rewrite H. reflexivity. Qed.
  Lemma ev_num o v : Ev (fun d => resolved getobj d o = Ok v) -> exists x, Ev (fun d => num_value getobj d o = Ok x).
  Proof. intros H. eexists. refine (ev_imp _ _ _ H). intros d E. unfold num_value. rewrite E. reflexivity. Qed.
  Lemma ev_int o v : Ev (fun d => resolved getobj d o = Ok v) -> Ev (fun d => Stream_Model.int_value getobj d o = Ok (match v with OInt z => z | OBool b => if b then 1 else 0 | _ => 0 end)).
  Proof.
    apply ev_imp. intros d H. unfold resolved in H. unfold Stream_Model.int_value. destruct (resolve1 getobj d ONull o) as [x|]; [|discriminate]. injection H as ->. destruct v; reflexivity.
  Qed.
  Lemma ev_stream o a r : Leads getobj ONull o (OStream a r) -> Ev (fun d => stream_of getobj d o = Ok (OStream a r)).
  Proof. intros H. generalize (ev_leads _ _ H). apply ev_imp. intros d E. unfold stream_of. rewrite E. reflexivity. Qed.
End lookups.

Section fonts.
  Context (getobj : Z -> option obj) (glyphs : list Z -> option (list Z)) (bases : list umap)
          (metrics : list Z -> option (dict * list (list Z * num)))
          (load_cmap : list Z -> option (bool * list (Z * trie))) (load_umap : list Z -> bool -> option umap)
          (get_data : nat -> obj -> res (list Z)) (bufsiz : nat).
  Context (data : obj -> list Z -> Prop).
  Context (Hbuf : (0 < bufsiz)%nat) (Hdata : forall a r t, data (OStream a r) t -> Ev (fun d => get_data d (OStream a r) = Ok t)).
  Notation make_font d := (make_font getobj d glyphs bases metrics load_cmap load_umap (get_data d) bufsiz).
  Notation cid_font d := (cid_font getobj d glyphs load_cmap load_umap (get_data d) bufsiz).
  Notation type1_font d := (type1_font getobj d glyphs bases metrics (get_data d) bufsiz).
  Notation type3_font d := (type3_font getobj d glyphs bases (get_data d) bufsiz).
  Notation FontReads := (FontReads getobj glyphs bases metrics load_cmap load_umap data).

  Lemma ev_to_unicode spec asg : UnicodeOf getobj data spec asg ->
    exists um, Ev (fun d => to_unicode getobj d glyphs (get_data d) bufsiz spec = Ok um) /\ (forall c, match um with Some m => iget m c | None => None end = last_for asg c).
  Proof.
    intros [H|o a r text exact ts asg' H HL HD HT HP].
    - exists None. split; [exists O; intros ? _; unfold to_unicode; rewrite H; reflexivity|reflexivity].
    - destruct (C46_tounicode_partial glyphs bufsiz exact ts text asg' Hbuf HT HP) as (m & Em & U). exists (Some m). split; [|exact U].
      generalize (ev_and _ _ (ev_stream _ _ _ _ HL) (Hdata _ _ _ HD)). apply ev_imp. intros d [E1 E2]. unfold to_unicode. rewrite H, E1. cbn [bind]. rewrite E2. cbn [bind]. rewrite Em. reflexivity.
  Qed.
  Lemma ev_encoding spec e : EncodingOf getobj glyphs bases spec e ->
    exists enc, Ev (fun d => simple_encoding getobj d glyphs bases spec = Ok enc) /\ (forall c, iget enc c = e c).
  Proof.
    intros H. assert (X : exists enc, Ev (fun d => simple_encoding getobj d glyphs bases spec = Ok enc)).
    { destruct H as [n H|o d0 n diff l H HL HB HV HD HT].
      - eexists. generalize (ev_value _ _ _ _ _ H ltac:(discriminate)). apply ev_imp. intros d E. unfold simple_encoding. rewrite E. cbn [bind name_of]. reflexivity.
      - assert (G : exists a h, get_encoding glyphs bases n diff = Ok (a, h)).
        { destruct diff as [|o1 diff]; [eexists _, _; reflexivity|].
          destruct (C44_differences_partial glyphs bases n (o1 :: diff) l) as (a & h & Eg & _); [discriminate|assumption|assumption|]. exists a, h. exact Eg. }
        destruct G as (a & h & G). eexists.
        generalize (ev_and _ _ (ev_leads _ _ _ HL) (ev_list _ _ _ (ev_value _ _ _ _ _ HV ltac:(discriminate)))). apply ev_imp. intros d [E1 E2].
        unfold simple_encoding. unfold get_or at 1. rewrite H, E1. cbn [bind].
        assert (EN : name_of (get_or d0 "BaseEncoding" (ON "StandardEncoding")) = Ok n).
        { unfold get_or. destruct HB as [HB|[HB ->]]; rewrite HB; reflexivity. }
        rewrite EN. cbn [bind]. rewrite E2. cbn [bind]. rewrite G. cbn [bind]. reflexivity. }
    destruct X as (enc & n & E). exists enc. split; [exists n; exact E|]. exact (encoding_lemma getobj n glyphs bases spec e enc H (E n (le_n n))).
  Qed.
  Lemma ev_base d0 w cw dw um enc cm disps disp0 : Sound getobj d0 -> exists f,
    Ev (fun d => base_font getobj d d0 w cw dw um enc cm disps disp0 = Ok f) /\ pf_umap f = um /\ pf_enc f = enc /\ pf_cmap f = cm /\
    (forall bb, Value getobj d0 "FontBBox" (OArr [OInt 0; OInt 0; OInt 0; OInt 0]) (OArr bb) -> pf_bbox f = bb).
  Proof.
    intros H. inversion_clear H as [|? ? H1 H']. inversion_clear H' as [|? ? H2 H'']. inversion_clear H'' as [|? ? H3 H''']. inversion_clear H''' as [|? ? H4 _].
    destruct (ev_entry _ _ _ (OInt 0) H1 ltac:(discriminate)) as (v1 & V1). destruct (ev_num _ _ _ V1) as (x1 & X1).
    destruct (ev_entry _ _ _ (OInt 0) H2 ltac:(discriminate)) as (v2 & V2). destruct (ev_num _ _ _ V2) as (x2 & X2).
    destruct (ev_entry _ _ _ (OInt 0) H3 ltac:(discriminate)) as (v3 & V3). destruct (ev_num _ _ _ V3) as (x3 & X3).
    destruct (ev_entry _ _ _ (OArr [OInt 0; OInt 0; OInt 0; OInt 0]) H4 ltac:(discriminate)) as (v4 & V4). pose proof (ev_list _ _ _ V4) as X4.
    eexists. split; [generalize (ev_and _ _ X1 (ev_and _ _ X2 (ev_and _ _ X3 X4))); apply ev_imp; intros d (E1 & E2 & E3 & E4); unfold base_font; rewrite E1, E2, E3, E4; cbn [bind]; reflexivity|].
    splits; try reflexivity. intros bb HV. cbn [pf_bbox].
    destruct V4 as (n & V4). destruct (ev_value _ _ _ _ _ HV ltac:(discriminate)) as (m & V5). specialize (V4 (n + m)%nat ltac:(lia)). specialize (V5 (n + m)%nat ltac:(lia)).
    rewrite V4 in V5. injection V5 as ->. reflexivity.
  Qed.
  Lemma ev_simple d0 w cw spec asg e : Sound getobj d0 -> UnicodeOf getobj data spec asg -> EncodingOf getobj glyphs bases spec e ->
    exists f, Ev (fun d => simple_font getobj d glyphs bases (get_data d) bufsiz d0 w cw spec = Ok f) /\ pf_cmap f = None /\
      (forall c, to_unichr f c = match last_for asg c with Some t => Some t | None => e c end) /\
      (forall c, match pf_umap f with Some m => iget m c | None => None end = last_for asg c) /\
      (forall bb, Value getobj d0 "FontBBox" (OArr [OInt 0; OInt 0; OInt 0; OInt 0]) (OArr bb) -> pf_bbox f = bb).
  Proof.
    intros HS HU HE. destruct (ev_to_unicode _ _ HU) as (um & U1 & U2). destruct (ev_encoding _ _ HE) as (enc & N1 & N2).
    destruct (ev_base d0 w cw None um (Some enc) None [] ONull HS) as (f & F1 & F2 & F3 & F4 & F5). exists f. splits; try assumption.
    - generalize (ev_and _ _ U1 (ev_and _ _ N1 F1)). apply ev_imp. intros d (E1 & E2 & E3). unfold simple_font. rewrite E2. cbn [bind]. rewrite E1. cbn [bind]. exact E3.
    - intros c. unfold to_unichr. rewrite F2, F3, U2. destruct (last_for asg c); [reflexivity|apply N2].
    - rewrite F2. exact U2.
  Qed.
  (* the encoding of the font program replaces the other *)
  Lemma ev_finish d0 w cw spec asg e : Sound getobj d0 -> UnicodeOf getobj data spec asg -> CodesOf getobj glyphs bases data spec d0 e ->
    exists f, Ev (fun d => (do f <- simple_font getobj d glyphs bases (get_data d) bufsiz d0 w cw spec;
      match dget spec "Encoding", dget d0 "FontFile" with
      | None, Some ff =>
        do st <- stream_of getobj d ff;
        do len <- (match st with OStream a _ => match dget a "Length1" with Some x => Stream_Model.int_value getobj d x | None => Err KeyError end | _ => Err KeyError end);
        do data <- get_data d st;
        do e <- header_encoding glyphs bufsiz (if 0 <=? len then firstn (Z.to_nat len) data else firstn (length data - Z.to_nat (- len)) data);
        Ok (mkPF (pf_widths f) (pf_chars f) (pf_default f) (pf_umap f) (Some e) (pf_cmap f) (pf_disps f) (pf_disp0 f)
                 (pf_hscale f) (pf_vscale f) (pf_ascent f) (pf_descent f) (pf_bbox f))
      | _, _ => Ok f
      end) = Ok f) /\ pf_cmap f = None /\ (forall c, to_unichr f c = match last_for asg c with Some t => Some t | None => e c end).
  Proof.
    intros HS HU [e' Hor HE|ff a r l1 n text exact ts asg0 l HN HF HL HL1 HLn HD HT HP HX].
    - destruct (ev_simple d0 w cw spec asg e' HS HU HE) as (f & F1 & F2 & F3 & _). exists f. splits; try assumption. revert F1. apply ev_imp. intros d E. rewrite E. cbn [bind].
      destruct (dget spec "Encoding"); [reflexivity|]. destruct Hor as [Hor| ->]; [congruence|reflexivity].
    - assert (HE : EncodingOf getobj glyphs bases spec (base bases (bs "StandardEncoding"))) by (apply EN_name, V_absent, HN).
      destruct (ev_simple d0 w cw spec asg _ HS HU HE) as (f & F1 & F2 & F3 & F4 & _).
      destruct (C70_header_partial glyphs bufsiz exact ts (firstn n text) asg0 l Hbuf HT HP HX) as (m & M1 & M2).
      exists (mkPF (pf_widths f) (pf_chars f) (pf_default f) (pf_umap f) (Some m) (pf_cmap f) (pf_disps f) (pf_disp0 f)
                 (pf_hscale f) (pf_vscale f) (pf_ascent f) (pf_descent f) (pf_bbox f)). splits; [|exact F2|].
      + generalize (ev_and _ _ F1 (ev_and _ _ (ev_stream _ _ _ _ HL) (ev_and _ _ (ev_int _ _ _ (ev_leads _ _ _ HLn)) (Hdata _ _ _ HD)))). apply ev_imp.
        intros d (E1 & E2 & E3 & E4). rewrite E1. cbn [bind]. rewrite HN, HF, E2. cbn [bind]. rewrite HL1, E3. cbn [bind]. rewrite E4. cbn [bind].
        rewrite (proj2 (Z.leb_le 0 (Z.of_nat n))) by lia. rewrite Nat2Z.id, M1. reflexivity.
      + intros c. unfold to_unichr. cbn [pf_umap pf_enc]. rewrite F4. destruct (last_for asg c); [reflexivity|apply M2].
  Qed.
  Lemma ev_widths spec : EndsAt getobj spec "FirstChar" -> EndsAt getobj spec "Widths" -> exists w, Ev (fun d => spec_widths getobj d spec = Ok w).
  Proof.
    intros H1 H2. destruct (ev_entry _ _ _ (OInt 0) H1 ltac:(discriminate)) as (v1 & V1). destruct (ev_entry _ _ _ (OArr (repeat (OInt 0) 256)) H2 ltac:(discriminate)) as (v2 & V2).
    eexists. generalize (ev_and _ _ (ev_int _ _ _ V1) (ev_list _ _ _ V2)). apply ev_imp. intros d [E1 E2]. unfold spec_widths. rewrite E1. cbn [bind]. rewrite E2. cbn [bind]. reflexivity.
  Qed.
  Lemma base_name spec n : BaseName spec n ->
    (match dget spec "BaseFont" with None => Ok (Some (bs "unknown")) | Some (OName n) => Ok (Some n) | Some (OArr _) | Some (ODict _) => Err TypeError | Some _ => Ok None end) = Ok (Some n).
  Proof. intros [H|[H ->]]; rewrite H; reflexivity. Qed.

  Definition reads (f : pfont) (codes : list Z -> list Z -> Prop) (texts : Z -> option (list Z)) : Prop :=
    (forall s cids, codes s cids -> decode f s = Ok cids) /\ (forall c, to_unichr f c = texts c).
  Lemma one_byte_reads f texts : pf_cmap f = None -> (forall c, to_unichr f c = texts c) -> reads f one_byte texts.
  Proof. intros H1 H2. split; [|exact H2]. intros s cids <-. unfold decode. rewrite H1. reflexivity. Qed.
  Lemma ev_standard spec n d0 cw asg e : BaseName spec n -> metrics n = Some (d0, cw) -> Sound getobj d0 ->
    UnicodeOf getobj data spec asg -> CodesOf getobj glyphs bases data spec d0 e ->
    exists f, Ev (fun d => type1_font d spec = Ok f) /\ reads f one_byte (fun c => match last_for asg c with Some t => Some t | None => e c end).
  Proof.
    intros HB HM HS HU HC. destruct (ev_finish d0 [] cw spec asg e HS HU HC) as (f & F1 & F2 & F3). exists f. split; [|apply one_byte_reads; assumption].
    revert F1. apply ev_imp. intros d E. unfold Font_Model.type1_font. rewrite (base_name _ _ HB). cbn [bind]. rewrite HM. cbn [bind]. exact E.
  Qed.
  Lemma ev_type1 spec n d0 asg e : BaseName spec n -> metrics n = None ->
      Value getobj spec "FontDescriptor" (ODict []) (ODict d0) -> Sound getobj d0 -> EndsAt getobj spec "FirstChar" -> EndsAt getobj spec "Widths" ->
      UnicodeOf getobj data spec asg -> CodesOf getobj glyphs bases data spec d0 e ->
    exists f, Ev (fun d => type1_font d spec = Ok f) /\ reads f one_byte (fun c => match last_for asg c with Some t => Some t | None => e c end).
  Proof.
    intros HB HM HV HS W1 W2 HU HC. destruct (ev_widths _ W1 W2) as (w & EW). destruct (ev_finish d0 w [] spec asg e HS HU HC) as (f & F1 & F2 & F3).
    exists f. split; [|apply one_byte_reads; assumption].
    generalize (ev_and _ _ F1 (ev_and _ _ EW (ev_dict _ _ _ (ev_value _ _ _ _ _ HV ltac:(discriminate))))). apply ev_imp. intros d (E & E2 & E3).
    unfold Font_Model.type1_font. rewrite (base_name _ _ HB). cbn [bind]. rewrite HM, E3. cbn [bind]. rewrite E2. cbn [bind]. exact E.
  Qed.
  Lemma ev_type3 spec d0 bb m asg e :
      ((dget spec "FontDescriptor" <> None /\ Value getobj spec "FontDescriptor" ONull (ODict d0)) \/
       (dget spec "FontDescriptor" = None /\ exists b, dget spec "FontBBox" = Some b /\ d0 = [(ON "Ascent", OInt 0); (ON "Descent", OInt 0); (ON "FontBBox", b)])) ->
      Sound getobj d0 -> Value getobj d0 "FontBBox" (OArr [OInt 0; OInt 0; OInt 0; OInt 0]) (OArr bb) -> length bb = 4%nat ->
      Value getobj spec "FontMatrix" ONull (OArr m) -> numbers 6 m -> EndsAt getobj spec "FirstChar" -> EndsAt getobj spec "Widths" ->
      UnicodeOf getobj data spec asg -> EncodingOf getobj glyphs bases spec e ->
    exists f, Ev (fun d => type3_font d spec = Ok f) /\ reads f one_byte (fun c => match last_for asg c with Some t => Some t | None => e c end).
  Proof.
    intros HD HS HV HL HM HN W1 W2 HU HE. destruct (ev_widths _ W1 W2) as (w & EW). destruct (ev_simple d0 w [] spec asg e HS HU HE) as (f & F1 & F2 & F3 & _ & F5).
    pose proof (F5 _ HV) as FB. destruct bb as [|b0 [|dsc [|b2 [|asc [|? ?]]]]]; try discriminate HL.
    destruct (numbers_nums 6 m HN) as (v & Ev1 & Lv). destruct HN as [Lm _].
    destruct m as [|m1 [|m2 [|m3 [|m4 [|m5 [|m6 [|? ?]]]]]]]; try discriminate Lm. destruct v as [|a [|b [|c [|d' [|e' [|f' [|? ?]]]]]]]; try discriminate Lv.
    exists (mkPF (pf_widths f) (pf_chars f) (pf_default f) (pf_umap f) (pf_enc f) (pf_cmap f) (pf_disps f) (pf_disp0 f) (a + c)%Qc (b + d')%Qc asc dsc (pf_bbox f)).
    split; [|apply one_byte_reads; [exact F2|exact F3]].
    assert (ED : Ev (fun d => match dget spec "FontDescriptor" with
             | Some o => dict_value getobj d o
             | None => match dget spec "FontBBox" with
                       | Some b => Ok [(ON "Ascent", OInt 0); (ON "Descent", OInt 0); (ON "FontBBox", b)]
                       | None => Err KeyError
                       end
             end = Ok d0)).
    { destruct HD as [[H1 H2]|[H1 (b' & H2 & ->)]]; [|exists O; intros ? _; rewrite H1, H2; reflexivity]. inversion H2 as [|o x H3 L].
      rewrite H3. exact (ev_dict _ _ _ (ev_leads _ _ _ L)). }
    generalize (ev_and _ _ F1 (ev_and _ _ EW (ev_and _ _ ED (ev_list _ _ _ (ev_value _ _ _ _ _ HM ltac:(discriminate)))))). apply ev_imp. intros d (E1 & E2 & E3 & E4).
    unfold Font_Model.type3_font. rewrite E2. cbn [bind]. rewrite E3. cbn [bind]. rewrite E1. cbn [bind]. rewrite E4. cbn [bind]. rewrite FB, Ev1. reflexivity.
  Qed.

  Lemma ev_cmap n v codes : CMapOf load_cmap n v codes -> exists cm, get_cmap load_cmap (OName n) = Ok cm /\ cmap_vertical cm = v /\
    (forall f, pf_cmap f = Some cm -> forall s cids, codes s cids -> decode f s = Ok cids).
  Proof.
    intros [| |n' v' m root N1 N2 N0 HL HF HA].
    - exists (CIdentity false). splits; try reflexivity. intros f Hf s cids [-> H]. unfold decode. rewrite Hf. apply C47_identity, H.
    - exists (CIdentity true). splits; try reflexivity. intros f Hf s cids [-> H]. unfold decode. rewrite Hf. apply C47_identity, H.
    - exists (CTable v' root). cbn [get_cmap].
      assert (H1 : list_eqb n' (bs "Identity-H") = false) by (destruct (list_eqb n' (bs "Identity-H")) eqn:E; [apply list_eqb_eq in E; congruence|reflexivity]).
      assert (H2 : list_eqb n' (bs "Identity-V") = false) by (destruct (list_eqb n' (bs "Identity-V")) eqn:E; [apply list_eqb_eq in E; congruence|reflexivity]).
      assert (H3 : filter (fun c => negb (c =? 0)) n' = n').
      { clear -N0. induction N0 as [|c l Hc _ IH]; [reflexivity|]. cbn [filter]. rewrite (proj2 (Z.eqb_neq c 0) Hc). cbn [negb]. rewrite IH. reflexivity. }
      rewrite H1, H2, H3, HL. splits; try reflexivity. intros f Hf s cids HS. unfold decode. rewrite Hf. f_equal.
      destruct (C45_segmentation m HF) as (d & Ed & K). rewrite HA in Ed. injection Ed as <-. apply K, HS.
  Qed.
  Lemma ev_cid spec n v codes c d0 texts : dget spec "Encoding" = Some (OName n) -> CMapOf load_cmap n v codes -> Collection getobj spec c ->
      Value getobj spec "FontDescriptor" (ODict []) (ODict d0) -> Sound getobj d0 -> ProgramRead getobj data d0 ->
      (v = false -> exists w decl, Value getobj spec "W" (OArr []) (OArr w) /\ Entries WEntry w decl) ->
      (v = true -> (exists w decl, Value getobj spec "W2" (OArr []) (OArr w) /\ Entries W2Entry w decl) /\
                   (forall o, dget spec "DW2" = Some o -> exists a b, o = OArr [a; b])) ->
      CidTexts getobj load_umap data spec v c texts ->
    exists f, Ev (fun d => cid_font d spec = Ok f) /\ reads f codes texts.
  Proof.
    intros HE HC (info & r & o & I1 & I2 & I3 & ->) HD HS HP HW HW2 HT. destruct (ev_cmap _ _ _ HC) as (cm & C1 & C2 & C3).
    assert (XP : exists ttf, Ev (fun d => @eq (res (option (list Z))) (match dget d0 "FontFile2" with None => Ok None | Some ff => do st <- stream_of getobj d ff; do data <- get_data d st; Ok (Some data) end) (Ok ttf))).
    { unfold ProgramRead in HP. destruct (dget d0 "FontFile2") as [ff|]; [|exists None, O; intros ? _; reflexivity].
      destruct (HP ff eq_refl) as (a & r0 & text & HL & HX). exists (Some text).
      generalize (ev_and _ _ (ev_stream _ _ _ _ HL) (Hdata _ _ _ HX)). apply ev_imp. intros d [E1 E2]. rewrite E1. cbn [bind]. rewrite E2. reflexivity. }
    destruct XP as (ttf & XP).
    assert (XU : exists um, Ev (fun d => (match dget spec "ToUnicode" with
              | Some _ => to_unicode getobj d glyphs (get_data d) bufsiz spec
              | None => if list_eqb (r ++ [45] ++ o) (bs "Adobe-Identity") || list_eqb (r ++ [45] ++ o) (bs "Adobe-UCS") then program_map ttf
                        else Ok (load_umap (r ++ [45] ++ o) (cmap_vertical cm))
              end) = Ok um) /\ forall k, match um with Some m => iget m k | None => None end = texts k).
    { destruct HT as [asg HN HU|HN N1 N2|HN HN2].
      - destruct (ev_to_unicode _ _ HU) as (um & U1 & U2). exists um. split; [|exact U2]. destruct (dget spec "ToUnicode"); [exact U1|congruence].
      - rewrite HN. assert (H1 : list_eqb (r ++ [45] ++ o) (bs "Adobe-Identity") = false) by (destruct (list_eqb (r ++ [45] ++ o) (bs "Adobe-Identity")) eqn:E; [apply list_eqb_eq in E; exact (False_ind _ (N1 E))|reflexivity]).
        assert (H2 : list_eqb (r ++ [45] ++ o) (bs "Adobe-UCS") = false) by (destruct (list_eqb (r ++ [45] ++ o) (bs "Adobe-UCS")) eqn:E; [apply list_eqb_eq in E; exact (False_ind _ (N2 E))|reflexivity]).
        rewrite H1, H2, C2. eexists. split; [exists O; intros ? _; reflexivity|]. reflexivity.
      - rewrite HN. exists None. split; [|reflexivity]. exists O. intros ? _.
        destruct HN2 as [H|H]; change (bs "-") with [45] in H; rewrite H; cbn [orb]; rewrite ?list_eqb_refl, ?Bool.orb_true_r; apply program_none. }
    destruct XU as (um & XU & XT).
    pose proof (ev_dict _ _ _ (ev_value _ _ _ _ _ I1 ltac:(discriminate))) as Q1. pose proof (ev_value _ _ _ _ _ I2 ltac:(discriminate)) as Q2. pose proof (ev_value _ _ _ _ _ I3 ltac:(discriminate)) as Q3.
    pose proof (ev_dict _ _ _ (ev_value _ _ _ _ _ HD ltac:(discriminate))) as Q4.
    assert (ECM : match get_cmap load_cmap (get_or spec "Encoding" (ON "unknown")) with Err CMapNotFound => Ok (CTable false []) | x => x end = Ok cm).
    { unfold get_or. rewrite HE, C1. reflexivity. }
    destruct v.
    - destruct (HW2 eq_refl) as [(w & decl & W1 & W2) HDW]. destruct (C43_widths_vertical _ _ W2) as (m & EM & _).
      assert (XD : exists a b, get_or spec "DW2" (OArr [OInt 880; OInt (-1000)]) = OArr [a; b]).
      { unfold get_or. destruct (dget spec "DW2") as [x|] eqn:E; [apply HDW; reflexivity|eexists _, _; reflexivity]. }
      destruct XD as (vy & wd & XD).
      destruct (ev_base d0 (map (fun e => (fst e, fst (snd e))) m) [] (Some wd) um None (Some cm) (map (fun e => (fst e, snd (snd e))) m) vy HS) as (f & F1 & F2 & F3 & F4 & _).
      exists f. split.
      + generalize (ev_and _ _ Q1 (ev_and _ _ Q2 (ev_and _ _ Q3 (ev_and _ _ Q4 (ev_and _ _ XP (ev_and _ _ XU (ev_and _ _ F1 (ev_list _ _ _ (ev_value _ _ _ _ _ W1 ltac:(discriminate)))))))))). apply ev_imp.
        intros d (E1 & E2 & E3 & E4 & E0 & E5 & E6 & E7). unfold Font_Model.cid_font. rewrite E1. cbn [bind]. rewrite E2. cbn [bind]. rewrite E3. cbn [bind latin1]. rewrite ECM. cbn [bind]. rewrite E4. cbn [bind]. rewrite E0. cbn [bind].
        rewrite E5. cbn [bind]. rewrite C2. rewrite E7. cbn [bind]. rewrite EM. cbn [bind]. rewrite XD. exact E6.
      + split; [exact (C3 f F4)|]. intros k. unfold to_unichr. rewrite F2, F3, XT. destruct (texts k); reflexivity.
    - destruct (HW eq_refl) as (w & decl & W1 & W2). destruct (C43_widths _ _ W2) as (m & EM & _).
      destruct (ev_base d0 m [] (Some (get_or spec "DW" (OInt 1000))) um None (Some cm) [] ONull HS) as (f & F1 & F2 & F3 & F4 & _).
      exists f. split.
      + generalize (ev_and _ _ Q1 (ev_and _ _ Q2 (ev_and _ _ Q3 (ev_and _ _ Q4 (ev_and _ _ XP (ev_and _ _ XU (ev_and _ _ F1 (ev_list _ _ _ (ev_value _ _ _ _ _ W1 ltac:(discriminate)))))))))). apply ev_imp.
        intros d (E1 & E2 & E3 & E4 & E0 & E5 & E6 & E7). unfold Font_Model.cid_font. rewrite E1. cbn [bind]. rewrite E2. cbn [bind]. rewrite E3. cbn [bind latin1]. rewrite ECM. cbn [bind]. rewrite E4. cbn [bind]. rewrite E0. cbn [bind].
        rewrite E5. cbn [bind]. rewrite C2. rewrite E7. cbn [bind]. rewrite EM. cbn [bind]. exact E6.
      + split; [exact (C3 f F4)|]. intros k. unfold to_unichr. rewrite F2, F3, XT. destruct (texts k); reflexivity.
  Qed.

  (* ---------- dictionaries with the same entries ---------- *)
  Definition same (a b : dict) : Prop := forall k, dict_get a (OName k) = dict_get b (OName k).
  Section same.
    Context (a b : dict) (Hs : same a b).
    Lemma same_get k : dget b k = dget a k. Proof. symmetry. apply Hs. Qed.
    Lemma same_ends k : EndsAt getobj a k -> EndsAt getobj b k. Proof. unfold EndsAt. rewrite same_get. auto. Qed.
    Lemma same_value k dflt v : Value getobj a k dflt v -> Value getobj b k dflt v.
    Proof. intros [H|o x H L]; [apply V_absent|eapply V_present; [|exact L]]; rewrite same_get; exact H. Qed.
    Lemma same_unicode asg : UnicodeOf getobj data a asg -> UnicodeOf getobj data b asg.
    Proof. intros [H|o x r text exact ts asg' H]; [apply UO_none|intros; eapply UO_stream; try eassumption]; rewrite same_get; exact H. Qed.
    Lemma same_base n : BaseName a n -> BaseName b n. Proof. unfold BaseName. rewrite same_get. auto. Qed.
    Lemma same_encoding e : EncodingOf getobj glyphs bases a e -> EncodingOf getobj glyphs bases b e.
    Proof. intros [n H|o d n diff l H]; [apply EN_name, same_value, H|intros; eapply EN_dict; try eassumption; rewrite same_get; exact H]. Qed.
    Lemma same_codes d e : CodesOf getobj glyphs bases data a d e -> CodesOf getobj glyphs bases data b d e.
    Proof.
      intros [e' H H'|ff x r l1 n text exact ts asg l H]; [apply CO_entry; [rewrite same_get; exact H|apply same_encoding, H']|].
      intros. eapply CO_program; try eassumption. rewrite same_get. exact H.
    Qed.
    Lemma same_simple : simple_type a -> simple_type b. Proof. unfold simple_type. rewrite same_get. auto. Qed.
    Lemma same_subtype l : subtype a l -> subtype b l. Proof. unfold subtype. intros (n & H1 & H2). exists n. rewrite same_get. auto. Qed.
    Lemma same_collection c : Collection getobj a c -> Collection getobj b c.
    Proof. intros (i & r & o & H & H'). exists i, r, o. split; [apply same_value, H|exact H']. Qed.
    Lemma same_texts v c t : CidTexts getobj load_umap data a v c t -> CidTexts getobj load_umap data b v c t.
    Proof. intros [asg H H'|H H' H''|H H']; [apply CT_map; [|apply same_unicode, H']|apply CT_collection; try assumption|apply CT_none; try assumption]; rewrite same_get; exact H. Qed.
    Lemma same_merged sub sub' : merged getobj a sub sub' -> merged getobj b sub sub'.
    Proof. intros [H H']. split; [|exact H']. intros k Hk. rewrite same_get. exact (H k Hk). Qed.
  End same.
  Lemma leads_one o v w : Leads getobj ONull o v -> Leads getobj ONull o w -> v = w.
  Proof. intros H K. destruct (ev_and _ _ (ev_leads _ _ _ H) (ev_leads _ _ _ K)) as (n & E). destruct (E n (le_n n)) as [E1 E2]. congruence. Qed.
  Lemma merged_one spec sub s1 s2 : merged getobj spec sub s1 -> merged getobj spec sub s2 -> same s1 s2.
  Proof.
    intros [A1 A2] [B1 B2] k.
    assert (D : forall s, In s ["Encoding"; "ToUnicode"]%string -> dget s1 s = dget s2 s).
    { intros s Hs. specialize (A1 s Hs). specialize (B1 s Hs). destruct (dget spec s) as [o|]; [|congruence].
      destruct A1 as (v & L1 & E1). destruct B1 as (w & L2 & E2). rewrite E1, E2. f_equal. exact (leads_one _ _ _ L1 L2). }
    destruct (list_eq_dec Z.eq_dec k (bs "Encoding")) as [->|N1]; [apply (D "Encoding"%string); left; reflexivity|].
    destruct (list_eq_dec Z.eq_dec k (bs "ToUnicode")) as [->|N2]; [apply (D "ToUnicode"%string); right; left; reflexivity|].
    rewrite A2, B2 by assumption. reflexivity.
  Qed.
  (* what make_font passes on for a Type0 font *)
  Lemma ev_type0 spec x l (sub : dict) : dget spec "Subtype" = Some (ON "Type0") -> Value getobj spec "DescendantFonts" ONull (OArr (x :: l)) -> Leads getobj ONull x (ODict sub) ->
    EndsAt getobj spec "Encoding" -> EndsAt getobj spec "ToUnicode" ->
    exists sub' : dict, merged getobj spec sub sub' /\ Ev (fun d => forall fuel, make_font d (S fuel) spec = make_font d fuel sub').
  Proof.
    intros HS HD HX H1 H2.
    assert (XE : exists s1 : dict, Ev (fun d => @eq (res dict) (match dget spec "Encoding" with Some e => do r <- resolved getobj d e; Ok (dict_set sub (ON "Encoding") r) | None => Ok sub end) (Ok s1)) /\
      match dget spec "Encoding" with Some o => exists v, Leads getobj ONull o v /\ dget s1 "Encoding" = Some v | None => dget s1 "Encoding" = dget sub "Encoding" end /\
      forall k, k <> bs "Encoding" -> dict_get s1 (OName k) = dict_get sub (OName k)).
    { unfold EndsAt in H1. destruct (dget spec "Encoding") as [o|].
      - destruct (H1 o eq_refl) as (v & L). exists (dict_set sub (ON "Encoding") v). splits.
        + generalize (ev_leads _ _ _ L). apply ev_imp. intros d E. rewrite E. reflexivity.
        + exists v. split; [exact L|]. apply dict_get_set_same. reflexivity.
        + intros k Hk. unfold ON. rewrite dict_get_set_other by (apply key_ne; congruence). reflexivity.
      - exists sub. splits; try reflexivity. exists O. reflexivity. }
    destruct XE as (s1 & X1 & X2 & X3).
    assert (YE : exists s2 : dict, Ev (fun d => @eq (res dict) (match dget spec "ToUnicode" with Some e => do r <- resolved getobj d e; Ok (dict_set s1 (ON "ToUnicode") r) | None => Ok s1 end) (Ok s2)) /\
      match dget spec "ToUnicode" with Some o => exists v, Leads getobj ONull o v /\ dget s2 "ToUnicode" = Some v | None => dget s2 "ToUnicode" = dget s1 "ToUnicode" end /\
      forall k, k <> bs "ToUnicode" -> dict_get s2 (OName k) = dict_get s1 (OName k)).
    { unfold EndsAt in H2. destruct (dget spec "ToUnicode") as [o|].
      - destruct (H2 o eq_refl) as (v & L). exists (dict_set s1 (ON "ToUnicode") v). splits.
        + generalize (ev_leads _ _ _ L). apply ev_imp. intros d E. rewrite E. reflexivity.
        + exists v. split; [exact L|]. apply dict_get_set_same. reflexivity.
        + intros k Hk. unfold ON. rewrite dict_get_set_other by (apply key_ne; congruence). reflexivity.
      - exists s1. splits; try reflexivity. exists O. reflexivity. }
    destruct YE as (s2 & Y1 & Y2 & Y3).
    exists s2. split.
    - split.
      + intros k [<-|[<-|[]]].
        * assert (E : dget s2 "Encoding" = dget s1 "Encoding") by (apply Y3; discriminate). rewrite E. exact X2.
        * assert (E : dget s1 "ToUnicode" = dget sub "ToUnicode") by (apply X3; discriminate). rewrite <- E. exact Y2.
      + intros k K1 K2. rewrite Y3, X3 by assumption. reflexivity.
    - generalize (ev_and _ _ X1 (ev_and _ _ Y1 (ev_and _ _ (ev_list _ _ _ (ev_value _ _ _ _ _ HD ltac:(discriminate))) (ev_dict _ _ _ (ev_leads _ _ _ HX))))). apply ev_imp.
      intros d (E1 & E2 & E3 & E4) fuel. cbn [Font_Model.make_font]. unfold get_or at 1 2 3 4 5 6 7. rewrite HS. cbn [ON].
      change (list_eqb (bs "Type0") (bs "Type0")) with true. change (list_eqb (bs "Type0") (bs "Type1")) with false. change (list_eqb (bs "Type0") (bs "MMType1")) with false.
      change (list_eqb (bs "Type0") (bs "TrueType")) with false. change (list_eqb (bs "Type0") (bs "Type3")) with false.
      change (list_eqb (bs "Type0") (bs "CIDFontType0")) with false. change (list_eqb (bs "Type0") (bs "CIDFontType2")) with false.
      cbn [orb]. inversion HD as [|o v HDD HDL]; subst. unfold get_or in E3. rewrite HDD in E3 |- *. cbv beta iota in E3, E4. rewrite E3. cbn [bind]. rewrite E4.
      match goal with |- bind _ ?g = ?r => change (g sub = r); cbv beta end.
      match goal with |- bind ?m ?g = ?r => let H := fresh in assert (H : m = Ok s1) by exact E1; rewrite H; clear H; change (g s1 = r); cbv beta end.
      match goal with |- bind ?m ?g = ?r => let H := fresh in assert (H : m = Ok s2) by exact E2; rewrite H; clear H end. reflexivity.
  Qed.
  Lemma merged_ends spec sub sub' : merged getobj spec sub sub' -> EndsAt getobj spec "Encoding" /\ EndsAt getobj spec "ToUnicode".
  Proof.
    intros [H _]. split; intros o Ho; [specialize (H "Encoding"%string (or_introl eq_refl))|specialize (H "ToUnicode"%string (or_intror (or_introl eq_refl)))];
      rewrite Ho in H; destruct H as (v & L & _); exists v; exact L.
  Qed.

  Lemma font_builds spec codes texts : FontReads spec codes texts -> forall spec', same spec spec' ->
    exists f n, (forall d fuel, (n <= d)%nat -> (n <= fuel)%nat -> make_font d fuel spec' = Ok f) /\ reads f codes texts.
  Proof.
    assert (EV : forall sp codes texts (g : nat -> nat -> dict -> res pfont) (h : nat -> dict -> res pfont), (forall d fuel, g d fuel sp = h d sp) ->
      (exists f, Ev (fun d => h d sp = Ok f) /\ reads f codes texts) -> exists f n, (forall d fuel, (n <= d)%nat -> (n <= fuel)%nat -> g d fuel sp = Ok f) /\ reads f codes texts).
    { intros sp c t g h E (f & (n & H) & K). exists f, n. split; [|exact K]. intros d fuel Hd _. rewrite E. apply H, Hd. }
    induction 1 as [spec n d0 cw asg e HT HB HM HS HU HC|spec n d0 asg e HT HB HM HV HS W1 W2 HU HC|spec d0 bb m asg e HT HD HS HV HL HM HN W1 W2 HU HE
      |spec n v codes c d0 texts HT HE HC HCo HD HS HP HW HW2 HX|spec x l sub sub' codes texts HT HD HX HM HF IH]; intros sp HSm.
    - eapply (EV _ _ _ (fun d fuel => make_font d fuel) (fun d => type1_font d)).
      + intros d fuel. apply make_simple. exact (same_simple _ _ HSm HT).
      + eapply ev_standard; [exact (same_base _ _ HSm _ HB)|exact HM|exact HS|exact (same_unicode _ _ HSm _ HU)|exact (same_codes _ _ HSm _ _ HC)].
    - eapply (EV _ _ _ (fun d fuel => make_font d fuel) (fun d => type1_font d)).
      + intros d fuel. apply make_simple. exact (same_simple _ _ HSm HT).
      + eapply ev_type1; [exact (same_base _ _ HSm _ HB)|exact HM|exact (same_value _ _ HSm _ _ _ HV)|exact HS|exact (same_ends _ _ HSm _ W1)|exact (same_ends _ _ HSm _ W2)
          |exact (same_unicode _ _ HSm _ HU)|exact (same_codes _ _ HSm _ _ HC)].
    - eapply (EV _ _ _ (fun d fuel => make_font d fuel) (fun d => type3_font d)).
      + intros d fuel. assert (ES : dget sp "Subtype" = Some (ON "Type3")) by (rewrite (same_get _ _ HSm); exact HT).
        destruct fuel; cbn [Font_Model.make_font]; unfold get_or at 1 2 3 4; rewrite ES; reflexivity.
      + eapply ev_type3; [|exact HS|exact HV|exact HL|exact (same_value _ _ HSm _ _ _ HM)|exact HN|exact (same_ends _ _ HSm _ W1)|exact (same_ends _ _ HSm _ W2)
          |exact (same_unicode _ _ HSm _ HU)|exact (same_encoding _ _ HSm _ HE)].
        destruct HD as [[D1 D2]|(D1 & b & D2 & D3)]; [left|right]; rewrite !(same_get _ _ HSm).
        * split; [exact D1|exact (same_value _ _ HSm _ _ _ D2)].
        * split; [exact D1|exists b; split; assumption].
    - eapply (EV _ _ _ (fun d fuel => make_font d fuel) (fun d => cid_font d)).
      + intros d fuel. apply make_cid. exact (same_subtype _ _ HSm _ HT).
      + eapply ev_cid; [rewrite (same_get _ _ HSm); exact HE|exact HC|exact (same_collection _ _ HSm _ HCo)|exact (same_value _ _ HSm _ _ _ HD)|exact HS|exact HP| | |exact (same_texts _ _ HSm _ _ _ HX)].
        * intros Hv. destruct (HW Hv) as (w & decl & X1 & X2). exists w, decl. split; [exact (same_value _ _ HSm _ _ _ X1)|exact X2].
        * intros Hv. destruct (HW2 Hv) as [(w & decl & X1 & X2) X3]. split; [exists w, decl; split; [exact (same_value _ _ HSm _ _ _ X1)|exact X2]|].
          rewrite (same_get _ _ HSm). exact X3.
    - pose proof (same_merged _ _ HSm _ _ HM) as HM'. destruct (merged_ends _ _ _ HM') as [M1 M2].
      destruct (ev_type0 sp x l sub) as (s2 & K1 & (n1 & K2)); [rewrite (same_get _ _ HSm); exact HT|exact (same_value _ _ HSm _ _ _ HD)|exact HX|exact M1|exact M2|].
      destruct (IH s2 (merged_one _ _ _ _ HM' K1)) as (f & n & F & R). exists f, (S (n + n1)). split; [|exact R].
      intros d fuel Hd Hf. destruct fuel as [|fuel]; [lia|]. rewrite K2 by lia. apply F; lia.
  Qed.
  (* C86. A well-formed font dictionary gives a font that reads strings as the dictionary says. *)
  Theorem C86_font spec codes texts : FontReads spec codes texts ->
    exists f n, (forall d fuel, (n <= d)%nat -> (n <= fuel)%nat -> make_font d fuel spec = Ok f) /\
      (forall s cids, codes s cids -> decode f s = Ok cids) /\ (forall c, to_unichr f c = texts c).
  Proof. intros H. destruct (font_builds _ _ _ H spec ltac:(intros k; reflexivity)) as (f & n & F & R1 & R2). exists f, n. splits; assumption. Qed.
  (* the same for a font in the resources of a page: it is read without an exception, whatever fonts were read before *)
  Theorem C86_resource o g : FontAt getobj glyphs bases metrics load_cmap load_umap data o g ->
    exists f n, (forall d fuel, (n <= d)%nat -> (n <= fuel)%nat -> get_font getobj d glyphs bases metrics load_cmap load_umap (get_data d) bufsiz fuel [] o =
        Ok (f, match o with ORef i => if i =? 0 then [] else iput [] i f | _ => [] end)) /\
      (forall s cids, f_decode g s = Ok cids -> f_decode (as_font f) s = Ok cids) /\ (forall c, f_unichr (as_font f) c = f_unichr g c).
  Proof.
    intros (spec & codes & texts & HL & HF & HD & HU). destruct (C86_font _ _ _ HF) as (f & n & F & R1 & R2). destruct (leads_dict _ _ _ HL) as (m & L).
    exists f, (n + m)%nat. splits.
    - intros d fuel Hd Hf. unfold get_font. rewrite L by lia. cbn [bind].
      replace (match match o with ORef i => if i =? 0 then None else Some i | _ => None end with Some i => iget [] i | None => None end) with (@None pfont) by (destruct o; try reflexivity; destruct (_ =? 0); reflexivity).
      rewrite F by lia. cbn [bind]. destruct o; try reflexivity. destruct (_ =? 0); reflexivity.
    - intros s cids H. cbn [as_font f_decode]. apply R1, HD, H.
    - intros c. cbn [as_font f_unichr]. rewrite R2, HU. reflexivity.
  Qed.
End fonts.

(* ---------- cases: a standard font with differences and a ToUnicode CMap, a Type 3 font, a composite font ---------- *)
Definition fbases : list umap := [[(65, [65]); (66, [66])]; []; []; []].
Definition fdata (o : obj) (t : list Z) : Prop := exists a, o = OStream a t.
Definition reads_doc := FontReads fdoc two_glyphs fbases helv (fun _ => None) (fun _ _ => None) fdata.
Definition ft_helv : dict := nm "BaseFont" (ON "Helvetica") :: t1.
Definition ft_type3 : dict := [nm "Subtype" (ON "Type3"); nm "FontBBox" (OArr [OInt 0; OInt 0; OInt 9; OInt 9]); nm "FirstChar" (ORef 5); nm "Widths" (OArr [OInt 300]);
    nm "FontMatrix" (OArr [OReal (bs "0.001"); OInt 0; OInt 0; OReal (bs "0.001"); OInt 0; OInt 0])].
Definition ft_type0 : dict := [nm "Subtype" (ON "Type0"); nm "Encoding" (ON "Identity-V"); nm "DescendantFonts" (OArr [ORef 8]); nm "ToUnicode" (ORef 9)].
Definition small_asg : list (Z * list Z) := [(1, [65]); (2, [66]); (3, [67]); (2, [97]); (5, [128512])].
Lemma small_unicode spec o : dget spec "ToUnicode" = Some o -> Leads fdoc ONull o (OStream [] small_text) -> UnicodeOf fdoc fdata spec small_asg.
Proof.
  intros H L. destruct C46_hypotheses as (ts & H1 & H2 & _). eapply (UO_stream _ _ _ o [] small_text); [exact H|exact L|exists []; reflexivity|exact H1|exact H2].
Qed.
Lemma sound_nil g : Sound g [].
Proof. repeat constructor; intros o H; discriminate H. Qed.
Example C86_hypotheses :
  reads_doc ft_helv one_byte (fun c => match last_for small_asg c with Some t => Some t | None =>
    match last_for [(2, [233]); (66, [65]); (67, [233])] c with Some t => Some t | None => base fbases (bs "StandardEncoding") c end end) /\
  reads_doc ft_type3 one_byte (fun c => match last_for [] c with Some t => Some t | None => base fbases (bs "StandardEncoding") c end) /\
  reads_doc ft_type0 two_bytes (last_for small_asg) /\ two_bytes [0; 1; 1; 0] [1; 256] /\ last_for small_asg 1 = Some [65].
Proof.
  splits; [| | | |reflexivity].
  - eapply FR_standard with (n := bs "Helvetica") (d := []).
    + right. exists (bs "Type1"). split; [reflexivity|]. intros H. cbn [map In] in H. destruct H as [H|[H|[H|[H|[]]]]]; discriminate H.
    + left. reflexivity.
    + reflexivity.
    + apply sound_nil.
    + eapply small_unicode; [reflexivity|]. eapply Leads_ref; [reflexivity|]. apply Leads_stop; discriminate.
    + apply CO_entry; [right; reflexivity|]. eapply (EN_dict _ _ _ ft_helv _ _ (bs "StandardEncoding") [OInt 2; ON "eacute"; OInt 66; ON "A"; ON "eacute"]).
      * reflexivity.
      * apply Leads_stop; discriminate.
      * right. split; reflexivity.
      * eapply V_present; [reflexivity|]. apply Leads_stop; discriminate.
      * repeat (apply Forall_cons; [first [left; eexists; reflexivity|right; eexists; reflexivity]|]). apply Forall_nil.
      * repeat apply Tx_means; try (apply M_list; reflexivity). apply Tx_nil.
  - eapply FR_type3 with (bb := [OInt 0; OInt 0; OInt 9; OInt 9]) (m := [OReal (bs "0.001"); OInt 0; OInt 0; OReal (bs "0.001"); OInt 0; OInt 0])
      (d := [(ON "Ascent", OInt 0); (ON "Descent", OInt 0); (ON "FontBBox", OArr [OInt 0; OInt 0; OInt 9; OInt 9])]).
    + reflexivity.
    + right. split; [reflexivity|]. eexists. split; reflexivity.
    + repeat constructor; intros o H; try discriminate H; injection H as <-; eexists; apply Leads_stop; discriminate.
    + eapply V_present; [reflexivity|]. apply Leads_stop; discriminate.
    + reflexivity.
    + eapply V_present; [reflexivity|]. apply Leads_stop; discriminate.
    + split; [reflexivity|]. repeat (constructor; [first [left; eexists; reflexivity|right; eexists; reflexivity]|]). constructor.
    + intros o H. injection H as <-. eexists. eapply Leads_ref; [reflexivity|]. apply Leads_stop; discriminate.
    + intros o H. injection H as <-. eexists. apply Leads_stop; discriminate.
    + apply UO_none. reflexivity.
    + apply EN_name, V_absent. reflexivity.
  - eapply FR_type0 with (x := ORef 8) (sub := cidspec) (sub' := dict_set (dict_set cidspec (ON "Encoding") (ON "Identity-V")) (ON "ToUnicode") (OStream [] small_text)).
    + reflexivity.
    + eapply V_present; [reflexivity|]. apply Leads_stop; discriminate.
    + eapply Leads_ref; [reflexivity|]. apply Leads_stop; discriminate.
    + split.
      * intros k [<-|[<-|[]]].
        -- exists (ON "Identity-V"). split; [apply Leads_stop; discriminate|reflexivity].
        -- exists (OStream [] small_text). split; [eapply Leads_ref; [reflexivity|]; apply Leads_stop; discriminate|reflexivity].
      * intros k K1 K2. unfold ON. rewrite !dict_get_set_other by (apply key_ne; congruence). reflexivity.
    + eapply FR_cid with (n := bs "Identity-V") (v := true) (c := bs "unknown-unknown") (d := [nm "MissingWidth" (ORef 5)]).
      * exists "CIDFontType2"%string. split; [right; left; reflexivity|reflexivity].
      * reflexivity.
      * apply CM_v.
      * exists [], (bs "unknown"), (bs "unknown"). splits; try (apply V_absent; reflexivity). reflexivity.
      * eapply V_present; [reflexivity|]. eapply Leads_ref; [reflexivity|]. apply Leads_stop; discriminate.
      * repeat constructor; intros o H; try discriminate H. injection H as <-. eexists. eapply Leads_ref; [reflexivity|]. apply Leads_stop; discriminate.
      * intros ff H. discriminate H.
      * discriminate.
      * intros _. split; [exists [], []; split; [apply V_absent; reflexivity|constructor]|]. intros o H. discriminate H.
      * apply CT_map; [discriminate|]. eapply small_unicode; [reflexivity|]. apply Leads_stop; discriminate.
  - split; [reflexivity|]. repeat constructor; lia.
Qed.
