(* C94: the characters of the pages of a file stand where the file says. *)
From Coq Require Import String.
From Verif Require Import Base Lex_Model Lex_Spec Lines_Model Lines_Spec Markup_Spec Obj Stack_Model Stack_Spec Content_Model Content_Spec Stream_Model Stream_Spec Stream_Props XRef_Model XRef_Spec XRef_Proofs
  Doc_Model Doc_Spec Doc_Proofs Doc_Props Num Geom_Model Page_Model Page_Spec Page_Proofs Page_Props Interp_Model Interp_Spec CMap_Model CMap_Spec CMap_Proofs Font_Model Font_Spec Font_Props
  Sec_Model Open_Model Open_Spec Open_Props Fallback_Model Fallback_Spec Fallback_Proofs Fallback_Props Sections_Spec Sections_Props Convert_Model Convert_Spec TextFile_Props
  Names_Props Total_Spec Total_Props Instr_Spec Instr_Props Multi_Spec Multi_Props FontTotal_Spec FontTotal_Props Extract_Model Extract_Spec Extract_Proofs Extract_Props
  State_Spec State_Props Forms_Props Place_Spec Place_Props Measure_Spec Measure_Props PlaceFile_Spec.
From Coq Require Import Qcanon ZifyBool ZifyNat.
Open Scope Z_scope.
Import ListNotations.

(* ---------- fonts that show strings alike ---------- *)
Definition alike (f f' : font) : Prop :=
  (forall s cids, f_decode f s = Ok cids -> f_decode f' s = Ok cids) /\ (forall c, f_unichr f' c = f_unichr f c) /\ (forall c, f_width f' c = f_width f c) /\
  f_vertical f' = f_vertical f /\ f_multibyte f' = f_multibyte f /\ f_descent f' = f_descent f /\ f_height f' = f_height f.
Definition oalike (a b : option font) : Prop := match a, b with Some f, Some f' => alike f f' | None, None => True | _, _ => False end.
Definition par_as (P P' : tpar) : Prop :=
  p_char P' = p_char P /\ p_word P' = p_word P /\ p_scale P' = p_scale P /\ p_lead P' = p_lead P /\ p_rise P' = p_rise P /\ p_size P' = p_size P /\ p_mode P' = p_mode P /\
  oalike (p_font P) (p_font P').
Definition saved_as (S S' : list (list coefs * tpar)) : Prop := Forall2 (fun a b => fst a = fst b /\ par_as (snd a) (snd b)) S S'.
Lemma seq_as f f' l r : alike f f' -> tj_seq (f_decode f) l r -> tj_seq (f_decode f') l r.
Proof. intros (H & _). induction 1; econstructor; eauto. Qed.
Lemma disp_as w w' a b c d x : (forall c, w' c = w c) -> spec_disp w' a b c d x = spec_disp w a b c d x.
Proof. intros H. destruct x; cbn; [reflexivity|rewrite H; reflexivity]. Qed.
Lemma places_as w w' a b c d l : (forall c, w' c = w c) -> forall x, spec_places w' a b c d x l = spec_places w a b c d x l.
Proof.
  intros H. induction l as [|[v|z] l IH]; intros x; [reflexivity| |]; cbn [spec_places]; rewrite (disp_as w w' _ _ _ _ _ H), IH; reflexivity.
Qed.
Lemma total_as w w' a b c d l : (forall c, w' c = w c) -> spec_total w' a b c d l = spec_total w a b c d l.
Proof. intros H. unfold spec_total. induction l as [|x l IH]; [reflexivity|]. cbn [fold_right]. rewrite IH, (disp_as w w' _ _ _ _ _ H). reflexivity. Qed.
Section as_.
  Context (lenient : bool) (fonts fonts' : list Z -> option font) (base base' : num * num -> num * num).
  Context (HF : forall n f, fonts n = Some f -> exists f', fonts' n = Some f' /\ alike f f') (HB : forall p, base' p = base p).
  Lemma codes_as P P' l r : par_as P P' -> codes P l r -> codes P' l r.
  Proof.
    intros (_ & _ & _ & _ & _ & _ & _ & H) (f & E & S). rewrite E in H. destruct (p_font P') as [f'|] eqn:E'; [|destruct H]. exists f'. split; [exact E'|eapply seq_as; eassumption].
  Qed.
  Lemma said_as' T M P P' x l cs x' : par_as P P' -> Said lenient base T M P x l cs x' -> Said lenient base' T M P' x l cs x'.
  Proof.
    intros (H1 & H2 & H3 & H4 & H5 & H6 & _ & H) (f & E & V & C & Ch & U & -> & ->). rewrite E in H. destruct (p_font P') as [f'|] eqn:E'; [|destruct H].
    destruct H as (A1 & A2 & A3 & A4 & A5 & A6 & A7). exists f'. assert (WS : word_space f' P' = word_space f P) by (unfold word_space; rewrite A5, H2; reflexivity). cbv zeta. splits.
    - exact E'.
    - congruence.
    - congruence.
    - exact Ch.
    - destruct U as [U|U]; [left; exact U|right]. intros c Hc. rewrite A2. apply U, Hc.
    - rewrite (places_as _ _ _ _ _ _ _ A3), WS, H6, H3. apply map_ext. intros [c y]. cbn [fst snd]. rewrite A2. f_equal. unfold glyph_box.
      rewrite !HB, A3, A6, A7, H6, H3, H5. reflexivity.
    - rewrite (total_as _ _ _ _ _ _ _ A3), WS, H6, H3. reflexivity.
  Qed.
  Lemma placed_as T P S X l out : Places lenient fonts base T P S X l out -> forall P' S', par_as P P' -> saved_as S S' -> Places lenient fonts' base' T P' S' X l out.
  Proof.
    induction 1 as [T P S|T P S X o l out Ho _ IH|T P S xs a b c d e f l out Hx _ IH|T P S l out _ IH|T P T1 P1 S l out _ IH
    |T P S X x v l out Hx _ IH|T P S X x v l out Hx _ IH|T P S X x v l out Hx _ IH|T P S X x v l out Hx _ IH|T P S X x v l out Hx _ IH
    |T P S X x l out Hx _ IH|T P S X n f x v l out Hf Hx _ IH|T P S l out _ IH|T P S M x ss l out _ IH|T P S M x ss xs a b c d e f l out Hx _ IH
    |T P S M x ss u v a b l out Hu Hv _ IH|T P S M x ss u v a b l out Hu Hv _ IH|T P S M x ss l out _ IH
    |T P S M x ss seq tjs cs x' l out Hc Hs _ IH|T P S M x ss str tjs cs x' l out Hc Hs _ IH|T P S M x ss str tjs cs x' l out Hc M' Hs _ IH]; intros P' S' HP HS;
    try (pose proof HP as (K1 & K2 & K3 & K4 & K5 & K6 & K7 & K8)).
    - constructor.
    - apply pl_tok; [exact Ho|apply IH; assumption].
    - eapply pl_cm; [exact Hx|apply IH; assumption].
    - apply pl_q. apply IH; [exact HP|constructor; [split; [reflexivity|exact HP]|exact HS]].
    - inversion HS as [|? [T2 P2] ? ? [Q1 Q2] Q3]; subst. cbn [fst snd] in *. subst. apply pl_Q. apply IH; assumption.
    - eapply pl_Tc; [exact Hx|]. apply IH; [|exact HS]. unfold par_as. cbn. splits; assumption || reflexivity.
    - eapply pl_Tw; [exact Hx|]. apply IH; [|exact HS]. unfold par_as. cbn. splits; assumption || reflexivity.
    - eapply pl_Tz; [exact Hx|]. apply IH; [|exact HS]. unfold par_as. cbn. splits; assumption || reflexivity.
    - eapply pl_TL; [exact Hx|]. apply IH; [|exact HS]. unfold par_as, with_lead. cbn. splits; assumption || reflexivity.
    - eapply pl_Ts; [exact Hx|]. apply IH; [|exact HS]. unfold par_as. cbn. splits; assumption || reflexivity.
    - eapply pl_Tr; [exact Hx|]. apply IH; [|exact HS]. unfold par_as. cbn. splits; assumption || reflexivity.
    - destruct (HF _ _ Hf) as (f' & E' & A'). eapply pl_Tf; [exact E'|exact Hx|]. apply IH; [|exact HS]. unfold par_as. cbn. splits; assumption || reflexivity.
    - apply pl_BT. apply IH; assumption.
    - apply pl_ET. apply IH; assumption.
    - eapply pl_Tm; [exact Hx|]. apply IH; assumption.
    - eapply pl_Td; [exact Hu|exact Hv|]. apply IH; assumption.
    - eapply pl_TD; [exact Hu|exact Hv|]. apply IH; [|exact HS]. unfold par_as, with_lead. cbn. splits; assumption || reflexivity.
    - apply pl_next. rewrite K4. apply IH; assumption.
    - eapply pl_TJ; [eapply codes_as; eassumption|eapply said_as'; eassumption|]. apply IH; assumption.
    - eapply pl_Tj; [eapply codes_as; eassumption|eapply said_as'; eassumption|]. apply IH; assumption.
    - eapply pl_quote; [eapply codes_as; eassumption|rewrite K4; eapply said_as'; eassumption|]. rewrite K4. apply IH; assumption.
  Qed.
End as_.

(* ---------- it depends only on what getobj gives ---------- *)
Section same.
  Context (g h : Z -> option obj) (Hgh : forall i, g i = h i).
  Context (zlib : list Z -> option (list Z)) (ccitt : list Z -> obj -> res (list Z)).
  Context (glyphs : list Z -> option (list Z)) (bases : list umap) (metrics : list Z -> option (list (obj * obj) * list (list Z * num)))
          (load_cmap : list Z -> option (bool * list (Z * trie))) (load_umap : list Z -> bool -> option umap).
  Notation vs := (Extract_Proofs.value_same g h Hgh).
  Notation ls := (leads_same g h Hgh).
  Lemma figure_same d k q : Figure g d k q -> Figure h d k q.
  Proof. intros (o & V & N). exists o. split; [apply vs, V|exact N]. Qed.
  Lemma fontbox_same d a b c e : FontBox g d a b c e -> FontBox h d a b c e.
  Proof. intros (l & V & N). exists l. split; [apply vs, V|exact N]. Qed.
  Lemma line_same d a b : Line g d a b -> Line h d a b.
  Proof. destruct 1; [eapply Li_box|eapply Li_flat]; try (apply figure_same; eassumption); try (apply fontbox_same; eassumption); assumption. Qed.
  Lemma widths_same spec mw w : WidthsFrom g spec mw w -> WidthsFrom h spec mw w.
  Proof. intros (fc & ws & qs & V1 & V2 & F & H). exists fc, ws, qs. splits; [apply vs, V1|apply vs, V2|exact F|exact H]. Qed.
  Lemma measures_same spec t c w b l : Measures g metrics load_cmap spec t c w b l -> Measures h metrics load_cmap spec t c w b l.
  Proof.
    induction 1 as [spec texts n d cw mw w w' below tall HS HB HM ND HF HL HW Hw|spec texts n d mw w w' below tall HS HB HM HD HF HL HW Hw
      |spec texts d m a s e g' mw w w' x0 y0 x1 y1 HS HD HBx HMx HN HF HW Hw|spec texts n codes d ws decl dw w below tall HS HE HC HD HL HW HEn HDW Hw
      |spec texts x l sub sub' composite w below tall HT HD HX HMg _ IH].
    - eapply Me_standard; try eassumption; [apply figure_same, HF|apply line_same, HL].
    - eapply Me_simple; try eassumption; [apply vs, HD|apply figure_same, HF|apply line_same, HL|apply widths_same, HW].
    - eapply Me_type3; try eassumption; [|apply fontbox_same, HBx|apply vs, HMx|apply figure_same, HF|apply widths_same, HW].
      destruct HD as [(o & E & L)|HD]; [left; exists o; split; [exact E|apply ls, L]|right; exact HD].
    - eapply Me_cid; try eassumption; [apply vs, HD|apply line_same, HL|apply vs, HW].
    - eapply Me_type0; [exact HT|apply vs, HD|apply ls, HX|eapply merged_same; eassumption|exact IH].
  Qed.
  Lemma measured_same data o f : FontMeasured g glyphs bases metrics load_cmap load_umap data o f -> FontMeasured h glyphs bases metrics load_cmap load_umap data o f.
  Proof.
    intros (spec & codes & texts & cm & w & b & t & L & R & M & X). exists spec, codes, texts, cm, w, b, t. split; [apply ls, L|]. split; [eapply reads_same; eassumption|].
    split; [apply measures_same, M|exact X].
  Qed.
  Lemma tokens_same st os : Tokens zlib ccitt g st os -> Tokens zlib ccitt h st os.
  Proof.
    intros (tx & Hn2 & F2 & HPt). exists tx. splits; [exact Hn2| |exact HPt]. clear -F2 Hgh. induction F2 as [|o t st tx (sx & L & HDt) _ IH]; constructor; [|exact IH].
    exists sx. split; [eapply leads_same; eassumption|exact HDt].
  Qed.
  Lemma shows_same lenient path ts : PageShows zlib ccitt glyphs bases metrics load_cmap load_umap g lenient path ts -> PageShows zlib ccitt glyphs bases metrics load_cmap load_umap h lenient path ts.
  Proof.
    intros (k & mb & r & c & V1 & N & V2 & V3 & DR). exists k, mb, r, c. splits; try (eapply pvalue_same; eassumption); [exact N|].
    refine (draws_as g h _ _ _ _ Hgh _ _ k lenient r _ ts DR).
    - intros o f HF. exists f. split; [eapply fontat_same; eassumption|]. split; [auto|reflexivity].
    - apply tokens_same.
  Qed.
  Lemma placed_same lenient path p : PagePlaced zlib ccitt glyphs bases metrics load_cmap load_umap g lenient path p -> PagePlaced zlib ccitt glyphs bases metrics load_cmap load_umap h lenient path p.
  Proof.
    intros (mb & x0 & y0 & x1 & y1 & r & k & res & d & fs & fonts & c & objs & V1 & N & E & V2 & K & V3 & L & C & HF & V4 & T & PL).
    exists mb, x0, y0, x1, y1, r, k, res, d, fs, fonts, c, objs. splits; try (eapply pvalue_same; eassumption); try assumption.
    - eapply leads_same; eassumption.
    - eapply category_same; eassumption.
    - intros n f Hf. destruct (HF n f Hf) as (x & E1 & M). exists x. split; [exact E1|apply measured_same; exact M].
    - apply tokens_same, T.
  Qed.
End same.

(* ---------- a page ---------- *)
Section page.
  Context (zlib : list Z -> option (list Z)) (ccitt : list Z -> obj -> res (list Z)).
  Context (glyphs : list Z -> option (list Z)) (bases : list umap) (metrics : list Z -> option (dict * list (list Z * num)))
          (load_cmap : list Z -> option (bool * list (Z * trie))) (load_umap : list Z -> bool -> option umap).
  Context (n : nat) (Hn : (0 < n)%nat) (h : Z -> option obj).
  Notation doc_font := (doc_font zlib ccitt glyphs bases metrics load_cmap load_umap n h).
  Notation content := (content zlib ccitt n h).
  Notation FontMeasured := (FontMeasured h glyphs bases metrics load_cmap load_umap (Data zlib ccitt)).
  Lemma measured_lemma o g : FontMeasured o g -> exists m, forall d, (m <= d)%nat -> exists f, doc_font d o = Ok f /\ alike g f.
  Proof.
    intros H. destruct (C96_measures h glyphs bases metrics load_cmap load_umap (stream_data zlib ccitt h) n (Data zlib ccitt) o g Hn) as (f & m & E & R1 & R2 & R3 & R4 & R5 & R6 & R7).
    - intros a r t HD. exists 1%nat. intros d Hd. apply data_lemma; [exact HD|lia].
    - exact H.
    - exists m. intros d Hd. exists (as_font f). split; [unfold Extract_Model.doc_font; rewrite E by assumption; reflexivity|].
      destruct H as (spec & codes & texts & cm & w & b & t & _ & _ & _ & _ & _ & _ & Hv & _). unfold alike, as_font. cbn [f_decode f_unichr f_width f_vertical f_multibyte f_descent f_height].
      splits; [exact R1|exact R2|intros c; rewrite R3; reflexivity|congruence|exact R5|rewrite R6; reflexivity|rewrite R7; reflexivity].
  Qed.
  Lemma category_one d k fs fs' : category h d k fs -> category h d k fs' -> fs = fs'.
  Proof.
    intros [[E1 ->]|(v & E1 & L1)] [[E2 ->]|(v' & E2 & L2)]; [reflexivity|congruence|congruence|]. assert (v = v') by congruence. subst v'.
    pose proof (leads_one _ _ _ _ L1 L2) as E. injection E as ->. reflexivity.
  Qed.
  Lemma fonts_uniform (fs : list (obj * obj)) (fonts : list Z -> option font) :
    (forall nm f, fonts nm = Some f -> exists x, dict_get fs (OName nm) = Some x /\ FontMeasured x f) ->
    exists m, forall d, (m <= d)%nat -> forall nm f, fonts nm = Some f -> exists x f', dict_get fs (OName nm) = Some x /\ doc_font d x = Ok f' /\ alike f f'.
  Proof.
    intros HF. destruct (uniform (fun (e : obj * obj) d => forall nm f, fst e = OName nm -> fonts nm = Some f -> dict_get fs (OName nm) = Some (snd e) -> exists f', doc_font d (snd e) = Ok f' /\ alike f f') fs) as (m & U).
    { intros [k x] _. cbn [fst snd]. assert (HK : (exists nm, k = OName nm) \/ forall nm, k <> OName nm) by (destruct k; try (right; discriminate); left; eexists; reflexivity). destruct HK as [[nm ->]|HK]; [|exists O; intros F _ nm f E1; exfalso; exact (HK _ E1)]. destruct (fonts nm) as [f|] eqn:Ef; [|exists O; intros F _ nm' f E1 E2; injection E1 as <-; congruence].
      destruct (HF nm f Ef) as (x' & E1 & M). destruct (measured_lemma x' f M) as (m & Hm). exists m. intros d Hd nm' f' En Ef' Ex. injection En as <-. assert (x' = x) as -> by congruence. assert (f' = f) as -> by congruence. apply Hm, Hd. }
    exists m. intros d Hd nm f Hf. destruct (HF nm f Hf) as (x & E1 & _). destruct (U (OName nm, x)) with (F := d) (nm := nm) (f := f) as (f' & E2 & A); try assumption; try reflexivity.
    { clear -E1. revert E1. induction fs as [|[k v] fs IH]; [discriminate|]. cbn [dict_get]. destruct (key_eqb k (OName nm)) eqn:E; [|intros H; right; auto].
      intros H. injection H as ->. left. f_equal. destruct k; try discriminate E. cbn in E. apply list_eqb_eq in E. congruence. }
    exists x, f'. auto.
  Qed.
  Lemma place_lemma lenient lp p ts q : PageOf h lp p -> PageShows zlib ccitt glyphs bases metrics load_cmap load_umap h lenient (snd lp) ts ->
    PagePlaced zlib ccitt glyphs bases metrics load_cmap load_umap h lenient (snd lp) q ->
    exists m, forall d i w hh items, (m <= d)%nat -> interpret_page zlib ccitt glyphs bases metrics load_cmap load_umap n h d lenient (i, p) = Ok (Convert_Model.mkPage i w hh (items, None)) ->
      (w, hh) = fst q /\ text_items items = snd q.
  Proof.
    intros (_ & _ & VR & (o & EM & LM) & _ & (rt & VRt & ERt) & (c & VC & EC)) (kk & mb' & r' & c' & _ & _ & VR' & _ & D)
      (mb & x0 & y0 & x1 & y1 & r & k & res & d0 & fs & fonts & c2 & objs & V1 & N & E & V2 & K & V3 & L & C & HF & V4 & T & PL).
    assert (one : forall path kk dflt v v', Page_Spec.Value h path kk dflt v -> Page_Spec.Value h path kk dflt v' -> v = v').
    { intros path k1 dflt v v'. unfold Page_Spec.Value. destruct (attr path k1); [apply leads_one|congruence]. }
    pose proof (one _ _ _ _ _ VR V3) as ER. pose proof (one _ _ _ _ _ VR' V3) as ->. rewrite (one _ _ _ _ _ VC V4) in EC. pose proof (one _ _ _ _ _ VRt V2) as ->.
    assert (EB : pg_mediabox p = OArr mb) by (unfold Page_Spec.Value in V1; rewrite EM in V1; eapply leads_one; eassumption). clear one.
    destruct kk as [|kk]; [destruct D|]. destruct D as (d1 & fs1 & xs & cs & objs1 & (L1 & Nd & C1 & N1 & Cx & Nx & _) & _).
    pose proof (leads_one _ _ _ _ L L1) as Ed. injection Ed as <-. pose proof (category_one _ _ _ _ C C1) as <-.
    destruct (fonts_uniform fs fonts HF) as (m1 & U). destruct (tokens_lemma zlib ccitt glyphs metrics load_cmap load_umap n Hn h _ _ T) as (m2 & HT).
    exists (S (m1 + m2)). intros d i w hh items Hd. unfold interpret_page, media_box. rewrite EB.
    destruct (forall2_nums _ _ N) as (Nu & _ & Len). destruct mb as [|b1 [|b2 [|b3 [|b4 [|? ?]]]]]; try discriminate Len. cbn [bind]. rewrite Nu. cbn [bind].
    rewrite ER, ERt, K. destruct (prep_state h d (doc_font d) (page_ctm (90 * k) x0 y0 x1 y1) res lenient) as [s0|] eqn:EP; cbn [bind]; [|discriminate].
    unfold page_size. intros X. injection X as X1 X2 X3. destruct q as [[qw qh] out]. cbn [fst snd] in *. injection E as -> ->. split; [congruence|].
    destruct d as [|d]; [lia|]. set (D := S d) in *. change (process h D (doc_font D) (content D) D) with (process h D (doc_font D) (content D) (S d)) in X3. cbn [process] in X3. rewrite EC, HT in X3 by lia.
    destruct (run h D (doc_font D) _ s0 objs) as [[its e1] s1] eqn:ERun. cbn [fst] in X3. injection X3 as -> Ee. destruct e1; [discriminate Ee|]. clear Ee.
    destruct (prep_resources h D (doc_font D) _ _ _ _ _ _ _ EP L1 Nd C N1 Cx Nx) as [RF _].
    destruct (C66_form_start h D (doc_font D) _ _ _ _ EP) as (P1 & P2 & P3 & P4 & P5 & P6 & P7 & P8 & P9).
    set (fonts' := fun nm => match fonts nm with Some _ => assoc_get (s_fonts s0) (OName nm) | None => None end).
    assert (PL' : Places lenient fonts' (apply_matrix_pt (page_ctm (90 * k) x0 y0 x1 y1)) [] par0 [] None objs out).
    { refine (placed_as lenient fonts fonts' _ _ _ _ _ _ _ _ _ _ PL par0 [] _ _).
      - intros nm f Hf. destruct (U D ltac:(lia) nm f Hf) as (x & f' & Ex & Ef & A). exists f'. split; [|exact A]. unfold fonts'. rewrite Hf, RF. unfold font_of. rewrite Ex. unfold font_at. rewrite Ef. reflexivity.
      - intros [x y]. rewrite ctm_image by (pose proof (Z.mod_pos_bound r 360 ltac:(lia)); lia). reflexivity.
      - unfold par_as, par0. cbn. splits; reflexivity || exact Logic.I.
      - constructor. }
    eapply (C94_run h D (doc_font D)); [exact PL'| |exact ERun]. constructor.
    - intros nm f. unfold fonts'. destruct (fonts nm); [exact (fun x => x)|discriminate].
    - intros pt. rewrite P1. reflexivity.
    - unfold is_pars. rewrite P8. cbn. splits; reflexivity.
    - rewrite P3. constructor.
    - rewrite P8, P3. split; [reflexivity|constructor].
    - exact P6.
    - exact P7.
  Qed.
End page.

(* ---------- the file ---------- *)
Section main.
  Context (zlib : list Z -> option (list Z)) (ccitt : list Z -> obj -> res (list Z)).
  Context (md5 sha256 : list Z -> list Z) (aes : list Z -> list Z -> list Z -> res (list Z)).
  Context (glyphs : list Z -> option (list Z)) (bases : list umap) (metrics : list Z -> option (dict * list (list Z * num)))
          (load_cmap : list Z -> option (bool * list (Z * trie))) (load_umap : list Z -> bool -> option umap).
  Notation interpret := (interpret zlib ccitt glyphs bases metrics load_cmap load_umap).
  Notation pages_of := (pages_of zlib ccitt md5 sha256 aes glyphs bases metrics load_cmap load_umap).
  Notation PageShows := (PageShows zlib ccitt glyphs bases metrics load_cmap load_umap).
  Notation PagePlaced := (PagePlaced zlib ccitt glyphs bases metrics load_cmap load_umap).
  (* a page of the output, and what it should be *)
  Definition page_is (p : opage) (q : list (list Z) * placed_page) : Prop :=
    (pg_width p, pg_height p) = fst (snd q) /\ exists items, pg_items p = (items, None) /\ Reads items (fst q) /\ text_items items = snd (snd q).
  Lemma placed_pages n (Hn : (0 < n)%nat) h lenient chosen pages spec : Forall2 (PageOf h) chosen pages ->
    Forall2 (fun lp q => PageShows h lenient (snd lp) (fst q) /\ PagePlaced h lenient (snd lp) (snd q)) chosen spec -> chosen <> [] ->
    exists m, forall d, (m <= d)%nat -> exists ps, interpret n h d lenient (pages, None) = (ps, None) /\
      map pg_num ps = map Z.of_nat (seq 0 (length spec)) /\ Forall2 page_is ps spec.
  Proof.
    intros HP HS Hne.
    assert (G : exists m, forall d, (m <= d)%nat -> forall i, exists ps, gmap_list (interpret_page zlib ccitt glyphs bases metrics load_cmap load_umap n h d lenient) (number (Z.of_nat i) pages) = (ps, None) /\
      map pg_num ps = map Z.of_nat (seq i (length spec)) /\ Forall2 page_is ps spec).
    { clear Hne. revert spec HS. induction HP as [|lp p chosen pages Hp _ IH]; intros spec HS; inversion HS as [|? q ? spec' [Hs1 Hs2] HS']; subst.
      - exists O. intros d _ i. exists []. splits; [reflexivity|reflexivity|constructor].
      - destruct (IH _ HS') as (m1 & H1). destruct (page_lemma zlib ccitt glyphs bases metrics load_cmap load_umap n Hn h _ _ _ _ Hp Hs1) as (m2 & H2).
        destruct (place_lemma zlib ccitt glyphs bases metrics load_cmap load_umap n Hn h _ _ _ _ _ Hp Hs1 Hs2) as (m3 & H3). exists (m1 + m2 + m3)%nat. intros d Hd i.
        destruct (H1 d ltac:(lia) (S i)) as (ps & E1 & E2 & E3). destruct (H2 d (Z.of_nat i) ltac:(lia)) as (w & hh & items & E4 & R).
        destruct (H3 d (Z.of_nat i) w hh items ltac:(lia) E4) as [E5 E6].
        exists (Convert_Model.mkPage (Z.of_nat i) w hh (items, None) :: ps). cbn [number gmap_list]. rewrite E4.
        replace (Z.of_nat i + 1) with (Z.of_nat (S i)) by lia. rewrite E1. splits; [reflexivity|cbn [map length seq pg_num]; rewrite E2; reflexivity|].
        constructor; [|exact E3]. split; [exact E5|]. exists items. splits; [reflexivity|exact R|exact E6]. }
    destruct G as (m & G). exists m. intros d Hd. destruct (G d Hd 0%nat) as (ps & E1 & E2 & E3). exists ps. split; [|split; assumption].
    unfold Extract_Model.interpret, gmap. cbn [fst snd]. change (Z.of_nat 0) with 0 in E1. rewrite E1. unfold gapp. cbn [fst snd]. rewrite app_nil_r.
    destruct ps as [|p ps]; [|reflexivity]. inversion E3; subst. inversion HS; subst. contradiction.
  Qed.
  (* C94. A file, not encrypted, whose chosen pages are said to show certain texts, with characters at certain places: interpreting it,
     with or without caching and the check for permission, whatever the password, gives these pages, numbered from 0, of the size
     of their media box; they read these texts, and the text and box of every character of every string of every text object are those
     the file says. *)
  Theorem C94_file_partial e caching check password pagenos maxpages lenient getobj spec : (0 < bufsiz e)%nat -> (forall o, (forall i, o <> ORef i) -> resolve e o = o) ->
    FilePlaced zlib ccitt glyphs bases metrics load_cmap load_umap getobj (stored_data zlib ccitt) (file e) pagenos maxpages lenient spec ->
    exists n1, forall F, (n1 <= F)%nat -> exists n2, forall f, (n2 <= f)%nat -> exists ps,
      pages_of e caching check password pagenos maxpages lenient F f = (ps, None) /\ map pg_num ps = map Z.of_nat (seq 0 (length spec)) /\ Forall2 page_is ps spec.
  Proof.
    intros Hb Hres (t & chosen & HF & HCh & Hne & HS).
    assert (Hl : leaves [] t <> []) by (intros E; rewrite E in HCh; apply Hne; destruct HCh as [(_ & ->)|(_ & _ & ->)]; [reflexivity|apply firstn_nil]).
    destruct (pages_of_file zlib ccitt md5 sha256 aes glyphs bases metrics load_cmap load_umap e caching check password pagenos maxpages lenient getobj t chosen Hb Hres HF Hl HCh) as (n1 & HP).
    exists n1. intros F HF1. destruct (HP F HF1) as (h & cp & p & Hh & FC & EX). clear HP.
    assert (HS' : Forall2 (fun lp q => PageShows h lenient (snd lp) (fst q) /\ PagePlaced h lenient (snd lp) (snd q)) chosen spec).
    { clear -HS Hh. induction HS as [|lp q ls qs [H1 H2] _ IH]; constructor; [|exact IH]. split; [eapply shows_same; eassumption|eapply placed_same; eassumption]. }
    destruct (placed_pages (bufsiz e) Hb h lenient chosen cp spec FC HS' Hne) as (m & HQ). exists (p + m)%nat. intros f Hf.
    destruct (HQ f ltac:(lia)) as (ps & EI & EN & FR). exists ps. split; [|split; assumption]. rewrite EX by lia. exact EI.
  Qed.
End main.
