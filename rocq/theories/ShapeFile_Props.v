(* C103: lines, rectangles, curves and images of the pages of a file stand where the file says. *)
From Coq Require Import String.
From Verif Require Import Base Lex_Model Lex_Spec Lines_Model Lines_Spec Markup_Spec Obj Stack_Model Stack_Spec Content_Model Content_Spec Stream_Model Stream_Spec Stream_Props XRef_Model XRef_Spec XRef_Proofs
  Doc_Model Doc_Spec Doc_Proofs Doc_Props Num Geom_Model Page_Model Page_Spec Page_Proofs Page_Props Interp_Model Interp_Spec Interp_Props CMap_Model CMap_Spec CMap_Proofs Font_Model Font_Spec Font_Proofs Font_Props
  Sec_Model Open_Model Open_Spec Open_Props Fallback_Model Fallback_Spec Fallback_Proofs Fallback_Props Sections_Spec Sections_Props Convert_Model Convert_Spec TextFile_Props
  Names_Props Total_Spec Total_Props Instr_Spec Instr_Props Multi_Spec Multi_Props FontTotal_Spec FontTotal_Props Extract_Model Extract_Spec Extract_Proofs Extract_Props
  State_Spec State_Props Forms_Props Place_Props Measure_Spec Measure_Props PlaceFile_Spec PlaceFile_Props Shape_Spec Shape_Props ShapeFile_Spec.
From Coq Require Import Qcanon ZifyBool ZifyNat.
Open Scope Z_scope.
Import ListNotations.

Section same.
  Context (g h : Z -> option obj) (Hgh : forall i, g i = h i) (zlib : list Z -> option (list Z)) (ccitt : list Z -> obj -> res (list Z)).
  Lemma drawn_same path q : PageDrawn zlib ccitt g path q -> PageDrawn zlib ccitt h path q.
  Proof.
    intros (mb & x0 & y0 & x1 & y1 & r & k & res & d & xs & cs & images & others & c & objs & V1 & N & V2 & K & B & V3 & L & Cx & HI & HO & Cc & Nc & V4 & T & S).
    exists mb, x0, y0, x1, y1, r, k, res, d, xs, cs, images, others, c, objs. splits; try (eapply pvalue_same; eassumption); try assumption.
    - eapply leads_same; eassumption.
    - eapply category_same; eassumption.
    - intros n st Hn. destruct (HI n st Hn) as (x & a & data & w & hh & E1 & Ld & E2 & E3). exists x, a, data, w, hh. splits; try apply E3; try assumption. eapply leads_same; eassumption.
    - intros n Hn. destruct (HO n Hn) as (x & a & data & E1 & Ld & E3). exists x, a, data. splits; try assumption. eapply leads_same; eassumption.
    - eapply category_same; eassumption.
    - eapply tokens_same; eassumption.
  Qed.
End same.

(* ---------- the colour spaces at the start ---------- *)
Lemma fold_res_keeps_in {A B} (P : A -> Prop) (f : A -> B -> res A) l : (forall a b a', In b l -> P a -> f a b = Ok a' -> P a') -> forall a a', P a -> fold_res f a l = Ok a' -> P a'.
Proof.
  induction l as [|x l IH]; intros H a a' Ha; cbn [fold_res]; [congruence|]. destruct (f a x) eqn:E; cbn [bind]; [|discriminate]. apply IH; [|eapply H; [left; reflexivity|exact Ha|exact E]].
  intros b c b' Hc. apply H. right. exact Hc.
Qed.
Lemma named_in d n v : named d -> In (OName n, v) d -> dict_get d (OName n) = Some v.
Proof.
  induction d as [|[k w] d IH]; intros Hn H; [destruct H|]. destruct (named_cons _ _ _ Hn) as ([m ->] & Hm & Hn'). cbn [dict_get key_eqb]. destruct H as [E|H].
  - injection E as -> ->. rewrite list_eqb_refl. reflexivity.
  - destruct (list_eqb m n) eqn:E; [|exact (IH Hn' H)]. apply list_eqb_eq in E as ->. destruct (Hm _ H).
Qed.
Lemma prep_spaces getobj depth mkfont ctm r ig s d cs : prep_state getobj depth mkfont ctm r ig = Ok s -> Leads getobj ONull r (ODict d) -> named d ->
  category getobj d "ColorSpace" cs -> named cs -> (forall n, In n device_names -> dict_get cs (ON n) = None) -> device_spaces s.
Proof.
  intros E Hl Hd Hc Hcn Hdev. unfold prep_state, init_resources in E. cbv zeta in E.
  destruct (dict_value getobj depth _) as [d'|] eqn:Ed; cbn [bind] in E; [|discriminate]. cbn in Ed. pose proof (dict_value_leads getobj _ _ _ _ Hl Ed) as ->.
  refine (fold_res_keeps_in device_spaces _ d _ _ _ _ E).
  2:{ intros n k H. cbn in H. destruct H as [H|[H|[H|[]]]]; injection H as <- <-; reflexivity. }
  intros a [k v] a' Hin Ha. cbn [fst snd].
  destruct (match k with OName m => list_eqb m (bs "Font") | _ => false end).
  { destruct (dict_value getobj depth v) as [fs|]; cbn [bind]; [|discriminate]. intros X. refine (fold_res_keeps device_spaces _ fs _ _ _ Ha X).
    intros b e b' Hb Hx. destruct (mkfont (snd e)); cbn [bind] in Hx; [|discriminate]. injection Hx as <-. exact Hb. }
  destruct (match k with OName m => list_eqb m (bs "ColorSpace") | _ => false end) eqn:Ek.
  { destruct k; try discriminate. apply list_eqb_eq in Ek as ->. pose proof (named_in _ _ _ Hd Hin) as Ev. destruct (dict_value getobj depth v) as [fs|] eqn:Efs; cbn [bind]; [|discriminate].
    assert (fs = cs) as ->. { destruct Hc as [[Ec _]|(v' & Ec & Lv)]; [unfold ON in Ec; rewrite Ec in Ev; discriminate|]. unfold ON in Ec. rewrite Ec in Ev. injection Ev as ->. symmetry. symmetry. eapply dict_value_leads; eassumption. }
    intros X. refine (fold_res_keeps_in device_spaces _ cs _ _ _ Ha X). intros b [k2 v2] b' Hin2 Hb Hx. cbn [fst snd] in Hx.
    destruct (resolved getobj depth v2) as [o|]; cbn [bind] in Hx; [|discriminate]. destruct (get_colorspace getobj depth o) as [c|]; cbn [bind] in Hx; [|discriminate]. injection Hx as <-.
    assert (K2 : exists m, k2 = OName m) by (destruct Hcn as [_ F]; rewrite Forall_forall in F; exact (F _ Hin2)). destruct K2 as [m ->]. pose proof (named_in _ _ _ Hcn Hin2) as Em.
    intros n kk Hk. cbn [s_cs with_cs]. unfold ON. rewrite assoc_get_set. destruct (list_eqb m (bs n)) eqn:Emn; [|exact (Hb n kk Hk)]. exfalso. apply list_eqb_eq in Emn as ->.
    assert (Hi : In n device_names) by (cbn in Hk; cbn; destruct Hk as [Hk|[Hk|[Hk|[]]]]; injection Hk as <- <-; tauto). specialize (Hdev n Hi). unfold ON in Hdev. congruence. }
  destruct (match k with OName m => list_eqb m (bs "ProcSet") | _ => false end).
  { destruct (list_value getobj depth v) as [fs|]; cbn [bind]; [|discriminate]. intros [= <-]. exact Ha. }
  destruct (match k with OName m => list_eqb m (bs "XObject") | _ => false end); [|intros [= <-]; exact Ha].
  destruct (dict_value getobj depth v) as [fs|]; cbn [bind]; [|discriminate]. intros X. refine (fold_res_keeps device_spaces _ fs _ _ _ Ha X).
  intros b e b' Hb Hx. injection Hx as <-. exact Hb.
Qed.
(* ---------- the external objects ---------- *)
Lemma do_image getobj depth xobjs xs n st ctm pg r : (forall m, assoc_get xobjs (OName m) = dict_get xs (OName m)) -> ImageOf getobj xs n st ->
  item_Do getobj depth xobjs ctm pg (OName n) = Ok r -> r = Some (PItem (make_image st ctm)).
Proof.
  intros HX (x & a & data & w & hh & E1 & Ld & -> & E3 & E4 & E5). unfold item_Do. cbn [hashable negb]. rewrite HX, E1. unfold validated_stream.
  destruct (resolved getobj depth x) as [o|] eqn:Eo; cbn [bind]; [|discriminate]. pose proof (resolved_leads getobj _ _ _ _ Ld Eo) as ->. cbn [sattrs]. unfold dget. rewrite E3, E4, E5. unfold ON. cbv beta iota zeta.
  change (list_eqb (bs "Image") (bs "Form")) with false. change (list_eqb (bs "Image") (bs "Image")) with true. cbv beta iota. intros H. injection H as <-. reflexivity.
Qed.
Lemma do_other getobj depth xobjs xs n ctm pg p : (forall m, assoc_get xobjs (OName m) = dict_get xs (OName m)) -> OtherIn getobj xs n ->
  item_Do getobj depth xobjs ctm pg (OName n) = Ok (Some p) -> not_shape p.
Proof.
  intros HX (x & a & data & E1 & Ld & E3). unfold item_Do. cbn [hashable negb]. rewrite HX, E1. unfold validated_stream.
  destruct (resolved getobj depth x) as [o|] eqn:Eo; cbn [bind]; [|discriminate]. pose proof (resolved_leads getobj _ _ _ _ Ld Eo) as ->. cbn [sattrs]. cbv zeta. unfold dget.
  assert (EI : match dict_get a (ON "Subtype") with Some (OName st) => list_eqb st (bs "Image") | _ => false end = false).
  { destruct (dict_get a (ON "Subtype")) as [[]|]; try reflexivity. destruct (list_eqb _ _) eqn:E; [|reflexivity]. apply list_eqb_eq in E as ->. destruct (E3 eq_refl). }
  rewrite EI. intros H.
  destruct (match dict_get a (ON "Subtype") with Some (OName st) => list_eqb st (bs "Form") | _ => false end); [|discriminate H].
  destruct (dict_get a (ON "BBox")) as [bb|]; [|discriminate H]. destruct (list_value getobj depth bb) as [b|]; cbn [bind] in H; [|discriminate H].
  destruct (form_matrix getobj depth _) as [m|]; cbn [bind] in H; [|discriminate H]. destruct (form_resources getobj depth _ _) as [rr|]; cbn [bind] in H; [|discriminate H].
  destruct (nums b) as [v|]; [|discriminate H]. unfold make_xobject in H. destruct v as [|v1 [|v2 [|v3 [|v4 [|]]]]]; cbn [bind] in H; try discriminate H. injection H as <-. exact Logic.I.
Qed.

(* ---------- a page ---------- *)
Section main.
  Context (zlib : list Z -> option (list Z)) (ccitt : list Z -> obj -> res (list Z)).
  Context (md5 sha256 : list Z -> list Z) (aes : list Z -> list Z -> list Z -> res (list Z)).
  Context (glyphs : list Z -> option (list Z)) (bases : list umap) (metrics : list Z -> option (dict * list (list Z * num)))
          (load_cmap : list Z -> option (bool * list (Z * trie))) (load_umap : list Z -> bool -> option umap).
  Notation interpret := (interpret zlib ccitt glyphs bases metrics load_cmap load_umap).
  Notation pages_of := (pages_of zlib ccitt md5 sha256 aes glyphs bases metrics load_cmap load_umap).
  Notation PageShows := (PageShows zlib ccitt glyphs bases metrics load_cmap load_umap).
  Notation PageDrawn := (PageDrawn zlib ccitt).
  Lemma shape_lemma n (Hn : (0 < n)%nat) h lenient lp p ts q : PageOf h lp p -> PageShows h lenient (snd lp) ts -> PageDrawn h (snd lp) q ->
    exists m, forall d i w hh items, (m <= d)%nat -> interpret_page zlib ccitt glyphs bases metrics load_cmap load_umap n h d lenient (i, p) = Ok (Convert_Model.mkPage i w hh (items, None)) ->
      Forall2 (Item (fst q)) (snd q) (shape_items items).
  Proof.
    intros (_ & _ & VR & (o & EM & LM) & _ & (rt & VRt & ERt) & (c & VC & EC)) (kk & mb' & r' & c' & _ & _ & VR' & _ & D)
      (mb & x0 & y0 & x1 & y1 & r & k & res & d0 & xs & cs & images & others & c2 & objs & V1 & N & V2 & K & B & V3 & L & Cx & HI & HO & Cc & Nc & V4 & T & SH).
    assert (one : forall path kk dflt v v', Page_Spec.Value h path kk dflt v -> Page_Spec.Value h path kk dflt v' -> v = v').
    { intros path k1 dflt v v'. unfold Page_Spec.Value. destruct (attr path k1); [apply leads_one|congruence]. }
    pose proof (one _ _ _ _ _ VR V3) as ER. pose proof (one _ _ _ _ _ VR' V3) as ->. rewrite (one _ _ _ _ _ VC V4) in EC. pose proof (one _ _ _ _ _ VRt V2) as ->.
    assert (EB : pg_mediabox p = OArr mb) by (unfold Page_Spec.Value in V1; rewrite EM in V1; eapply leads_one; eassumption). clear one.
    destruct kk as [|kk]; [destruct D|]. destruct D as (d1 & fs1 & xs1 & cs1 & objs1 & (L1 & Nd & C1 & N1 & Cx1 & Nx & Cc1 & Ncs & _) & _).
    pose proof (leads_one _ _ _ _ L L1) as Ed. injection Ed as <-. pose proof (category_one _ _ _ _ _ Cx Cx1) as <-. pose proof (category_one _ _ _ _ _ Cc Cc1) as <-.
    destruct (tokens_lemma zlib ccitt glyphs metrics load_cmap load_umap n Hn h _ _ T) as (m2 & HT).
    exists (S m2). intros d i w hh items Hd. unfold interpret_page, media_box. rewrite EB.
    destruct (forall2_nums _ _ N) as (Nu & _ & Len). destruct mb as [|b1 [|b2 [|b3 [|b4 [|? ?]]]]]; try discriminate Len. cbn [bind]. rewrite Nu. cbn [bind].
    rewrite ER, ERt, K. set (doc_font := doc_font zlib ccitt glyphs bases metrics load_cmap load_umap n h). set (content := content zlib ccitt n h).
    destruct (prep_state h d (doc_font d) (page_ctm (90 * k) x0 y0 x1 y1) res lenient) as [s0|] eqn:EP; cbn [bind]; [|discriminate].
    unfold page_size. intros X. injection X as X1 X2 X3. destruct q as [base out]. cbn [fst snd] in *. subst base.
    destruct d as [|d]; [lia|]. set (D := S d) in *. change (process h D (doc_font D) (content D) D) with (process h D (doc_font D) (content D) (S d)) in X3. cbn [process] in X3.
    unfold content in X3 at 1. rewrite EC, HT in X3 by lia.
    destruct (run h D (doc_font D) _ s0 objs) as [[its e1] s1] eqn:ERun. cbn [fst] in X3. injection X3 as -> Ee. destruct e1; [discriminate Ee|]. clear Ee.
    destruct (prep_resources h D (doc_font D) _ _ _ _ _ _ _ EP L1 Nd C1 N1 Cx Nx) as [_ RX].
    destruct (C66_form_start h D (doc_font D) _ _ _ _ EP) as (P1 & P2 & P3 & P4 & P5 & P6 & P7 & P8 & P9).
    eapply (C103_run h D (doc_font D)); [exact SH| |exact ERun]. constructor.
    - intros [x y]. rewrite P1, ctm_image by (pose proof (Z.mod_pos_bound r 360 ltac:(lia)); lia). reflexivity.
    - split; [|split]; discriminate.
    - rewrite P3. constructor.
    - exact P4.
    - exact P6.
    - eapply prep_spaces; eassumption.
    - intros nm st Hi ctm pg rr. apply (do_image h D (s_xobjs s0) xs nm st ctm pg rr RX), HI, Hi.
    - intros nm Ho ctm pg pp. apply (do_other h D (s_xobjs s0) xs nm ctm pg pp RX), HO, Ho.
  Qed.
  (* a page of the output, and what it should be *)
  Definition page_drawn (p : opage) (q : list (list Z) * drawing) : Prop :=
    exists items, pg_items p = (items, None) /\ Reads items (fst q) /\ Forall2 (Item (fst (snd q))) (snd (snd q)) (shape_items items).
  Lemma drawn_pages n (Hn : (0 < n)%nat) h lenient chosen pages spec : Forall2 (PageOf h) chosen pages ->
    Forall2 (fun lp q => PageShows h lenient (snd lp) (fst q) /\ PageDrawn h (snd lp) (snd q)) chosen spec -> chosen <> [] ->
    exists m, forall d, (m <= d)%nat -> exists ps, interpret n h d lenient (pages, None) = (ps, None) /\
      map pg_num ps = map Z.of_nat (seq 0 (length spec)) /\ Forall2 page_drawn ps spec.
  Proof.
    intros HP HS Hne.
    assert (G : exists m, forall d, (m <= d)%nat -> forall i, exists ps, gmap_list (interpret_page zlib ccitt glyphs bases metrics load_cmap load_umap n h d lenient) (number (Z.of_nat i) pages) = (ps, None) /\
      map pg_num ps = map Z.of_nat (seq i (length spec)) /\ Forall2 page_drawn ps spec).
    { clear Hne. revert spec HS. induction HP as [|lp p chosen pages Hp _ IH]; intros spec HS; inversion HS as [|? q ? spec' [Hs1 Hs2] HS']; subst.
      - exists O. intros d _ i. exists []. splits; [reflexivity|reflexivity|constructor].
      - destruct (IH _ HS') as (m1 & H1). destruct (page_lemma zlib ccitt glyphs bases metrics load_cmap load_umap n Hn h _ _ _ _ Hp Hs1) as (m2 & H2).
        destruct (shape_lemma n Hn h _ _ _ _ _ Hp Hs1 Hs2) as (m3 & H3). exists (m1 + m2 + m3)%nat. intros d Hd i.
        destruct (H1 d ltac:(lia) (S i)) as (ps & E1 & E2 & E3). destruct (H2 d (Z.of_nat i) ltac:(lia)) as (w & hh & items & E4 & R).
        pose proof (H3 d (Z.of_nat i) w hh items ltac:(lia) E4) as E5.
        exists (Convert_Model.mkPage (Z.of_nat i) w hh (items, None) :: ps). cbn [number gmap_list]. rewrite E4.
        replace (Z.of_nat i + 1) with (Z.of_nat (S i)) by lia. rewrite E1. splits; [reflexivity|cbn [map length seq pg_num]; rewrite E2; reflexivity|].
        constructor; [|exact E3]. exists items. splits; [reflexivity|exact R|exact E5]. }
    destruct G as (m & G). exists m. intros d Hd. destruct (G d Hd 0%nat) as (ps & E1 & E2 & E3). exists ps. split; [|split; assumption].
    unfold Extract_Model.interpret, gmap. cbn [fst snd]. change (Z.of_nat 0) with 0 in E1. rewrite E1. unfold gapp. cbn [fst snd]. rewrite app_nil_r.
    destruct ps as [|p ps]; [|reflexivity]. inversion E3; subst. inversion HS; subst. contradiction.
  Qed.
  (* C103. A file, not encrypted, whose chosen pages are said to show certain texts and to draw certain lines, rectangles, curves and
     images: interpreting it, with or without caching and the check for permission, whatever the password, gives these pages, numbered
     from 0; they read these texts, and their items other than text and forms are those drawn, in order, each of the right kind, with the
     path, rule, line width and colours of the page; and the box of a line, a rectangle or an image is the smallest around its points
     where the page puts them. *)
  Theorem C103_file_partial e caching check password pagenos maxpages lenient getobj spec : (0 < bufsiz e)%nat -> (forall o, (forall i, o <> ORef i) -> resolve e o = o) ->
    FileDrawn zlib ccitt glyphs bases metrics load_cmap load_umap getobj (stored_data zlib ccitt) (file e) pagenos maxpages lenient spec ->
    exists n1, forall F, (n1 <= F)%nat -> exists n2, forall f, (n2 <= f)%nat -> exists ps,
      pages_of e caching check password pagenos maxpages lenient F f = (ps, None) /\ map pg_num ps = map Z.of_nat (seq 0 (length spec)) /\ Forall2 page_drawn ps spec.
  Proof.
    intros Hb Hres (t & chosen & HF & HCh & Hne & HS).
    assert (Hl : leaves [] t <> []) by (intros E; rewrite E in HCh; apply Hne; destruct HCh as [(_ & ->)|(_ & _ & ->)]; [reflexivity|apply firstn_nil]).
    destruct (pages_of_file zlib ccitt md5 sha256 aes glyphs bases metrics load_cmap load_umap e caching check password pagenos maxpages lenient getobj t chosen Hb Hres HF Hl HCh) as (n1 & HP).
    exists n1. intros F HF1. destruct (HP F HF1) as (h & cp & p & Hh & FC & EX). clear HP.
    assert (HS' : Forall2 (fun lp q => PageShows h lenient (snd lp) (fst q) /\ PageDrawn h (snd lp) (snd q)) chosen spec).
    { clear -HS Hh. induction HS as [|lp q ls qs [H1 H2] _ IH]; constructor; [|exact IH]. split; [eapply shows_same; eassumption|eapply drawn_same; eassumption]. }
    destruct (drawn_pages (bufsiz e) Hb h lenient chosen cp spec FC HS' Hne) as (m & HQ). exists (p + m)%nat. intros f Hf.
    destruct (HQ f ltac:(lia)) as (ps & EI & EN & FR). exists ps. split; [|split; assumption]. rewrite EX by lia. exact EI.
  Qed.
End main.
