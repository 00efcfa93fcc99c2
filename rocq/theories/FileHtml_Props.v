(* C112: the HTML file of a PDF file. *)
From Coq Require Import String.
From Verif Require Import Base Lex_Model Obj Stack_Model Stream_Model XRef_Model Doc_Model Num Geom_Model Page_Model Interp_Model Interp_Spec CMap_Model Font_Model Sec_Model Open_Model Fallback_Model
  Markup_Model Markup_Spec Markup_Proofs Convert_Model Convert_Spec XmlFile_Spec XmlFile_Props Html_Model Html_Spec Html_Props Extract_Model Extract_Spec Place_Spec PlaceFile_Spec Colour_Spec Whole_Props Nest_Spec Nest_Props
  FileJson_Props FileHtml_Spec.
From Coq Require Import Qcanon.
Open Scope Z_scope.
Import ListNotations.

(* calls among which no exception comes out *)
Inductive calm : xcall -> Prop :=
| calm_elm tag a b1 b2 l : Forall calm l -> calm (CElm tag a b1 b2 l)
| calm_single tag a : calm (CSingle tag a)
| calm_text x y z : calm (CText x y z).
Lemma render_calm : forall c n, snd (xrender n c) = false -> calm c.
Proof.
  apply (xcall_ind2 (fun c => forall n, snd (xrender n c) = false -> calm c)).
  - intros tag a b1 b2 l IH n H. constructor. cbn [xrender] in H.
    assert (G : snd ((fix go (l : list xcall) : list Z * bool :=
           match l with
           | [] => ([], false)
           | c :: r => let '(t, raised) := xrender (S n) c in
                       if raised then (t, true) else let '(t', raised') := go r in (t ++ t', raised')
           end) l) = false).
    { match goal with |- snd ?x = _ => destruct x as [t [|]] end; [exact H|reflexivity]. }
    clear H. induction IH as [|c l Hc _ IHl]; [constructor|]. specialize (Hc (S n)). destruct (xrender (S n) c) as [t [|]]; [discriminate G|].
    constructor; [apply Hc; reflexivity|]. apply IHl. match goal with |- snd ?x = _ => destruct x as [t' b] end. exact G.
  - constructor.
  - constructor.
  - intros n H. discriminate H.
Qed.

Section html.
  Context (num_text : num -> list Z) (str_text : obj -> list Z) (image_name : obj -> list Z) (font_css : tstate -> list Z * list Z * list Z).
  (* the texts of numbers, colour values, image names and fonts *)
  Definition html_values : Prop :=
    (forall q, clean_text (num_text q)) /\ (forall v, clean_text (str_text v)) /\ (forall s, clean_text (image_name s)) /\
    forall t, let '(name, weight, angle) := font_css t in clean_text name /\ clean_text weight /\ clean_text angle.
  Notation html_item := (html_item num_text str_text image_name font_css).
  Notation h_item_trees := (h_item_trees num_text str_text image_name font_css).
  Notation HOkItem := (HOkItem str_text image_name font_css).
  Lemma got_valued c d x : get_color num_text str_text c d = Ok x -> valued c.
  Proof.
    unfold get_color, valued, has_n. destruct (c_space c) as [cs|]; [|intros _; exact Logic.I]. intros H E N. rewrite E, N in H.
    replace (qeqb (qz 1) (qz 1)) with true in H by reflexivity. discriminate H.
  Qed.
  Lemma children_calls h l : (fix go (l : list item) : list xcall := match l with [] => [] | i :: r => html_item h i ++ go r end) l = flat_map (html_item h) l.
  Proof. induction l as [|i l IH]; [reflexivity|]. cbn [flat_map]. rewrite <- IH. reflexivity. Qed.
  Lemma children_htrees h l : (fix go (l : list item) : list xtree := match l with [] => [] | i :: r => h_item_trees h i ++ go r end) l = flat_map (h_item_trees h) l.
  Proof. induction l as [|i l IH]; [reflexivity|]. cbn [flat_map]. rewrite <- IH. reflexivity. Qed.
  Lemma calm_drawable h : forall i, Forall calm (html_item h i) -> drawable i.
  Proof.
    fix IH 1. intros i H. destruct i as [|k w p b st f e|b|s b|s b l].
    - constructor.
    - cbn [Html_Model.html_item] in H. apply Forall_inv in H. unfold html_curve in H. destruct (svg_scale b) as [[[dx dy] v]|] eqn:ES; [|inversion H].
      destruct (get_color num_text str_text st []) as [sc|] eqn:E1; [|inversion H]. destruct (get_color num_text str_text f []) as [fc|] eqn:E2; [|inversion H].
      constructor; [|eapply got_valued; exact E1|eapply got_valued; exact E2]. unfold svg_scale in ES. destruct (qlt (qz 0) (by1 b - by0 b)%Qc) eqn:L; [left; apply qlt_iff; exact L|].
      right. intros X. destruct (qeqb (bx1 b - bx0 b)%Qc (qz 0)) eqn:Q; [discriminate ES|]. apply qeqb_iff in X. rewrite X in Q. discriminate Q.
    - cbn [Html_Model.html_item] in H. apply Forall_inv in H. inversion H as [? ? ? ? ? HB| |]; subst. clear H. constructor. induction (tb_blocks b) as [|cb r IHr]; [constructor|]. cbn [map] in HB.
      inversion HB as [|? ? X Y]; subst. constructor; [|apply IHr, Y]. unfold html_char_block in X. destruct (get_color num_text str_text (cb_color cb) (bs "black")) as [c|] eqn:E; [|inversion X]. eapply got_valued; exact E.
    - constructor.
    - cbn [Html_Model.html_item] in H. apply Forall_inv in H. inversion H as [? ? ? ? ? HB| |]; subst. clear H. constructor. induction l as [|i r IHr]; [constructor|]. apply Forall_app in HB as [X Y]. constructor; [apply IH, X|apply IHr, Y].
  Qed.
  Context (HV : html_values).
  Lemma family_clean n : In n families -> clean_text (bs n).
  Proof. intros H. cbn [families In] in H. decompose [or] H; subst; try contradiction; apply clean_b; reflexivity. Qed.
  Lemma known_hcolor c : color_ok (fun _ => True) c -> valued c -> h_color str_text c.
  Proof.
    intros [H _]. unfold h_color, valued, components. destruct (c_space c) as [cs|] eqn:E; [|intros _; exact Logic.I]. intros N. splits; [|apply Forall_forall; intros v _; apply HV|exact N].
    intros n En. destruct (H cs eq_refl) as (f & Hf & Ef). rewrite En in Ef. injection Ef as ->. apply family_clean, Hf.
  Qed.
  Lemma reads_hok items cs : Reads items cs -> Forall plain_text cs -> Forall (coloured (fun _ => True)) items -> Forall drawable items -> Forall HOkItem items.
  Proof.
    intros HR. induction HR as [|b r cs HR IHr|s b k r c1 c2 H1 IH1 H2 IH2|r cs HR IHr|k w p b st f e r cs HR IHr|s b r cs HR IHr];
      intros HC HK HD; [constructor|..]; inversion HD as [|? ? D1 D2]; inversion HK as [|? ? K1 K2]; subst; try (apply Forall_app in HC as [HC1 HC2]).
    - constructor; [|apply IHr; assumption]. inversion K1 as [? KB| | | |]; subst. inversion D1 as [|? DB| | |]; subst. constructor. clear -HC1 KB DB HV. induction (tb_blocks b) as [|cb l IHl]; [constructor|].
      inversion KB; inversion DB; subst. cbn [flat_map] in HC1. apply Forall_app in HC1 as [Y1 Y2]. constructor; [|apply IHl; assumption]. unfold h_block. splits.
      + clear -Y1. induction (cb_chars cb) as [|c q IHc]; [constructor|]. cbn [map] in Y1. inversion Y1; subst. constructor; [assumption|apply IHc; assumption].
      + apply known_hcolor; assumption.
      + apply HV.
    - constructor; [|apply IH2; assumption]. apply hok_form. apply IH1; [assumption|inversion K1; subst; assumption|inversion D1; subst; assumption].
    - constructor; [constructor|apply IHr; assumption].
    - constructor; [|apply IHr; assumption]. inversion K1; inversion D1; subst. apply hok_curve; [assumption|apply known_hcolor; assumption..].
    - constructor; [apply hok_image; apply HV|apply IHr; assumption].
  Qed.
  Lemma says_hchars cs : Forall2 (SaysHChar num_text) cs (map (h_char_tree num_text) cs).
  Proof.
    induction cs as [|[c b] cs IH]; [constructor|]. constructor; [|exact IH]. unfold h_char_tree, size_style. cbn [fst snd map app style]. unfold v_px, wide. rewrite <- !app_assoc.
    pose proof (shc_char num_text c b) as G. unfold pixels in G. rewrite <- ?app_assoc in G.
    match goal with |- SaysHChar _ _ (TElem _ [_; (_, ?x)] _) => match x with ?a ++ ?b' ++ ?n ++ ?p ++ ?r => specialize (G r) end end. rewrite <- ?app_assoc in G. exact G.
  Qed.
  Lemma says_hstring cb : Around (cb_box cb) (map snd (cb_chars cb)) -> SaysHString num_text (cb_chars cb) (h_block_tree num_text str_text font_css cb).
  Proof.
    intros H. unfold h_block_tree. cbv zeta.
    match goal with |- SaysHString _ _ (TElem _ [_; (_, style (?a :: ?b :: ?c :: ?d :: ?l ++ ?r))] _) => idtac end || idtac.
    match goal with |- SaysHString _ _ (TElem _ [_; (_, ?x)] _) =>
      assert (G : exists css, x = bs "position: absolute;left: " ++ num_text (bx0 (cb_box cb)) ++ bs ";bottom: " ++ num_text (by0 (cb_box cb)) ++ css) end.
    { cbn [app style fst snd]. eexists. cbn [bs app]. rewrite <- ?app_assoc. cbn [app]. reflexivity. }
    destruct G as (css & ->). constructor; [exact H|apply says_hchars].
  Qed.
  Lemma says_hnest h items t : Holds items t -> Forall boxed items -> SaysHNest num_text (flat_map (h_item_trees h) items) t.
  Proof.
    intros H. induction H as [items texts forms E _ IH] using holds_ind'. intros HB. subst texts. constructor.
    - clear IH. induction HB as [|i items B _ IHi]; [constructor|]. change (text_items (i :: items)) with ((match i with IText t => [map cb_chars (tb_blocks t)] | _ => [] end) ++ text_items items).
      cbn [flat_map]. rewrite filter_app. destruct i as [|k w p b st f e|b|s b|s b l]; try exact IHi. cbn [app]. constructor; [|exact IHi]. constructor.
      inversion B as [? [B1 _]| | | |]; subst. clear -B1. induction (tb_blocks b) as [|cb l IHl]; [constructor|]. constructor; [apply says_hstring, (B1 cb); left; reflexivity|apply IHl; intros x Hx; apply B1; right; exact Hx].
    - revert forms IH. induction HB as [|i items B _ IHi]; intros forms IH; [inversion IH; constructor|].
      change (form_items (i :: items)) with ((match i with IXObj _ _ k => [k] | _ => [] end) ++ form_items items) in *. cbn [flat_map]. rewrite filter_app, map_app.
      destruct i as [|k w p b st f e|b|s b|s b l]; try (apply IHi; assumption).
      cbn [app] in IH. inversion IH as [|? t ? ts H1 H2]; subst. cbn [Html_Spec.h_item_trees]. rewrite children_htrees.
      change (filter (of_class (bs "xobject")) [TElem ?n ?a ?k]) with [TElem n a k]. cbn [map kids app]. constructor; [apply H1; inversion B; subst; assumption|apply IHi; exact H2].
  Qed.
  Lemma says_hpages ps : forall spec i, Forall2 page_holds ps spec -> map pg_num ps = map Z.of_nat (seq i (length spec)) -> Forall (fun p => Forall boxed (fst (pg_items p))) ps ->
    SaysHPages num_text i (map snd spec) (map (h_page_tree num_text str_text image_name font_css) ps).
  Proof.
    intros spec i H. revert i. induction H as [|p q ps spec (E & items & EI & _ & ET) _ IH]; intros i HN HB; [constructor|]. cbn [map length seq] in *. injection HN as N1 N2. inversion HB as [|? ? B1 B2]; subst.
    constructor; [|apply IH; assumption]. unfold h_page_tree. rewrite N1, EI in *. cbn [fst] in *. destruct q as [txt [[w h] t]]. cbn [fst snd] in *. injection E as -> ->.
    cbn [style]. unfold v_px. cbn [bs app]. rewrite <- ?app_assoc. cbn [app].
    pose proof (shp_page num_text i w h t) as G. unfold pixels in G. cbn [bs app] in G. rewrite <- ?app_assoc in G. apply G. apply says_hnest; assumption.
  Qed.
  (* the HTML file of pages that hold what they should *)
  Lemma holds_html codec ps spec : clean_text codec -> Forall (fun p => Forall (coloured (fun _ => True)) (fst (pg_items p))) ps -> Forall (fun p => Forall boxed (fst (pg_items p))) ps ->
    map pg_num ps = map Z.of_nat (seq 0 (length spec)) -> Forall2 page_holds ps spec -> Forall (fun q => Forall plain_text (fst q)) spec ->
    exists text raised, convert_to_html num_text str_text image_name font_css codec (ps, None) = (text, raised) /\
      (raised = false <-> Forall (fun p => Forall drawable (fst (pg_items p))) ps) /\
      (raised = false -> exists t u, xml_document text = Some u /\ LikeH t u /\ SaysHFile num_text (map snd spec) t).
  Proof.
    intros HC HK HB EN EI HT. destruct (convert_to_html num_text str_text image_name font_css codec (ps, None)) as [text raised] eqn:EC. exists text, raised. split; [reflexivity|].
    assert (D1 : raised = false -> Forall (fun p => Forall drawable (fst (pg_items p))) ps).
    { intros ->. unfold convert_to_html in EC. cbn [xrender_list] in EC. pose proof (render_calm (html_calls num_text str_text image_name font_css codec (ps, None)) 0) as G.
      destruct (xrender 0 (html_calls num_text str_text image_name font_css codec (ps, None))) as [t [|]]; [discriminate EC|]. specialize (G eq_refl). clear EC. unfold html_calls in G.
      inversion G as [? ? ? ? ? G1| |]; subst. inversion G1 as [|? ? _ G2]; subst. apply Forall_inv in G2. inversion G2 as [? ? ? ? ? G3| |]; subst. cbn [fst snd raises] in G3. rewrite app_nil_r in G3.
      clear -G3. induction ps as [|p ps IH]; [constructor|]. inversion G3 as [|? ? G4 G5]; subst. constructor; [|apply IH, G5]. unfold html_page, helm in G4. inversion G4 as [? ? ? ? ? G6| |]; subst.
      apply Forall_app in G6 as [G6 _]. clear -G6. revert G6. generalize (pg_height p). intros h. induction (fst (pg_items p)) as [|i l IHl]; [constructor|]. cbn [flat_map]. intros G. apply Forall_app in G as [X Y].
      constructor; [eapply calm_drawable; exact X|apply IHl, Y]. }
    assert (D2 : Forall (fun p => Forall drawable (fst (pg_items p))) ps -> raised = false /\ exists t u, xml_document text = Some u /\ LikeH t u /\ SaysHFile num_text (map snd spec) t).
    { intros HD. destruct (C91_html_partial num_text str_text image_name font_css (proj1 HV) codec ps HC) as (text' & u & X1 & X2 & X3).
      - clear -EI HT HK HD HV. induction EI as [|p q ps spec (_ & items & E & R & _) _ IH]; [constructor|]. inversion HT; inversion HK; inversion HD; subst. constructor; [|apply IH; assumption].
        rewrite E in *. cbn [fst] in *. split; rewrite E; [|reflexivity]. cbn [fst]. eapply reads_hok; eassumption.
      - rewrite EC in X1. injection X1 as -> ->. split; [reflexivity|]. eexists _, u. splits; [exact X2|exact X3|]. unfold html_tree. constructor. apply says_hpages; assumption. }
    splits; [split; [exact D1|intros HD; apply D2, HD]|intros HR; apply D2, D1, HR].
  Qed.
End html.

Section main.
  Context (zlib : list Z -> option (list Z)) (ccitt : list Z -> obj -> res (list Z)).
  Context (md5 sha256 : list Z -> list Z) (aes : list Z -> list Z -> list Z -> res (list Z)).
  Context (glyphs : list Z -> option (list Z)) (bases : list umap) (metrics : list Z -> option (dict * list (list Z * num)))
          (load_cmap : list Z -> option (bool * list (Z * trie))) (load_umap : list Z -> bool -> option umap).
  Notation pages_of := (pages_of zlib ccitt md5 sha256 aes glyphs bases metrics load_cmap load_umap).
  (* C112.  Of a file whose chosen pages show the texts and trees spec, with no character of markup in the texts, the converter makes an
     HTML document whose page elements have the sizes of the pages; their text elements hold exactly the characters of the text objects of
     the page, every string at the lower left corner of the least box around it, and their form elements those of the forms, nested as
     the file nests them.  It completes the file exactly if no item of the pages is a curve without extent or has a colour without value.
     Partial: colour values, image names and the names of fonts must be plain, and the matrices of forms the identity. *)
  Theorem C112_html_partial num_text str_text image_name font_css codec e caching check password pagenos maxpages lenient getobj spec :
    html_values num_text str_text image_name font_css -> clean_text codec -> (0 < bufsiz e)%nat -> (forall o, (forall i, o <> ORef i) -> resolve e o = o) ->
    FileNested zlib ccitt glyphs bases metrics load_cmap load_umap getobj (fun F => F = unit_matrix) (stored_data zlib ccitt) (file e) pagenos maxpages lenient spec ->
    Forall (fun q => Forall plain_text (fst q)) spec ->
    exists n1, forall F, (n1 <= F)%nat -> exists n2, forall f, (n2 <= f)%nat -> exists text raised,
      convert_to_html num_text str_text image_name font_css codec (pages_of e caching check password pagenos maxpages lenient F f) = (text, raised) /\
      (raised = false <-> Forall (fun p => Forall drawable (fst (pg_items p))) (fst (pages_of e caching check password pagenos maxpages lenient F f))) /\
      (raised = false -> exists t u, xml_document text = Some u /\ LikeH t u /\ SaysHFile num_text (map snd spec) t).
  Proof.
    intros HV HCo Hb Hres HF HC. destruct (C107_file_partial zlib ccitt md5 sha256 aes glyphs bases metrics load_cmap load_umap e caching check password pagenos maxpages lenient getobj spec Hb Hres HF) as (n1 & H1).
    exists n1. intros F HF1. destruct (H1 F HF1) as (n2 & H2). exists n2. intros f Hf. destruct (H2 f Hf) as (ps & EP & EN & EI). clear H1 H2.
    pose proof (C101_file zlib ccitt md5 sha256 aes glyphs bases metrics load_cmap load_umap e caching check password pagenos maxpages lenient F f) as HK.
    pose proof (C95_file zlib ccitt md5 sha256 aes glyphs bases metrics load_cmap load_umap e caching check password pagenos maxpages lenient F f) as HB. rewrite EP in *. cbn [fst] in HK, HB |- *.
    apply (holds_html _ _ _ _ HV); assumption.
  Qed.
End main.
