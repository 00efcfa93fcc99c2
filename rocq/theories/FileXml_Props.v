(* C102: the XML file of a PDF file. *)
From Coq Require Import String.
From Verif Require Import Base Lex_Model Obj Stack_Model Stream_Model XRef_Model Doc_Model Num Geom_Model Page_Model Interp_Model Interp_Spec CMap_Model Font_Model Sec_Model Open_Model Fallback_Model
  Markup_Model Markup_Spec Convert_Model Convert_Spec XmlFile_Spec XmlFile_Props Extract_Model Extract_Spec Place_Spec Place_Props PlaceFile_Spec PlaceFile_Props Colour_Spec Whole_Props FileXml_Spec.
From Coq Require Import Qcanon.
Open Scope Z_scope.
Import ListNotations.

Section xml.
  Context (num_text : num -> list Z) (val_text : obj -> list Z) (image_name : obj -> list Z) (descriptor : tstate -> list (list Z * list Z)).
  (* the texts of numbers, colour values, image names and descriptors *)
  Definition plain_values : Prop :=
    (forall q, clean_text (num_text q)) /\ (forall v, line_text (val_text v)) /\ (forall s, line_text (image_name s)) /\
    forall t, Forall (fun kv => word (fst kv) /\ clean_text (snd kv)) (shown_entries (descriptor t)) /\
      NoDup ([bs "size"; bs "x0"; bs "x1"; bs "y0"; bs "y1"; bs "color-type"; bs "color-values"] ++ map (fun kv => dashed None (fst kv)) (shown_entries (descriptor t))).
  Context (HV : plain_values).
  Notation OkItem := (OkItem num_text val_text image_name descriptor).
  Lemma family_line n : In n families -> line_text (bs n).
  Proof. intros H. cbn [families In] in H. decompose [or] H; subst; try contradiction; repeat (constructor; [split; [reflexivity|discriminate]|]); constructor. Qed.
  Lemma known_color c : color_ok (fun _ => True) c -> ok_color val_text c.
  Proof.
    intros [H _]. unfold ok_color. destruct (c_space c) as [cs|] eqn:E; [|exact Logic.I]. split.
    - intros n En. destruct (H cs eq_refl) as (f & Hf & Ef). rewrite En in Ef. injection Ef as ->. apply family_line, Hf.
    - apply Forall_forall. intros v _. apply HV.
  Qed.
  Lemma block_nodup cb : NoDup (map fst (v_block num_text val_text descriptor cb)).
  Proof.
    destruct HV as (_ & _ & _ & HD). destruct (HD (cb_text cb)) as [_ N]. unfold v_block. cbn [map fst]. rewrite !map_app, map_map. cbn [fst].
    unfold v_color. destruct (c_space (cb_color cb)) as [[[]]|]; try exact N.
    cbn [map app]. cbn [v_box map fst app] in *. repeat match goal with H : NoDup (_ :: _) |- _ => apply NoDup_cons_iff in H as [? ?] end.
    repeat (constructor; [cbn [In] in *; tauto|]). assumption.
  Qed.
  Lemma reads_ok items cs : Reads items cs -> Forall (Forall (fun c => xml_char c = true)) cs -> Forall (coloured (fun _ => True)) items -> Forall OkItem items.
  Proof.
    induction 1 as [|b r cs HR IH|s b k r c1 c2 H1 IH1 H2 IH2|r cs HR IH|k w p b st f e r cs HR IH|s b r cs HR IH]; intros HC HK; [constructor|..];
      inversion HK as [|? ? K1 K2]; subst; try (apply Forall_app in HC as [HC1 HC2]).
    - constructor; [|apply IH; assumption]. apply ok_text. inversion K1 as [? KB| | | |]; subst. clear -HC1 KB HV. induction (tb_blocks b) as [|cb l IHl]; [constructor|].
      inversion KB; subst. cbn [flat_map] in HC1. apply Forall_app in HC1 as [X1 X2]. constructor; [|apply IHl; assumption]. unfold ok_block. splits.
      + clear -X1. induction (cb_chars cb) as [|c cs IHc]; [constructor|]. cbn [map] in X1. inversion X1; subst. constructor; [assumption|apply IHc; assumption].
      + apply known_color. assumption.
      + apply HV.
      + apply block_nodup.
    - constructor; [|apply IH2; assumption]. apply ok_form. inversion K1; subst. apply IH1; assumption.
    - constructor; [apply ok_none|apply IH; assumption].
    - constructor; [|apply IH; assumption]. inversion K1; subst. apply ok_curve; apply known_color; assumption.
    - constructor; [|apply IH; assumption]. apply ok_image. apply HV.
  Qed.
  Notation item_trees := (item_trees num_text val_text image_name descriptor).
  Lemma says_char c : SaysChar num_text c (char_tree num_text c).
  Proof. destruct c as [[|x r] b]; constructor. Qed.
  Lemma says_string cb : SaysString num_text (cb_chars cb) (block_tree num_text val_text descriptor cb).
  Proof. constructor. induction (cb_chars cb) as [|c l IH]; constructor; [apply says_char|exact IH]. Qed.
  Lemma says_items items : Forall2 (SaysText num_text) (text_items items) (filter text_element (flat_map item_trees items)).
  Proof.
    induction items as [|i items IH]; [constructor|]. change (text_items (i :: items)) with (text_items ([i] ++ items)). rewrite text_items_app. cbn [flat_map]. rewrite filter_app. apply Forall2_app; [|exact IH].
    destruct i; try solve [constructor]; try (match goal with k : ckind |- _ => destruct k end; constructor).
    all: cbn; constructor; [|constructor]; constructor.
    all: match goal with |- context [tb_blocks ?b] => induction (tb_blocks b) as [|cb l IHl]; constructor; [apply says_string|exact IHl] end.
  Qed.
  Lemma says_pages ps : forall spec i, Forall2 page_is ps spec -> map pg_num ps = map Z.of_nat (seq i (length spec)) ->
    SaysPages num_text i (map snd spec) (map (page_tree num_text val_text image_name descriptor) ps).
  Proof.
    intros spec i H. revert i. induction H as [|p q ps spec (E & items & EI & _ & ET) _ IH]; intros i HN; [constructor|]. cbn [map length seq] in *. injection HN as N1 N2.
    constructor; [|apply IH, N2]. unfold page_tree. rewrite N1, EI. cbn [fst]. destruct q as [txt [[w h] ts]]. cbn [fst snd] in *. injection E as -> ->. constructor. rewrite <- ET. apply says_items.
  Qed.
End xml.

Section main.
  Context (zlib : list Z -> option (list Z)) (ccitt : list Z -> obj -> res (list Z)).
  Context (md5 sha256 : list Z -> list Z) (aes : list Z -> list Z -> list Z -> res (list Z)).
  Context (glyphs : list Z -> option (list Z)) (bases : list umap) (metrics : list Z -> option (dict * list (list Z * num)))
          (load_cmap : list Z -> option (bool * list (Z * trie))) (load_umap : list Z -> bool -> option umap).
  Notation pages_of := (pages_of zlib ccitt md5 sha256 aes glyphs bases metrics load_cmap load_umap).
  (* C102.  Of a file whose chosen pages show the texts spec, all of characters that XML allows, with the characters at the given places,
     the converter makes an XML document whose page elements have the sizes of the pages and whose text elements hold exactly these
     characters at these places.  Partial: colour values, image names and the entries of font descriptors must be plain. *)
  Theorem C102_xml_partial num_text val_text image_name descriptor codec e caching check password pagenos maxpages lenient getobj spec :
    plain_values num_text val_text image_name descriptor -> (0 < bufsiz e)%nat -> (forall o, (forall i, o <> ORef i) -> resolve e o = o) ->
    FilePlaced zlib ccitt glyphs bases metrics load_cmap load_umap getobj (stored_data zlib ccitt) (file e) pagenos maxpages lenient spec ->
    Forall (fun q => Forall (Forall (fun c => xml_char c = true)) (fst q)) spec ->
    exists n1, forall F, (n1 <= F)%nat -> exists n2, forall f, (n2 <= f)%nat -> exists body t u,
      convert_to_xml num_text val_text image_name descriptor codec (pages_of e caching check password pagenos maxpages lenient F f) = (xml_prolog codec ++ body, false) /\
      xml_document body = Some t /\ Like u t /\ SaysFile num_text (map snd spec) u.
  Proof.
    intros HV Hb Hres HF HC. destruct (C94_file_partial zlib ccitt md5 sha256 aes glyphs bases metrics load_cmap load_umap e caching check password pagenos maxpages lenient getobj spec Hb Hres HF) as (n1 & H1).
    exists n1. intros F HF1. destruct (H1 F HF1) as (n2 & H2). exists n2. intros f Hf. destruct (H2 f Hf) as (ps & EP & EN & EI). clear H1 H2.
    pose proof (C101_file zlib ccitt md5 sha256 aes glyphs bases metrics load_cmap load_umap e caching check password pagenos maxpages lenient F f) as HK. rewrite EP in *. cbn [fst] in HK.
    destruct (C78_xml_partial num_text val_text image_name descriptor (proj1 HV) codec ps) as (body & t & X1 & X2 & X3).
    - clear -EI HC HK HV. induction EI as [|p q ps spec (_ & items & E & R & _) _ IH]; [constructor|]. inversion HC; inversion HK; subst. constructor; [|apply IH; assumption].
      rewrite E in *. cbn [fst] in *. split; rewrite E; [|reflexivity]. cbn [fst]. eapply reads_ok; eassumption.
    - exists body, t, (pages_tree num_text val_text image_name descriptor ps). splits; [exact X1|exact X2|exact X3|]. constructor. apply says_pages; assumption.
  Qed.
End main.
