(* C102: the XML file of a PDF file, with the characters of its forms. *)
From Coq Require Import String.
From Verif Require Import Base Lex_Model Obj Stack_Model Stream_Model XRef_Model Doc_Model Num Geom_Model Page_Model Interp_Model Interp_Spec CMap_Model Font_Model Sec_Model Open_Model Fallback_Model
  Markup_Model Markup_Spec Convert_Model Convert_Spec XmlFile_Spec XmlFile_Props Extract_Model Extract_Spec Place_Spec PlaceFile_Spec Colour_Spec Whole_Props FileXml_Spec FileXml_Props Nest_Spec Nest_Props FileJson_Props FileNest_Spec.
From Coq Require Import Qcanon.
Open Scope Z_scope.
Import ListNotations.

Section xml.
  Context (num_text : num -> list Z) (val_text : obj -> list Z) (image_name : obj -> list Z) (descriptor : tstate -> list (list Z * list Z)).
  Notation item_trees := (item_trees num_text val_text image_name descriptor).
  Lemma children_trees l : (fix go (l : list item) : list xtree := match l with [] => [] | i :: r => item_trees i ++ go r end) l = flat_map item_trees l.
  Proof. induction l as [|i l IH]; [reflexivity|]. cbn [flat_map]. rewrite <- IH. reflexivity. Qed.
  Lemma says_nest items t : Holds items t -> SaysNest num_text (flat_map item_trees items) t.
  Proof.
    intros H. induction H as [items texts forms E _ IH] using holds_ind'. subst texts. constructor.
    - apply says_items.
    - revert forms IH. induction items as [|i items IHi]; intros forms IH; [inversion IH; constructor|].
      change (form_items (i :: items)) with ((match i with IXObj _ _ k => [k] | _ => [] end) ++ form_items items) in *. cbn [flat_map]. rewrite flat_map_app.
      destruct i as [|k w p b st f e|b|s b|s b l]; try (apply IHi; assumption); [destruct k; apply IHi; assumption|].
      cbn [app] in IH. inversion IH as [|? t ? ts H1 H2]; subst. cbn [XmlFile_Spec.item_trees flat_map app]. rewrite children_trees.
      change (form_element (TElem (bs "xobject") ?a ?k)) with [k]. cbn [app]. constructor; [exact H1|apply IHi; exact H2].
  Qed.
  Lemma says_npages ps : forall spec i, Forall2 page_holds ps spec -> map pg_num ps = map Z.of_nat (seq i (length spec)) ->
    SaysNPages num_text i (map snd spec) (map (page_tree num_text val_text image_name descriptor) ps).
  Proof.
    intros spec i H. revert i. induction H as [|p q ps spec (E & items & EI & _ & ET) _ IH]; intros i HN; [constructor|]. cbn [map length seq] in *. injection HN as N1 N2.
    constructor; [|apply IH, N2]. unfold page_tree. rewrite N1, EI. cbn [fst]. destruct q as [txt [[w h] t]]. cbn [fst snd] in *. injection E as -> ->. constructor. apply says_nest, ET.
  Qed.
  (* the XML file of pages that hold what they should *)
  Lemma holds_xml codec ps spec : plain_values num_text val_text image_name descriptor -> Forall (fun p => Forall (coloured (fun _ => True)) (fst (pg_items p))) ps ->
    map pg_num ps = map Z.of_nat (seq 0 (length spec)) -> Forall2 page_holds ps spec -> Forall (fun q => Forall (Forall (fun c => xml_char c = true)) (fst q)) spec ->
    exists body t u, convert_to_xml num_text val_text image_name descriptor codec (ps, None) = (xml_prolog codec ++ body, false) /\
      xml_document body = Some t /\ Like u t /\ SaysNFile num_text (map snd spec) u.
  Proof.
    intros HV HK EN EI HC.
    destruct (C78_xml_partial num_text val_text image_name descriptor (proj1 HV) codec ps) as (body & t & X1 & X2 & X3).
    - clear -EI HC HK HV. induction EI as [|p q ps spec (_ & items & E & R & _) _ IH]; [constructor|]. inversion HC; inversion HK; subst. constructor; [|apply IH; assumption].
      rewrite E in *. cbn [fst] in *. split; rewrite E; [|reflexivity]. cbn [fst]. eapply reads_ok; eassumption.
    - exists body, t, (pages_tree num_text val_text image_name descriptor ps). splits; [exact X1|exact X2|exact X3|]. constructor. apply says_npages; assumption.
  Qed.
End xml.

Section main.
  Context (zlib : list Z -> option (list Z)) (ccitt : list Z -> obj -> res (list Z)).
  Context (md5 sha256 : list Z -> list Z) (aes : list Z -> list Z -> list Z -> res (list Z)).
  Context (glyphs : list Z -> option (list Z)) (bases : list umap) (metrics : list Z -> option (dict * list (list Z * num)))
          (load_cmap : list Z -> option (bool * list (Z * trie))) (load_umap : list Z -> bool -> option umap).
  Notation pages_of := (pages_of zlib ccitt md5 sha256 aes glyphs bases metrics load_cmap load_umap).
  (* C102, with forms.  Of a file whose chosen pages show the texts and trees spec, all of characters that XML allows, the converter makes
     an XML document whose page elements have the sizes of the pages; their text elements hold exactly the characters of the text objects of
     the page at their places, and their form elements those of the forms, nested as the file nests them. *)
  Theorem C102_forms_partial num_text val_text image_name descriptor codec e caching check password pagenos maxpages lenient getobj spec :
    plain_values num_text val_text image_name descriptor -> (0 < bufsiz e)%nat -> (forall o, (forall i, o <> ORef i) -> resolve e o = o) ->
    FileNested zlib ccitt glyphs bases metrics load_cmap load_umap getobj (fun F => F = unit_matrix) (stored_data zlib ccitt) (file e) pagenos maxpages lenient spec ->
    Forall (fun q => Forall (Forall (fun c => xml_char c = true)) (fst q)) spec ->
    exists n1, forall F, (n1 <= F)%nat -> exists n2, forall f, (n2 <= f)%nat -> exists body t u,
      convert_to_xml num_text val_text image_name descriptor codec (pages_of e caching check password pagenos maxpages lenient F f) = (xml_prolog codec ++ body, false) /\
      xml_document body = Some t /\ Like u t /\ SaysNFile num_text (map snd spec) u.
  Proof.
    intros HV Hb Hres HF HC. destruct (C107_file_partial zlib ccitt md5 sha256 aes glyphs bases metrics load_cmap load_umap e caching check password pagenos maxpages lenient getobj spec Hb Hres HF) as (n1 & H1).
    exists n1. intros F HF1. destruct (H1 F HF1) as (n2 & H2). exists n2. intros f Hf. destruct (H2 f Hf) as (ps & EP & EN & EI). clear H1 H2.
    pose proof (C101_file zlib ccitt md5 sha256 aes glyphs bases metrics load_cmap load_umap e caching check password pagenos maxpages lenient F f) as HK. rewrite EP in *. cbn [fst] in HK.
    apply holds_xml; assumption.
  Qed.
End main.
