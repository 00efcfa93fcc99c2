(* C108: the JSON, YAML and HTML files, and the XML file with its forms, of an encrypted PDF file. *)
From Coq Require Import String.
From Verif Require Import Base Lex_Model Obj Stack_Model Stream_Model Stream_Spec XRef_Model Doc_Model Num Geom_Model Page_Model Page_Spec Interp_Model Interp_Spec CMap_Model Font_Model
  RC4 Sec_Model Sec_Spec Sec_Props Open_Model Fallback_Model Markup_Model Markup_Spec Convert_Model Convert_Spec XmlFile_Spec XmlFile_Props JsonFile_Spec Extract_Model Extract_Spec ExtractEnc_Spec ExtractEnc_Props
  Place_Spec Colour_Spec Nest_Spec Nest_Props Whole_Props FileXml_Props FileJson_Spec FileJson_Props FileNest_Spec FileNest_Props Yaml_Spec Yaml_Model YamlFile_Spec FileYaml_Spec FileYaml_Props Html_Model Html_Spec FileHtml_Spec FileHtml_Props PlaceEnc_Spec PlaceEnc_Props.
From Coq Require Import Qcanon.
Open Scope Z_scope.
Import ListNotations.

Section main.
  Context (zlib : list Z -> option (list Z)) (ccitt : list Z -> obj -> res (list Z)).
  Context (md5 sha256 : list Z -> list Z) (md5_len : forall d, length (md5 d) = 16%nat) (aes : list Z -> list Z -> list Z -> res (list Z)).
  Context (glyphs : list Z -> option (list Z)) (bases : list umap) (metrics : list Z -> option (dict * list (list Z * num)))
          (load_cmap : list Z -> option (bool * list (Z * trie))) (load_umap : list Z -> bool -> option umap).
  Notation pages_of := (pages_of zlib ccitt md5 sha256 aes glyphs bases metrics load_cmap load_umap).
  Context (e : env) (caching : bool) (pagenos : list Z) (maxpages : Z) (lenient : bool).
  Context (Hb : (0 < bufsiz e)%nat) (Hres : forall o, (forall i, o <> ORef i) -> resolve e o = o).
  Context (enc : obj) (getobj : Z -> option obj) (param : list (obj * obj)) (id key : list Z).
  (* a file that is encrypted with the passwords owner and user, with permissions P *)
  Context (V R P : Z) (n : nat) (meta : bool) (O U owner user : list Z).
  Context (HSu : Supported param V R P n meta O U) (HPr : Protected md5 R n P id meta owner user O U key) (HPb : - 2 ^ 31 <= P < 2 ^ 31).
  Notation Accepted := (Accepted md5 id R P n meta O U owner user).
  Notation Allowed := (Allowed P).
  Notation FileSealed say := (FileSealed md5 say (stored_data zlib ccitt) (file e) enc getobj param id key pagenos maxpages).
  Notation says_nested := (says_nested zlib ccitt glyphs bases metrics load_cmap load_umap lenient).
  (* its JSON file (as C110) *)
  Theorem C108_json_partial num_text val_text image_name descriptor check pw spec : json_values num_text val_text image_name descriptor ->
    FileSealed says_nested spec -> Accepted pw -> Allowed check ->
    Forall (fun q => Forall (Forall plain_char) (fst q) /\ Speaks (snd (snd q))) spec ->
    exists n1, forall F, (n1 <= F)%nat -> exists n2, forall f, (n2 <= f)%nat -> exists out v,
      convert_to_json num_text val_text image_name descriptor (pages_of e caching check pw pagenos maxpages lenient F f) = (out, false) /\
      JsonText out v /\ SaysJFile num_text (map snd spec) v.
  Proof.
    intros HV HF HA HAl HC.
    destruct (C108_forms_partial zlib ccitt md5 sha256 md5_len aes glyphs bases metrics load_cmap load_umap e caching pagenos maxpages lenient Hb Hres enc getobj param id key V R P n meta O U owner user HSu HPr HPb check pw spec HF HA HAl) as (n1 & H1).
    exists n1. intros F HF1. destruct (H1 F HF1) as (n2 & H2). exists n2. intros f Hf. destruct (H2 f Hf) as (ps & EP & EN & EI). clear H1 H2.
    pose proof (C101_file zlib ccitt md5 sha256 aes glyphs bases metrics load_cmap load_umap e caching check pw pagenos maxpages lenient F f) as HK.
    pose proof (C95_file zlib ccitt md5 sha256 aes glyphs bases metrics load_cmap load_umap e caching check pw pagenos maxpages lenient F f) as HB. rewrite EP in *. cbn [fst] in HK, HB.
    apply (holds_json _ _ _ _ HV); assumption.
  Qed.
  (* its XML file, with the forms (as C102_forms) *)
  Theorem C108_xml_forms_partial num_text val_text image_name descriptor codec check pw spec : plain_values num_text val_text image_name descriptor ->
    FileSealed says_nested spec -> Accepted pw -> Allowed check ->
    Forall (fun q => Forall (Forall (fun c => xml_char c = true)) (fst q)) spec ->
    exists n1, forall F, (n1 <= F)%nat -> exists n2, forall f, (n2 <= f)%nat -> exists body t u,
      convert_to_xml num_text val_text image_name descriptor codec (pages_of e caching check pw pagenos maxpages lenient F f) = (xml_prolog codec ++ body, false) /\
      xml_document body = Some t /\ Like u t /\ SaysNFile num_text (map snd spec) u.
  Proof.
    intros HV HF HA HAl HC.
    destruct (C108_forms_partial zlib ccitt md5 sha256 md5_len aes glyphs bases metrics load_cmap load_umap e caching pagenos maxpages lenient Hb Hres enc getobj param id key V R P n meta O U owner user HSu HPr HPb check pw spec HF HA HAl) as (n1 & H1).
    exists n1. intros F HF1. destruct (H1 F HF1) as (n2 & H2). exists n2. intros f Hf. destruct (H2 f Hf) as (ps & EP & EN & EI). clear H1 H2.
    pose proof (C101_file zlib ccitt md5 sha256 aes glyphs bases metrics load_cmap load_umap e caching check pw pagenos maxpages lenient F f) as HK. rewrite EP in *. cbn [fst] in HK.
    apply holds_xml; assumption.
  Qed.
  (* its YAML file (as C111) *)
  Theorem C108_yaml_partial num_text val_text image_name descriptor odd_repr check pw spec : yaml_values num_text val_text image_name descriptor ->
    FileSealed says_nested spec -> Accepted pw -> Allowed check -> Forall (fun q => SpeaksPlain (snd (snd q))) spec ->
    exists n1, forall F, (n1 <= F)%nat -> exists n2, forall f, (n2 <= f)%nat -> exists out v,
      convert_to_yaml num_text val_text image_name descriptor odd_repr (pages_of e caching check pw pagenos maxpages lenient F f) = (out, false) /\
      YamlText out v /\ SaysYFile num_text (map snd spec) v.
  Proof.
    intros HV HF HA HAl HC.
    destruct (C108_forms_partial zlib ccitt md5 sha256 md5_len aes glyphs bases metrics load_cmap load_umap e caching pagenos maxpages lenient Hb Hres enc getobj param id key V R P n meta O U owner user HSu HPr HPb check pw spec HF HA HAl) as (n1 & H1).
    exists n1. intros F HF1. destruct (H1 F HF1) as (n2 & H2). exists n2. intros f Hf. destruct (H2 f Hf) as (ps & EP & EN & EI). clear H1 H2.
    pose proof (C101_file zlib ccitt md5 sha256 aes glyphs bases metrics load_cmap load_umap e caching check pw pagenos maxpages lenient F f) as HK.
    pose proof (C95_file zlib ccitt md5 sha256 aes glyphs bases metrics load_cmap load_umap e caching check pw pagenos maxpages lenient F f) as HB. rewrite EP in *. cbn [fst] in HK, HB.
    apply (holds_yaml _ _ _ _ HV); assumption.
  Qed.
  (* its HTML file (as C112) *)
  Theorem C108_html_partial num_text str_text image_name font_css codec check pw spec : html_values num_text str_text image_name font_css -> clean_text codec ->
    FileSealed says_nested spec -> Accepted pw -> Allowed check -> Forall (fun q => Forall plain_text (fst q)) spec ->
    exists n1, forall F, (n1 <= F)%nat -> exists n2, forall f, (n2 <= f)%nat -> exists text raised,
      convert_to_html num_text str_text image_name font_css codec (pages_of e caching check pw pagenos maxpages lenient F f) = (text, raised) /\
      (raised = false <-> Forall (fun p => Forall drawable (fst (pg_items p))) (fst (pages_of e caching check pw pagenos maxpages lenient F f))) /\
      (raised = false -> exists t u, xml_document text = Some u /\ LikeH t u /\ SaysHFile num_text (map snd spec) t).
  Proof.
    intros HV HCo HF HA HAl HC.
    destruct (C108_forms_partial zlib ccitt md5 sha256 md5_len aes glyphs bases metrics load_cmap load_umap e caching pagenos maxpages lenient Hb Hres enc getobj param id key V R P n meta O U owner user HSu HPr HPb check pw spec HF HA HAl) as (n1 & H1).
    exists n1. intros F HF1. destruct (H1 F HF1) as (n2 & H2). exists n2. intros f Hf. destruct (H2 f Hf) as (ps & EP & EN & EI). clear H1 H2.
    pose proof (C101_file zlib ccitt md5 sha256 aes glyphs bases metrics load_cmap load_umap e caching check pw pagenos maxpages lenient F f) as HK.
    pose proof (C95_file zlib ccitt md5 sha256 aes glyphs bases metrics load_cmap load_umap e caching check pw pagenos maxpages lenient F f) as HB. rewrite EP in *. cbn [fst] in HK, HB |- *.
    apply (holds_html _ _ _ _ HV); assumption.
  Qed.
End main.
