(* C108: the pages of an encrypted PDF file: characters, shapes, forms, and the XML file. *)
From Coq Require Import String.
From Verif Require Import Base Lex_Model Obj Stack_Model Stream_Model Stream_Spec XRef_Model Doc_Model Num Geom_Model Page_Model Page_Spec Page_Proofs Page_Props Interp_Model Interp_Spec CMap_Model Font_Model
  RC4 Sec_Model Sec_Spec Sec_Props Open_Model Fallback_Model Markup_Model Markup_Spec Convert_Model Convert_Spec XmlFile_Spec XmlFile_Props Extract_Model Extract_Spec Extract_Proofs Extract_Props ExtractEnc_Spec ExtractEnc_Props
  Place_Spec Place_Props PlaceFile_Spec PlaceFile_Props Shape_Spec ShapeFile_Spec ShapeFile_Props Nest_Spec Nest_Props Colour_Spec Whole_Props FileXml_Spec FileXml_Props PlaceEnc_Spec.
From Coq Require Import Qcanon.
Open Scope Z_scope.
Import ListNotations.

Section main.
  Context (zlib : list Z -> option (list Z)) (ccitt : list Z -> obj -> res (list Z)).
  Context (md5 sha256 : list Z -> list Z) (md5_len : forall d, length (md5 d) = 16%nat) (aes : list Z -> list Z -> list Z -> res (list Z)).
  Context (glyphs : list Z -> option (list Z)) (bases : list umap) (metrics : list Z -> option (dict * list (list Z * num)))
          (load_cmap : list Z -> option (bool * list (Z * trie))) (load_umap : list Z -> bool -> option umap).
  Notation pages_of := (pages_of zlib ccitt md5 sha256 aes glyphs bases metrics load_cmap load_umap).
  Notation interpret := (interpret zlib ccitt glyphs bases metrics load_cmap load_umap).
  Notation PageShows := (PageShows zlib ccitt glyphs bases metrics load_cmap load_umap).
  Context (e : env) (caching : bool) (pagenos : list Z) (maxpages : Z) (lenient : bool).
  Context (Hb : (0 < bufsiz e)%nat) (Hres : forall o, (forall i, o <> ORef i) -> resolve e o = o).
  Context (enc : obj) (getobj : Z -> option obj) (param : list (obj * obj)) (id key : list Z).
  (* a file that is encrypted with the passwords owner and user, with permissions P *)
  Context (V R P : Z) (n : nat) (meta : bool) (O U owner user : list Z).
  Context (HSu : Supported param V R P n meta O U) (HPr : Protected md5 R n P id meta owner user O U key) (HPb : - 2 ^ 31 <= P < 2 ^ 31).
  (* the user password, or the owner password if it does not pass itself for the user password *)
  Definition Accepted (pw : list Z) : Prop :=
    latin1_password pw /\ (pw = user \/ pw = owner /\ ~ U_matches md5 R id (document_key md5 R n O P id meta owner) U).
  (* extraction is allowed or not checked *)
  Definition Allowed (check : bool) : Prop := check = false \/ Z.testbit P 4 = true.
  Notation FileSealed say := (FileSealed md5 say (stored_data zlib ccitt) (file e) enc getobj param id key pagenos maxpages).
  Lemma accepted_opens pw : Accepted pw -> forall clear, WithRC4 param clear -> opens md5 sha256 aes clear id key param pw P.
  Proof.
    intros [HL HPw]. destruct HPw as [E|[E HN]]; subst pw.
    - eapply opens_user; eassumption.
    - eapply opens_owner; eassumption.
  Qed.
  Lemma sealed_pages {A} (say : (Z -> option obj) -> list (list (obj * obj)) -> A -> Prop) (good : opage -> A -> Prop) :
    (forall h chosen cp spec, Forall2 (PageOf h) chosen cp -> Forall2 (fun lp q => say h (snd lp) q) chosen spec -> chosen <> [] ->
      exists m, forall d, (m <= d)%nat -> exists ps, interpret (bufsiz e) h d lenient (cp, None) = (ps, None) /\ map pg_num ps = map Z.of_nat (seq 0 (length spec)) /\ Forall2 good ps spec) ->
    forall check pw spec, FileSealed say spec -> Accepted pw -> Allowed check ->
    exists n1, forall F, (n1 <= F)%nat -> exists n2, forall f, (n2 <= f)%nat -> exists ps,
      pages_of e caching check pw pagenos maxpages lenient F f = (ps, None) /\ map pg_num ps = map Z.of_nat (seq 0 (length spec)) /\ Forall2 good ps spec.
  Proof.
    intros HG check pw spec (t & chosen & HF & HCh & Hne & HS) HA HC.
    assert (Hl : leaves [] t <> []) by (intros E; rewrite E in HCh; apply Hne; destruct HCh as [(_ & ->)|(_ & _ & ->)]; [reflexivity|apply firstn_nil]).
    destruct (pages_of_sealed zlib ccitt md5 sha256 aes glyphs bases metrics load_cmap load_umap e caching check pw pagenos maxpages lenient enc getobj param id key P t chosen Hb Hres HF (accepted_opens pw HA) Hl HCh) as (n1 & HP).
    exists n1. intros F HF1. destruct (HP F HF1) as (h & cp & p & Hh & FC & EX). clear HP. specialize (HS h Hh).
    destruct (HG h chosen cp spec FC HS Hne) as (q & HQ). exists (p + q)%nat. intros f Hf.
    destruct (HQ f ltac:(lia)) as (ps & E1 & E2). exists ps. split; [|exact E2]. rewrite EX by lia.
    replace (check && negb (Z.testbit P 4)) with false by (destruct HC as [ -> | -> ]; [reflexivity|cbn; rewrite andb_false_r; reflexivity]). exact E1.
  Qed.
  (* C108.  Of a file encrypted with RC4: with the user password or the owner password, the pages have the characters of the document that
     was encrypted, where it says (as C94 for files that are not encrypted) *)
  Definition says_placed (get : Z -> option obj) (path : list (list (obj * obj))) (q : list (list Z) * placed_page) : Prop :=
    PageShows get lenient path (fst q) /\ PagePlaced zlib ccitt glyphs bases metrics load_cmap load_umap get lenient path (snd q).
  Theorem C108_characters_partial check pw spec : FileSealed says_placed spec -> Accepted pw -> Allowed check ->
    exists n1, forall F, (n1 <= F)%nat -> exists n2, forall f, (n2 <= f)%nat -> exists ps,
      pages_of e caching check pw pagenos maxpages lenient F f = (ps, None) /\ map pg_num ps = map Z.of_nat (seq 0 (length spec)) /\ Forall2 page_is ps spec.
  Proof. apply (sealed_pages says_placed page_is). intros h chosen cp sp FC HS Hne. exact (placed_pages zlib ccitt glyphs bases metrics load_cmap load_umap (bufsiz e) Hb h lenient chosen cp sp FC HS Hne). Qed.
  (* its lines, rectangles, curves and images (as C103) *)
  Definition says_drawn (get : Z -> option obj) (path : list (list (obj * obj))) (q : list (list Z) * drawing) : Prop :=
    PageShows get lenient path (fst q) /\ PageDrawn zlib ccitt get path (snd q).
  Theorem C108_shapes_partial check pw spec : FileSealed says_drawn spec -> Accepted pw -> Allowed check ->
    exists n1, forall F, (n1 <= F)%nat -> exists n2, forall f, (n2 <= f)%nat -> exists ps,
      pages_of e caching check pw pagenos maxpages lenient F f = (ps, None) /\ map pg_num ps = map Z.of_nat (seq 0 (length spec)) /\ Forall2 page_drawn ps spec.
  Proof. apply (sealed_pages says_drawn page_drawn). intros h chosen cp sp FC HS Hne. exact (drawn_pages zlib ccitt glyphs bases metrics load_cmap load_umap (bufsiz e) Hb h lenient chosen cp sp FC HS Hne). Qed.
  (* its forms, nested (as C107) *)
  Definition says_nested (get : Z -> option obj) (path : list (list (obj * obj))) (q : list (list Z) * nested_page) : Prop :=
    PageShows get lenient path (fst q) /\ PageNested zlib ccitt glyphs bases metrics load_cmap load_umap get (fun F => F = unit_matrix) lenient path (snd q).
  Theorem C108_forms_partial check pw spec : FileSealed says_nested spec -> Accepted pw -> Allowed check ->
    exists n1, forall F, (n1 <= F)%nat -> exists n2, forall f, (n2 <= f)%nat -> exists ps,
      pages_of e caching check pw pagenos maxpages lenient F f = (ps, None) /\ map pg_num ps = map Z.of_nat (seq 0 (length spec)) /\ Forall2 page_holds ps spec.
  Proof. apply (sealed_pages says_nested page_holds). intros h chosen cp sp FC HS Hne. exact (nested_pages zlib ccitt glyphs bases metrics load_cmap load_umap (bufsiz e) Hb h lenient chosen cp sp FC HS Hne). Qed.
  (* and its XML file (as C102) *)
  Theorem C108_xml_partial num_text val_text image_name descriptor codec check pw spec : plain_values num_text val_text image_name descriptor ->
    FileSealed says_placed spec -> Accepted pw -> Allowed check ->
    Forall (fun q => Forall (Forall (fun c => xml_char c = true)) (fst q)) spec ->
    exists n1, forall F, (n1 <= F)%nat -> exists n2, forall f, (n2 <= f)%nat -> exists body t u,
      convert_to_xml num_text val_text image_name descriptor codec (pages_of e caching check pw pagenos maxpages lenient F f) = (xml_prolog codec ++ body, false) /\
      xml_document body = Some t /\ Like u t /\ SaysFile num_text (map snd spec) u.
  Proof.
    intros HV HF HA HAl HC. destruct (C108_characters_partial check pw spec HF HA HAl) as (n1 & H1).
    exists n1. intros F HF1. destruct (H1 F HF1) as (n2 & H2). exists n2. intros f Hf. destruct (H2 f Hf) as (ps & EP & EN & EI). clear H1 H2.
    pose proof (C101_file zlib ccitt md5 sha256 aes glyphs bases metrics load_cmap load_umap e caching check pw pagenos maxpages lenient F f) as HK. rewrite EP in *. cbn [fst] in HK.
    destruct (C78_xml_partial num_text val_text image_name descriptor (proj1 HV) codec ps) as (body & t & X1 & X2 & X3).
    - clear -EI HC HK HV. induction EI as [|p q ps spec (_ & items & E & R0 & _) _ IH]; [constructor|]. inversion HC; inversion HK; subst. constructor; [|apply IH; assumption].
      rewrite E in *. cbn [fst] in *. split; rewrite E; [|reflexivity]. cbn [fst]. eapply reads_ok; eassumption.
    - exists body, t, (pages_tree num_text val_text image_name descriptor ps). splits; [exact X1|exact X2|exact X3|]. constructor. apply says_pages; assumption.
  Qed.
  (* If the permissions do not allow extraction and they are checked, there is no page, and PDFTextExtractionNotAllowed is raised *)
  Theorem C108_denied {A} (say : (Z -> option obj) -> list (list (obj * obj)) -> A -> Prop) pw spec : FileSealed say spec -> Accepted pw -> Z.testbit P 4 = false ->
    exists n1, forall F, (n1 <= F)%nat -> exists n2, forall f, (n2 <= f)%nat ->
      pages_of e caching true pw pagenos maxpages lenient F f = ([], Some PDFTextExtractionNotAllowed).
  Proof.
    intros (t & chosen & HF & HCh & Hne & HS) HA HP4.
    assert (Hl : leaves [] t <> []) by (intros E; rewrite E in HCh; apply Hne; destruct HCh as [(_ & ->)|(_ & _ & ->)]; [reflexivity|apply firstn_nil]).
    destruct (pages_of_sealed zlib ccitt md5 sha256 aes glyphs bases metrics load_cmap load_umap e caching true pw pagenos maxpages lenient enc getobj param id key P t chosen Hb Hres HF (accepted_opens pw HA) Hl HCh) as (n1 & HP).
    exists n1. intros F HF1. destruct (HP F HF1) as (h & cp & p & Hh & FC & EX). exists p. intros f Hf. rewrite EX by exact Hf. rewrite HP4. reflexivity.
  Qed.
End main.
