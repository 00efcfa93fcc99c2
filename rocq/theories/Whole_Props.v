(* C95 and C101 for whole documents: whatever the bytes of the file. *)
From Coq Require Import String.
From Verif Require Import Base Obj Stack_Model Stream_Model XRef_Model Doc_Model Num Geom_Model Page_Model Interp_Model CMap_Model Font_Model Sec_Model Open_Model Fallback_Model Convert_Model Extract_Model
  Place_Spec Boxes_Props Colour_Spec Colour_Props.
From Coq Require Import Qcanon.
Open Scope Z_scope.
Import ListNotations.

Section whole.
  Context (zlib : list Z -> option (list Z)) (ccitt : list Z -> obj -> res (list Z)).
  Context (md5 sha256 : list Z -> list Z) (aes : list Z -> list Z -> list Z -> res (list Z)).
  Context (glyphs : list Z -> option (list Z)) (bases : list umap) (metrics : list Z -> option (dict * list (list Z * num)))
          (load_cmap : list Z -> option (bool * list (Z * trie))) (load_umap : list Z -> bool -> option umap).
  Notation interpret := (interpret zlib ccitt glyphs bases metrics load_cmap load_umap).
  Notation interpret_page := (interpret_page zlib ccitt glyphs bases metrics load_cmap load_umap).
  Notation content := (content zlib ccitt).
  Notation doc_font := (doc_font zlib ccitt glyphs bases metrics load_cmap load_umap).
  Notation pages_of := (pages_of zlib ccitt md5 sha256 aes glyphs bases metrics load_cmap load_umap).
  Definition good_page (P : item -> Prop) (p : opage) : Prop := Forall P (fst (pg_items p)).
  Lemma gmap_good {A} (f : A -> res opage) (Q : opage -> Prop) l : (forall a p, f a = Ok p -> Q p) -> Forall Q (fst (gmap_list f l)).
  Proof.
    intros H. induction l as [|a l IH]; [constructor|]. cbn [gmap_list]. destruct (f a) as [p|] eqn:E; [|constructor]. unfold gapp. cbn [fst snd app]. constructor; [exact (H _ _ E)|exact IH].
  Qed.
  Lemma interpret_good (P : item -> Prop) n getobj depth ignore pages :
    (forall ctm r ig s fuel streams, prep_state getobj depth (doc_font n getobj depth) ctm r ig = Ok s ->
       Forall P (fst (fst (process getobj depth (doc_font n getobj depth) (content n getobj depth) fuel s streams)))) ->
    Forall (good_page P) (fst (interpret n getobj depth ignore pages)).
  Proof.
    intros H. unfold Extract_Model.interpret.
    assert (G : Forall (good_page P) (fst (gmap (interpret_page n getobj depth ignore) (number 0 (fst pages), snd pages)))).
    { unfold gmap. assert (K : Forall (good_page P) (fst (gmap_list (interpret_page n getobj depth ignore) (number 0 (fst pages))))).
      { apply gmap_good. intros [i pg] p E. unfold Extract_Model.interpret_page in E. destruct (media_box _) as [[[[x0 y0] x1] y1]|]; cbn [bind] in E; [|discriminate].
        destruct (prep_state _ _ _ _ _ _) as [s|] eqn:ES; cbn [bind] in E; [|discriminate]. destruct (page_size x0 y0 x1 y1) as [w h]. injection E as <-. unfold good_page. cbn [pg_items].
        exact (H _ _ _ _ _ _ ES). }
      cbn [fst snd]. destruct (gmap_list _ _) as [l [ex|]]; unfold gapp; cbn [fst snd] in *; [exact K|]. rewrite app_nil_r. exact K. }
    destruct (gmap _ _) as [[|p l] [ex|]]; exact G.
  Qed.
  Lemma pages_good (P : item -> Prop) e caching check password pagenos maxpages ignore F f :
    (forall getobj depth ctm r ig s fuel streams, prep_state getobj depth (doc_font (bufsiz e) getobj depth) ctm r ig = Ok s ->
       Forall P (fst (fst (process getobj depth (doc_font (bufsiz e) getobj depth) (content (bufsiz e) getobj depth) fuel s streams)))) ->
    Forall (good_page P) (fst (pages_of e caching check password pagenos maxpages ignore F f)).
  Proof.
    intros H. unfold Extract_Model.pages_of. destruct (open_sections _ _ _ _) as [l|]; [|constructor]. cbv zeta. destruct (scan _ _ _ _ _ _ _ _ _ _ _) as [[o|] s]; [|constructor].
    apply interpret_good. intros. eapply H. eassumption.
  Qed.
  (* C95.  In every document, of whatever bytes: the boxes of the text items of its pages. *)
  Theorem C95_file e caching check password pagenos maxpages ignore F f :
    Forall (fun p => Forall boxed (fst (pg_items p))) (fst (pages_of e caching check password pagenos maxpages ignore F f)).
  Proof. apply pages_good. intros. eapply C95_page. eassumption. Qed.
  (* C101.  In every document, of whatever bytes: the colours of the items of its pages. *)
  Theorem C101_file e caching check password pagenos maxpages ignore F f :
    Forall (fun p => Forall (coloured (fun _ => True)) (fst (pg_items p))) (fst (pages_of e caching check password pagenos maxpages ignore F f)).
  Proof.
    apply pages_good. intros. eapply page_colours; [auto| |eassumption]. intros st. apply Forall_forall. auto.
  Qed.
End whole.
