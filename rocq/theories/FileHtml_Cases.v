(* The hypotheses of C112 are met by the file of C107: a page that draws a form; and pages that show what that file shows, with a curve, are drawable. *)
From Coq Require Import String.
From Verif Require Import Base Lex_Model Obj Num Geom_Model Page_Model Interp_Model Font_Model Markup_Model Markup_Spec Convert_Model XmlFile_Spec Html_Model Html_Spec Html_Props Extract_Model Markup_Props Place_Spec XmlFile_Props
  Extract_Cases PlaceFile_Cases Stream_Model CMap_Model Nest_Spec Nest_Props Nest_Cases FileXml_Spec FileXml_Props FileXml_Cases FileJson_Spec FileJson_Props FileJson_Cases FileHtml_Spec FileHtml_Props.
From Coq Require Import Qcanon.
Open Scope Z_scope.
Import ListNotations.
Lemma h_plain : html_values nt (fun _ => bs "0.5") (fun _ => bs "img1") css0.
Proof.
  unfold html_values. splits; [exact nt_clean|intros v; now apply clean_b|intros s; now apply clean_b|]. intros t. unfold css0. splits; now apply clean_b.
Qed.
Example C112_hypotheses zlib ccitt : html_values nt (fun _ => bs "0.5") (fun _ => bs "img1") css0 /\ clean_text (bs "utf-8") /\
  FileNested zlib ccitt (fun _ => None) x_bases x_metrics (fun _ => None) (fun _ _ => None) n_getobj (fun F => F = unit_matrix) (stored_data zlib ccitt) n_file [] 0 false j_spec /\
  Forall (fun q : list (list Z) * nested_page => Forall plain_text (fst q)) j_spec.
Proof.
  splits; [apply h_plain|now apply clean_b|apply C107_hypotheses|]. repeat constructor; try discriminate.
Qed.
(* drawable and not *)
Example C112_drawable : drawable (IXObj ONull b0 [IText (mkTB None []); ICurve CLine (OInt 1) [] (mkBox (qz 0) (qz 0) (qz 0) (qz 5)) gray rgb false]) /\
  ~ drawable (IXObj ONull b0 [ICurve CLine (OInt 1) [] (mkBox (qz 3) (qz 4) (qz 3) (qz 4)) gray rgb false]).
Proof.
  split.
  - repeat constructor; try discriminate. 
  - intros H. inversion H as [| | |? ? ? H1|]; subst. apply Forall_inv in H1. inversion H1 as [| | | |? ? ? ? ? ? ? E]; subst. cbn [bx0 bx1 by0 by1] in E. vm_compute in E. destruct E as [E|E]; [discriminate E|apply E; reflexivity].
Qed.
