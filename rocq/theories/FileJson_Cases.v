(* The hypotheses of C110 are met by the file of C107: a page that draws a form. *)
From Coq Require Import String.
From Verif Require Import Base Lex_Model Obj Num Interp_Model Font_Model Markup_Model Markup_Spec Convert_Model XmlFile_Spec XmlFile_Props JsonFile_Spec JsonFile_Props Extract_Model Markup_Props Place_Spec
  Extract_Cases PlaceFile_Cases Stream_Model CMap_Model Nest_Spec Nest_Cases FileXml_Spec FileXml_Props FileXml_Cases FileJson_Spec FileJson_Props FileNest_Spec FileNest_Props.
Open Scope Z_scope.
Import ListNotations.
Lemma j_plain : json_values nt (fun _ => bs "0.5") (fun _ => bs "img1") desc0.
Proof.
  unfold json_values. splits; [exact nt_number|intros v; repeat (constructor; [repeat split; discriminate|]); constructor|intros s; repeat (constructor; [unfold plain_char; repeat split; discriminate|]); constructor|].
  intros t. split.
  - change (shown_entries (desc0 t)) with [(bs "FontName", bs "Arial"); (bs "StemV", bs "80")].
    repeat (constructor; [split; [apply key_b; reflexivity|apply plain_b; reflexivity]|]). constructor.
  - apply nodupb_sound. vm_compute. reflexivity.
Qed.
Definition j_spec : list (list (list Z) * nested_page) := [([[65]; [66]], ((qz 99, qz 99), Node [] [Node n_shown []]))].
Example C110_hypotheses zlib ccitt : json_values nt (fun _ => bs "0.5") (fun _ => bs "img1") desc0 /\
  FileNested zlib ccitt (fun _ => None) x_bases x_metrics (fun _ => None) (fun _ _ => None) n_getobj (fun F => F = unit_matrix) (stored_data zlib ccitt) n_file [] 0 false j_spec /\
  Forall (fun q => Forall (Forall plain_char) (fst q) /\ Speaks (snd (snd q))) j_spec.
Proof.
  splits; [apply j_plain|apply C107_hypotheses|]. repeat constructor; try discriminate.
Qed.
(* the same of C102_forms *)
Example C102_forms_hypotheses zlib ccitt : plain_values nt c_val (fun _ => bs "img&1") desc0 /\
  FileNested zlib ccitt (fun _ => None) x_bases x_metrics (fun _ => None) (fun _ _ => None) n_getobj (fun F => F = unit_matrix) (stored_data zlib ccitt) n_file [] 0 false j_spec /\
  Forall (fun q : list (list Z) * nested_page => Forall (Forall (fun c => xml_char c = true)) (fst q)) j_spec.
Proof. splits; [apply c_plain|apply C107_hypotheses|]. repeat constructor. Qed.
