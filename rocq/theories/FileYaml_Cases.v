(* The hypotheses of C111 are met by the file of C107: a page that draws a form. *)
From Coq Require Import String.
From Verif Require Import Base Lex_Model Obj Num Interp_Model Font_Model Markup_Model Markup_Spec Convert_Model XmlFile_Spec JsonFile_Spec JsonFile_Props Yaml_Spec Yaml_Model YamlFile_Spec YamlFile_Props Extract_Model Markup_Props
  Place_Spec XmlFile_Props Extract_Cases PlaceFile_Cases Stream_Model CMap_Model Nest_Spec Nest_Cases FileXml_Spec FileXml_Props FileXml_Cases FileJson_Spec FileJson_Props FileJson_Cases FileYaml_Spec FileYaml_Props.
Open Scope Z_scope.
Import ListNotations.
Lemma y_plain : yaml_values nt (fun _ => bs "0.5") (fun _ => bs "img1") desc0.
Proof.
  unfold yaml_values. splits; [exact nt_number_text|intros v; unfold simple; cbn; repeat (constructor; [lia|]); constructor|intros s; split; [reflexivity|cbn; repeat (constructor; [lia|]); constructor]|].
  intros t. split.
  - change (shown_entries (desc0 t)) with [(bs "FontName", bs "Arial"); (bs "StemV", bs "80")]. repeat (constructor; [split; reflexivity|]). constructor.
  - apply nodupb_sound. vm_compute. reflexivity.
Qed.
Example C111_hypotheses zlib ccitt : yaml_values nt (fun _ => bs "0.5") (fun _ => bs "img1") desc0 /\
  FileNested zlib ccitt (fun _ => None) x_bases x_metrics (fun _ => None) (fun _ _ => None) n_getobj (fun F => F = unit_matrix) (stored_data zlib ccitt) n_file [] 0 false j_spec /\
  Forall (fun q : list (list Z) * nested_page => SpeaksPlain (snd (snd q))) j_spec.
Proof.
  splits; [apply y_plain|apply C107_hypotheses|]. repeat constructor; try discriminate.
Qed.
