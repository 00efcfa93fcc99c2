(* The hypotheses of C102 are met by a file of two pages. *)
From Coq Require Import String.
From Verif Require Import Base Obj Num Interp_Model Font_Model Markup_Model Markup_Spec Convert_Model XmlFile_Spec XmlFile_Props Extract_Model Extract_Cases Markup_Props PlaceFile_Spec PlaceFile_Props PlaceFile_Cases
  Stream_Model CMap_Model FileXml_Spec FileXml_Props.
Open Scope Z_scope.
Import ListNotations.
Definition c_val : obj -> list Z := fun _ => bs "0.5".
Lemma c_plain : plain_values nt c_val (fun _ => bs "img&1") desc0.
Proof.
  unfold plain_values. splits; [exact nt_clean|intros v; line|intros s; line|]. intros t. split.
  - change (shown_entries (desc0 t)) with [(bs "FontName", bs "Arial"); (bs "StemV", bs "80")].
    constructor; [split; [split; [reflexivity|repeat (constructor; [left; reflexivity|]); constructor]|clean]|].
    constructor; [split; [split; [reflexivity|repeat (constructor; [left; reflexivity|]); constructor]|clean]|constructor].
  - apply nodupb_sound. vm_compute. reflexivity.
Qed.
Example C102_hypotheses zlib ccitt : plain_values nt c_val (fun _ => bs "img&1") desc0 /\
  FilePlaced zlib ccitt (fun _ => None) x_bases x_metrics (fun _ => None) (fun _ _ => None) x_getobj (stored_data zlib ccitt) x_file [] 0 false [([[65]; [66]], p_page1); ([], p_page2)] /\
  Forall (fun q : list (list Z) * placed_page => Forall (Forall (fun c => xml_char c = true)) (fst q)) [([[65]; [66]], p_page1); ([], p_page2)].
Proof.
  splits; [apply c_plain|apply C94_hypotheses|]. constructor; [|constructor; [constructor|constructor]]. cbn [fst]. repeat (constructor; [constructor; [reflexivity|constructor]|]). constructor.
Qed.
