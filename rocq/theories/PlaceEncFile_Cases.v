(* The hypotheses of C108_json and C108_xml_forms are met by the encrypted file of C108 (it draws no form). *)
From Coq Require Import String.
From Verif Require Import Base Lex_Model Lex_Spec Obj Stack_Model Stack_Spec Stream_Model Stream_Spec XRef_Spec Doc_Spec Num Geom_Model Page_Model Page_Spec Page_Proofs Page_Props Interp_Model Interp_Spec
  TextFile_Props CMap_Model CMap_Spec RC4 Sec_Model Sec_Spec Sec_Props Open_Model Open_Spec Open_Props Fallback_Model Markup_Model Markup_Spec Markup_Props Convert_Model Convert_Spec XmlFile_Spec XmlFile_Props JsonFile_Spec Extract_Model Extract_Spec Extract_Proofs Extract_Props Extract_Cases
  ExtractEnc_Spec ExtractEnc_Props ExtractEnc_Cases Place_Spec Measure_Spec PlaceFile_Spec PlaceFile_Props PlaceFile_Cases Nest_Spec Nest_Props Nest_Cases FileXml_Props FileXml_Cases FileJson_Spec FileJson_Props FileJson_Cases FileYaml_Spec FileYaml_Props FileYaml_Cases Html_Model Html_Spec Html_Props FileHtml_Spec FileHtml_Props FileHtml_Cases
  PlaceEnc_Spec PlaceEnc_Props PlaceEnc_Cases.
From Coq Require Import Qcanon.
Open Scope Z_scope.
Import ListNotations.
Definition e_spec : list (list (list Z) * nested_page) := [([[65]; [66]], ((qz 9, qz 9), Node (snd p_page1) [])); ([], ((qz 9, qz 9), Node [] []))].
Section cases.
  Variable (w : Z -> option obj).
  Variables (zlib : list Z -> option (list Z)) (ccitt : list Z -> obj -> res (list Z)).
  Ltac qnum := apply Qc_is_canon; vm_compute; reflexivity.
  Ltac pv := unfold Page_Spec.Value; cbn; first [eapply Leads_ref; [reflexivity|]; apply Leads_stop; discriminate | apply Leads_stop; discriminate | reflexivity].
  Ltac named_ok := apply w_named; [reflexivity|repeat (apply Forall_cons; [eexists; reflexivity|]); apply Forall_nil].
  Ltac far := intros (k & H & Ek); first [discriminate Ek|cbn in H; decompose [or] H; subst; first [contradiction|discriminate Ek]].
  Lemma e_pages : Forall2 (fun lp q => says_nested zlib ccitt (fun _ => None) x_bases x_metrics (fun _ => None) (fun _ _ => None) false (x_get w) (snd lp) q) (leaves [] x_tree) e_spec.
  Proof.
    pose proof (x_shows w zlib ccitt) as H. inversion H as [|a b c d S1 H']; subst. inversion H' as [|a b c d S2 _]; subst. clear H H'.
    constructor; [split; [exact S1|]|constructor; [split; [exact S2|]|constructor]].
    - exists [OInt 0; OInt 0; OInt 9; OInt 9], (qz 0), (qz 0), (qz 9), (qz 9), 0, 0. eexists _, (OStream [] t5), 1%nat. splits; [pv|repeat constructor|apply (f_equal2 pair); qnum|pv|reflexivity|pv|pv|].
      cbn [Nested]. eexists (snd p_page1), [], _, [(ON "F", ORef 4)], [], (fun n => if list_eqb n (bs "F") then Some p_font_ else None), _, []. splits.
      + reflexivity.
      + apply Leads_stop; discriminate.
      + named_ok.
      + right. eexists. split; [reflexivity|apply Leads_stop; discriminate].
      + named_ok.
      + left. split; reflexivity.
      + named_ok.
      + intros n f. destruct (list_eqb n (bs "F")) eqn:E; [|discriminate]. apply list_eqb_eq in E. subst n. intros X. injection X as <-. exists (ORef 4). split; [reflexivity|exact (p_measured w zlib ccitt)].
      + apply x_tokens1.
      + exact p_placed1.
      + repeat (apply ca_tok; [far|]). constructor.
      + constructor.
    - exists [OInt 0; OInt 0; OInt 9; OInt 9], (qz 0), (qz 0), (qz 9), (qz 9), 0, 0. eexists _, (OStream [] t7), 1%nat. splits; [pv|repeat constructor|apply (f_equal2 pair); qnum|pv|reflexivity|pv|pv|].
      cbn [Nested]. eexists [], [], _, [], [], (fun _ => None), _, []. splits.
      + reflexivity.
      + apply Leads_stop; discriminate.
      + named_ok.
      + left. split; reflexivity.
      + named_ok.
      + left. split; reflexivity.
      + named_ok.
      + discriminate.
      + apply x_tokens2.
      + apply pl_q. apply pl_Q. constructor.
      + apply ca_q. apply ca_Q. constructor.
      + constructor.
  Qed.
End cases.
Example C108_json_hypotheses zlib ccitt : json_values nt (fun _ => bs "0.5") (fun _ => bs "img1") desc0 /\
  FileSealed md5_0 (says_nested zlib ccitt (fun _ => None) x_bases x_metrics (fun _ => None) (fun _ _ => None) false) (stored_data zlib ccitt) s_file (ORef 9) s_get param5 id5 key5 [] 0 e_spec /\
  Accepted md5_0 id5 3 (-44) 16 false O5 U5 owner5 user5 user5 /\ Accepted md5_0 id5 3 (-44) 16 false O5 U5 owner5 user5 owner5 /\ Allowed (-44) true /\
  Forall (fun q => Forall (Forall plain_char) (fst q) /\ Speaks (snd (snd q))) e_spec.
Proof.
  destruct (C108_hypotheses zlib ccitt) as (_ & A1 & A2 & A3). splits; try assumption; [apply j_plain| |].
  - exists x_tree. eexists. splits.
    + apply s_document.
    + left. split; reflexivity.
    + discriminate.
    + intros get Hg. pose proof (s_agree get Hg) as A. pose proof (e_pages (s_rest get) zlib ccitt) as HS.
      change (map snd (filter (fun np => true) (numbered (leaves [] x_tree)))) with (leaves [] x_tree).
      clear -HS A. induction HS as [|lp q ls qs [H1 H2] _ IH]; constructor; [|exact IH]. split; [eapply shows_same; eassumption|eapply page_nested_same; eassumption].
  - unfold e_spec. repeat constructor; cbn; repeat constructor; discriminate.
Qed.
Example C108_yaml_hypotheses : yaml_values nt (fun _ => bs "0.5") (fun _ => bs "img1") desc0 /\ Forall (fun q : list (list Z) * nested_page => SpeaksPlain (snd (snd q))) e_spec.
Proof. split; [apply y_plain|]. unfold e_spec. repeat constructor; cbn; repeat constructor; discriminate. Qed.
Example C108_html_hypotheses : html_values nt (fun _ => bs "0.5") (fun _ => bs "img1") css0 /\ clean_text (bs "utf-8") /\ Forall (fun q : list (list Z) * nested_page => Forall plain_text (fst q)) e_spec.
Proof. splits; [apply h_plain|now apply clean_b|]. unfold e_spec. repeat constructor; cbn; repeat constructor; discriminate. Qed.
