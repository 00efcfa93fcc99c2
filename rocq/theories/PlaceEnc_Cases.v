(* The hypotheses of C108 are met by a file of two pages, encrypted with RC4 (40 to 128 bits), with an empty title and the passwords of C77. *)
From Coq Require Import String.
From Verif Require Import Base Lex_Model Lex_Spec Obj Stack_Model Stack_Spec Stream_Model Stream_Spec XRef_Spec Doc_Spec Num Geom_Model Page_Model Page_Spec Page_Proofs Page_Props Interp_Model Interp_Spec
  CMap_Model CMap_Spec RC4 Sec_Model Sec_Spec Sec_Props Open_Model Open_Spec Open_Props Fallback_Model Convert_Model Extract_Model Extract_Spec Extract_Proofs Extract_Props Extract_Cases ExtractEnc_Spec ExtractEnc_Props ExtractEnc_Cases
  Place_Spec PlaceFile_Spec PlaceFile_Props PlaceFile_Cases PlaceEnc_Spec PlaceEnc_Props.
Open Scope Z_scope.
Import ListNotations.
Example C108_hypotheses zlib ccitt :
  FileSealed md5_0 (says_placed zlib ccitt (fun _ => None) x_bases x_metrics (fun _ => None) (fun _ _ => None) false) (stored_data zlib ccitt) s_file (ORef 9) s_get param5 id5 key5 [] 0
    [([[65]; [66]], p_page1); ([], p_page2)] /\
  Accepted md5_0 id5 3 (-44) 16 false O5 U5 owner5 user5 user5 /\ Accepted md5_0 id5 3 (-44) 16 false O5 U5 owner5 user5 owner5 /\ Allowed (-44) true.
Proof.
  destruct (C93_hypotheses zlib ccitt) as (_ & _ & _ & L1 & L2 & HP & HN). splits.
  - exists x_tree. eexists. splits.
    + apply s_document.
    + left. split; reflexivity.
    + discriminate.
    + intros get Hg. pose proof (s_agree get Hg) as A. pose proof (p_pages (s_rest get) zlib ccitt) as HS.
      change (map snd (filter (fun np => true) (numbered (leaves [] x_tree)))) with (leaves [] x_tree).
      clear -HS A. induction HS as [|lp q ls qs [H1 H2] _ IH]; constructor; [|exact IH]. split; [eapply shows_same; eassumption|eapply placed_same; eassumption].
  - split; [exact L1|left; reflexivity].
  - split; [exact L2|right; split; [reflexivity|exact HN]].
  - right. exact HP.
Qed.
