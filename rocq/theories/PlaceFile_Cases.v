(* C94, C95: concrete cases that meet the hypotheses. *)
From Coq Require Import String.
From Verif Require Import Base Lex_Model Lex_Spec Lines_Model Lines_Spec Markup_Spec Obj Stack_Model Stack_Spec Stack_Proofs Stack_Props Content_Model Content_Spec Stream_Model Stream_Spec Stream_Props XRef_Model XRef_Spec
  Doc_Model Doc_Spec Num Geom_Model Page_Model Page_Spec Page_Proofs Page_Props Interp_Model Interp_Spec CMap_Model CMap_Spec CMap_Proofs Font_Model Font_Spec Font_Props
  Sec_Model Open_Model Open_Spec Fallback_Model Fallback_Spec Sections_Spec Convert_Model Convert_Spec Total_Spec Total_Props Instr_Spec Instr_Props Multi_Spec Multi_Props FontTotal_Spec FontTotal_Props
  Extract_Model Extract_Spec Extract_Props Extract_Cases State_Spec Place_Spec Place_Props Measure_Spec Measure_Props PlaceFile_Spec PlaceFile_Props Witness.
From Coq Require Import Qcanon ZifyBool ZifyNat.
Open Scope Z_scope.
Import ListNotations.

(* the font of the file x_file, with its measures *)
Definition p_font_ : font := mkFont (fun s => Ok s) (fun c => iget [(65, [65]); (66, [66])] c)
  (fun c => (qz (if c =? 65 then 500 else if c =? 66 then 600 else 0) * thousandth)%Qc) (fun _ => (None, qz 0)) false false (qz 0) (qz 1150 * thousandth)%Qc (qz (-200) * thousandth)%Qc.
Definition tenths (z : Z) : num := (qz z / qz 10)%Qc.
Definition cents (z : Z) : num := (qz z / qz 100)%Qc.
Section cases.
  Variable (w : Z -> option obj).
  Variables (zlib : list Z -> option (list Z)) (ccitt : list Z -> obj -> res (list Z)).
  Lemma p_measured : FontMeasured (x_get w) (fun _ => None) x_bases x_metrics (fun _ => None) (fun _ _ => None) (Data zlib ccitt) (ORef 4) p_font_.
  Proof.
    eexists _, one_byte, (fun c => match last_for [] c with Some t => Some t | None => base x_bases (bs "StandardEncoding") c end), false, (f_width p_font_), (f_descent p_font_), (f_height p_font_). splits; try reflexivity.
    - eapply Leads_ref; [reflexivity|]. apply Leads_stop; discriminate.
    - eapply FR_standard with (n := bs "Symbol") (d := x_desc) (cw := [([65], qz 500); ([66], qz 600)]).
      + right. exists (bs "Type1"). split; [reflexivity|]. intros H. cbn [map In] in H. destruct H as [H|[H|[H|[H|[]]]]]; discriminate H.
      + left. reflexivity.
      + reflexivity.
      + repeat constructor; intros o H; try discriminate H; injection H as <-; eexists; apply Leads_stop; discriminate.
      + apply UO_none. reflexivity.
      + apply CO_entry; [right; reflexivity|]. apply EN_name, V_absent. reflexivity.
    - eapply Me_standard with (n := bs "Symbol") (d := x_desc) (cw := [([65], qz 500); ([66], qz 600)]) (mw := qz 0) (w' := fun c => qz (if c =? 65 then 500 else if c =? 66 then 600 else 0)).
      + right. exists (bs "Type1"). split; [reflexivity|]. intros H. cbn [map In] in H. destruct H as [H|[H|[H|[H|[]]]]]; discriminate H.
      + left. reflexivity.
      + reflexivity.
      + repeat constructor; cbn; intuition discriminate.
      + exists (OInt 0). split; [apply V_absent; reflexivity|constructor].
      + replace (qz 1150) with (qz 900 - qz (-250))%Qc by (apply Qc_is_canon; reflexivity).
        eapply Li_box with (asc := qz 800) (x0 := qz 0) (x1 := qz 1000).
        * exists (OInt 800). split; [eapply V_present; [reflexivity|apply Leads_stop; discriminate]|constructor].
        * exists (OInt (-200)). split; [eapply V_present; [reflexivity|apply Leads_stop; discriminate]|constructor].
        * exists [OInt 0; OInt (-250); OInt 1000; OInt 900]. split; [eapply V_present; [reflexivity|apply Leads_stop; discriminate]|repeat constructor].
        * discriminate.
      + intros c. destruct (Z.eqb_spec c 65) as [->|H1]; [left; exists [65]; split; [reflexivity|left; reflexivity]|]. destruct (Z.eqb_spec c 66) as [->|H2]; [left; exists [66]; split; [reflexivity|right; left; reflexivity]|].
        right. split; [|reflexivity]. intros t Ht. change (iget [(65, [65]); (66, [66])] c = Some t) in Ht. cbn [iget] in Ht. exfalso. revert Ht.
        destruct (65 =? c) eqn:E1; [lia|]. destruct (66 =? c) eqn:E2; [lia|]. discriminate.
      + intros c. reflexivity.
    - intros s cids [= <-]. reflexivity.
  Qed.
  Ltac qnum := apply Qc_is_canon; vm_compute; reflexivity.
  Ltac boxes := change (bs "AB") with [65; 66]; change (bs "A") with [65]; change (bs "B") with [66]; unfold glyph_box, rect; cbn [map app spec_places fst snd]; repeat (f_equal; try reflexivity; try qnum).
  Definition p_page1 : placed_page :=
    ((qz 9, qz 9), [[[([65], mkBox (qz 0) (tenths (-18)) (tenths 45) (cents 855)); ([66], mkBox (tenths 45) (tenths (-18)) (tenths 99) (cents 855))]]]).
  Lemma p_placed1 : Places false (fun n => if list_eqb n (bs "F") then Some p_font_ else None) (on_page 0 (qz 0) (qz 0) (qz 9) (qz 9)) [] par0 [] None
    [OK "BT"; ON "F"; OInt 9; OK "Tf"; OStr (bs "AB"); OK "Tj"; OK "ET"] (snd p_page1).
  Proof.
    apply pl_BT. eapply pl_Tf; [reflexivity|reflexivity|]. eapply pl_Tj.
    - exists p_font_. split; [reflexivity|]. apply (tj_str _ (bs "AB") (bs "AB") [] []); [reflexivity|constructor].
    - exists p_font_. cbv zeta. splits.
      + reflexivity.
      + reflexivity.
      + reflexivity.
      + exists 65. left. reflexivity.
      + right. intros c Hc. destruct Hc as [Hc|[Hc|[]]]; injection Hc as <-; discriminate.
      + reflexivity.
      + reflexivity.
    - match goal with |- Places _ _ _ _ _ _ (Some (_, _, [] ++ [?c])) _ _ =>
        replace c with [([65], mkBox (qz 0) (tenths (-18)) (tenths 45) (cents 855)); ([66], mkBox (tenths 45) (tenths (-18)) (tenths 99) (cents 855))] end.
      + apply pl_ET. constructor.
      + boxes.
  Qed.
  Definition p_page2 : placed_page := ((qz 9, qz 9), []).
  Ltac pv := unfold Page_Spec.Value; cbn; first [eapply Leads_ref; [reflexivity|]; apply Leads_stop; discriminate | apply Leads_stop; discriminate | reflexivity].
  Lemma p_pages : Forall2 (fun lp q => PageShows zlib ccitt (fun _ => None) x_bases x_metrics (fun _ => None) (fun _ _ => None) (x_get w) false (snd lp) (fst q) /\
    PagePlaced zlib ccitt (fun _ => None) x_bases x_metrics (fun _ => None) (fun _ _ => None) (x_get w) false (snd lp) (snd q)) (leaves [] x_tree) [([[65]; [66]], p_page1); ([], p_page2)].
  Proof.
    pose proof (x_shows w zlib ccitt) as H. inversion H as [|a b c d S1 H']; subst. inversion H' as [|a b c d S2 _]; subst. clear H H'.
      constructor; [split; [exact S1|]|constructor; [split; [exact S2|]|constructor]].
      + exists [OInt 0; OInt 0; OInt 9; OInt 9], (qz 0), (qz 0), (qz 9), (qz 9), 0, 0. eexists _, _, [(ON "F", ORef 4)], (fun n => if list_eqb n (bs "F") then Some p_font_ else None), (OStream [] t5), _. splits.
        * pv.
        * repeat constructor.
        * apply (f_equal2 pair); qnum.
        * pv.
        * reflexivity.
        * pv.
        * apply Leads_stop; discriminate.
        * right. eexists. split; [reflexivity|apply Leads_stop; discriminate].
        * intros n f. destruct (list_eqb n (bs "F")) eqn:E; [|discriminate]. apply list_eqb_eq in E. subst n. intros X. injection X as <-. exists (ORef 4). split; [reflexivity|exact p_measured].
        * pv.
        * apply x_tokens1.
        * exact p_placed1.
      + exists [OInt 0; OInt 0; OInt 9; OInt 9], (qz 0), (qz 0), (qz 9), (qz 9), 0, 0. eexists _, _, [], (fun _ => None), (OStream [] t7), _. splits.
        * pv.
        * repeat constructor.
        * apply (f_equal2 pair); qnum.
        * pv.
        * reflexivity.
        * pv.
        * apply Leads_stop; discriminate.
        * left. split; reflexivity.
        * discriminate.
        * pv.
        * apply x_tokens2.
        * apply pl_q. apply pl_Q. constructor.
  Qed.
  (* more operators: the transformation is scaled and moved, the line moved, an array with an adjustment shown, and a string on the next line *)
  Definition p_content : list obj := [OK "q"; OInt 2; OInt 0; OInt 0; OInt 2; OInt 10; OInt 20; OK "cm"; OK "BT"; ON "F"; OInt 10; OK "Tf"; OInt 5; OInt 7; OK "Td";
    OArr [OStr (bs "A"); OInt (-100); OStr (bs "B")]; OK "TJ"; OInt 12; OK "TL"; OStr (bs "A"); OK "'"; OK "ET"; OK "Q"].
  Definition p_shown : list (list (list shown_char)) :=
    [[[([65], mkBox (qz 20) (qz 30) (qz 30) (qz 53)); ([66], mkBox (qz 32) (qz 30) (qz 44) (qz 53))]; [([65], mkBox (qz 20) (qz 6) (qz 30) (qz 29))]]].
  Example C94_content : Places false (fun n => if list_eqb n (bs "F") then Some p_font_ else None) (on_page 0 (qz 0) (qz 0) (qz 600) (qz 800)) [] par0 [] None p_content p_shown.
  Proof.
    apply pl_q. apply (pl_cm _ _ _ _ _ _ [OInt 2; OInt 0; OInt 0; OInt 2; OInt 10; OInt 20] (qz 2) (qz 0) (qz 0) (qz 2) (qz 10) (qz 20)); [repeat constructor|].
    apply pl_BT. eapply pl_Tf; [reflexivity|reflexivity|]. eapply pl_Td; [reflexivity|reflexivity|]. eapply pl_TJ.
    - exists p_font_. split; [reflexivity|]. eapply (tj_str _ (bs "A") (bs "A")); [reflexivity|]. eapply tj_num; [reflexivity|]. apply (tj_str _ (bs "B") (bs "B") [] []); [reflexivity|constructor].
    - exists p_font_. cbv zeta. splits; try reflexivity.
      + exists 65. left. reflexivity.
      + right. intros c Hc. destruct Hc as [Hc|[Hc|[Hc|[]]]]; try discriminate Hc; injection Hc as <-; discriminate.
    - eapply pl_TL; [reflexivity|]. eapply pl_quote.
      + exists p_font_. split; [reflexivity|]. apply (tj_str _ (bs "A") (bs "A") [] []); [reflexivity|constructor].
      + exists p_font_. cbv zeta. splits; try reflexivity.
        * exists 65. left. reflexivity.
        * right. intros c Hc. destruct Hc as [Hc|[]]. injection Hc as <-. discriminate.
      + match goal with |- Places _ _ _ _ _ _ (Some (_, _, ([] ++ [?c]) ++ [?d])) _ _ =>
          replace c with [([65], mkBox (qz 20) (qz 30) (qz 30) (qz 53)); ([66], mkBox (qz 32) (qz 30) (qz 44) (qz 53))];
          [replace d with [([65], mkBox (qz 20) (qz 6) (qz 30) (qz 29))]|] end.
        * apply pl_ET. apply pl_Q. constructor.
        * boxes.
        * boxes.
  Qed.
End cases.
Example C94_hypotheses zlib ccitt : FilePlaced zlib ccitt (fun _ => None) x_bases x_metrics (fun _ => None) (fun _ _ => None) x_getobj (stored_data zlib ccitt) x_file [] 0 false
    [([[65]; [66]], p_page1); ([], p_page2)].
Proof.
  exists x_tree. eexists. splits.
  - apply x_has.
  - left. split; reflexivity.
  - discriminate.
  - exact (p_pages (fun _ => None) zlib ccitt).
Qed.
(* C95_page, on a page of x_file: the state is prepared, and a text object with one string of two characters comes out *)
Example C95_hypotheses : exists s, prep_state x_getobj 9 (doc_font (fun _ => None) (fun _ _ => Err PDFNotImplementedError) (fun _ => None) x_bases x_metrics (fun _ => None) (fun _ _ => None) 7 x_getobj 9)
    (page_ctm 0 (qz 0) (qz 0) (qz 9) (qz 9)) (ODict [(ON "Font", ODict [(ON "F", ORef 4)])]) false = Ok s /\
  match process x_getobj 9 (doc_font (fun _ => None) (fun _ _ => Err PDFNotImplementedError) (fun _ => None) x_bases x_metrics (fun _ => None) (fun _ _ => None) 7 x_getobj 9)
    (content (fun _ => None) (fun _ _ => Err PDFNotImplementedError) 7 x_getobj 99) 9 s [ORef 5] with
  | (([IText t], None), _) => map (fun cb => map fst (cb_chars cb)) (tb_blocks t) = [[[65]; [66]]]
  | _ => False
  end.
Proof. eexists. split; [reflexivity|]. vm_compute. reflexivity. Qed.
