(* C107: a file that meets the hypotheses, and what does not hold. *)
From Coq Require Import String.
From Verif Require Import Base Lex_Model Lex_Spec Lines_Model Lines_Spec Markup_Spec Obj Stack_Model Stack_Spec Stack_Proofs Stack_Props Content_Model Content_Spec Stream_Model Stream_Spec Stream_Props XRef_Model XRef_Spec XRef_Proofs
  Doc_Model Doc_Spec Doc_Proofs Doc_Props Witness Num Geom_Model Page_Model Page_Spec Page_Proofs Page_Props Interp_Model Interp_Spec CMap_Model CMap_Spec CMap_Proofs Font_Model Font_Spec Font_Props
  Sec_Model Open_Model Open_Spec Open_Props Fallback_Model Fallback_Spec Fallback_Proofs Fallback_Props Convert_Model Convert_Spec TextFile_Props
  Names_Props Instr_Spec Instr_Props Multi_Spec Multi_Props FontTotal_Spec FontTotal_Props Extract_Model Total_Spec Total_Props Extract_Spec Extract_Proofs Extract_Props Extract_Cases State_Spec Place_Spec Place_Props Measure_Spec Measure_Props PlaceFile_Spec PlaceFile_Props PlaceFile_Cases Nest_Spec Nest_Props.
From Coq Require Import Qcanon ZifyBool ZifyNat.
Open Scope Z_scope.
Import ListNotations.

Definition n_file : list Z := bs "%PDF-1.4
1 0 obj <</Pages 2 0 R>> endobj
2 0 obj <</Type/Pages/Kids[3 0 R]>> endobj
3 0 obj <</Type/Page/MediaBox[0 0 99 99]/Resources<</XObject<</X 6 0 R>>>>/Contents 5 0 R>> endobj
4 0 obj <</Subtype/Type1/BaseFont/Symbol>> endobj
5 0 obj <<>>stream
q 2 0 0 2 1 1 cm/X Do Q
endstream
endobj
6 0 obj <</Subtype/Form/BBox[0 0 9 9]/Resources<</Font<</F 4 0 R>>>>>>stream
BT/F 9 Tf(AB)Tj ET
endstream
endobj
trailer <</Root 1 0 R>>
".
Definition n1 := e [("Pages"%string, ORef 2)].
Definition n2 := e [("Type"%string, ON "Pages"); ("Kids"%string, OArr [ORef 3])].
Definition n3 := e [("Type"%string, ON "Page"); ("MediaBox"%string, OArr [OInt 0; OInt 0; OInt 99; OInt 99]); ("Resources"%string, e [("XObject"%string, e [("X"%string, ORef 6)])]); ("Contents"%string, ORef 5)].
Definition n4 := e [("Subtype"%string, ON "Type1"); ("BaseFont"%string, ON "Symbol")].
Definition s5 := bs "q 2 0 0 2 1 1 cm/X Do Q" ++ [10].
Definition d5 : list (obj * obj) := [].
Definition s6 := bs "BT/F 9 Tf(AB)Tj ET" ++ [10].
Definition d6 : list (obj * obj) := [(ON "Subtype", ON "Form"); (ON "BBox", OArr [OInt 0; OInt 0; OInt 9; OInt 9]); (ON "Resources", e [("Font"%string, e [("F"%string, ORef 4)])])].
Definition n_hits : list hit := [(1, InUse 9 0, n1); (2, InUse 41 0, n2); (3, InUse 84 0, n3); (4, InUse 183 0, n4); (5, InUse 233 0, OStream d5 s5); (6, InUse 293 0, OStream d6 s6)].
Definition n_getobj (i : Z) : option obj := if i =? 1 then Some n1 else if i =? 2 then Some n2 else if i =? 3 then Some n3 else if i =? 4 then Some n4 else if i =? 5 then Some (OStream d5 s5) else if i =? 6 then Some (OStream d6 s6) else None.
Section file.
  Variable decode : list (obj * obj) -> list Z -> res (list Z).
  Lemma n_contents : Fallback_Spec.Contents decode 0 n_file n_hits [(ON "Root", ORef 1)].
  Proof.
    change n_file with ((bs "%PDF-1.4" ++ [10]) ++
      bs "1 0 obj <</Pages 2 0 R>> " ++ bs "endobj" ++ (@nil Z ++ [10]) ++
      bs "2 0 obj <</Type/Pages/Kids[3 0 R]>> " ++ bs "endobj" ++ (@nil Z ++ [10]) ++
      bs "3 0 obj <</Type/Page/MediaBox[0 0 99 99]/Resources<</XObject<</X 6 0 R>>>>/Contents 5 0 R>> " ++ bs "endobj" ++ (@nil Z ++ [10]) ++
      bs "4 0 obj <</Subtype/Type1/BaseFont/Symbol>> " ++ bs "endobj" ++ (@nil Z ++ [10]) ++
      bs "5 0 obj <<>>" ++ (bs "stream" ++ [10] ++ s5 ++ bs "endstream" ++ [10] ++ bs "endobj") ++ (@nil Z ++ [10]) ++
      bs "6 0 obj <</Subtype/Form/BBox[0 0 9 9]/Resources<</Font<</F 4 0 R>>>>>>" ++ (bs "stream" ++ [10] ++ s6 ++ bs "endstream" ++ [10] ++ bs "endobj") ++ (@nil Z ++ [10]) ++
      bs "trailer <</Root 1 0 R>>" ++ [10]).
    assert (HL : forall p l rest h d, l = bs "%PDF-1.4" \/ l = [] -> Fallback_Spec.Contents decode (p + Z.of_nat (length (l ++ [10]))) rest h d -> Fallback_Spec.Contents decode p ((l ++ [10]) ++ rest) h d).
    { intros p l rest h d Hl HC. apply Ct_line; [apply Line_lf|destruct Hl; subst l; discriminate| |exact HC].
      - destruct Hl; subst l; apply no_eol_ok; reflexivity.
      - destruct Hl; subst l; apply boring_ok; reflexivity. }
    unfold n_hits. apply HL; [left; reflexivity|].
    apply (Ct_object _ _ 1 0 n1).
    { exists [(17, KW "<<"); (19, TLit (bs "Pages")); (26, TInt 2); (28, TInt 0); (30, KW "R"); (31, KW ">>")], 9, 11, 13, true, (bs "1 0 obj <</Pages 2 0 R>> endobj" ++ [10]). splits.
      - cbn [app]. int_tok (@nil Z) (bs "1"). int_tok [32] (bs "0"). kw_tok [32] (bs "obj"). dopen_tok [32]. name_tok (@nil Z) (bs "Pages"). int_tok [32] (bs "2"). int_tok [32] (bs "0"). kw_tok [32] (bs "R"). dclose_tok (@nil Z). lay_end.
      - written.
      - eapply first_line_ok; reflexivity.
      - apply announces_ok. reflexivity. }
    { apply boundary_ok. reflexivity. }
    apply HL; [right; reflexivity|].
    apply (Ct_object _ _ 2 0 n2).
    { exists [(49, KW "<<"); (51, TLit (bs "Type")); (56, TLit (bs "Pages")); (62, TLit (bs "Kids")); (67, KW "["); (68, TInt 3); (70, TInt 0); (72, KW "R"); (73, KW "]"); (74, KW ">>")], 41, 43, 45, true, (bs "2 0 obj <</Type/Pages/Kids[3 0 R]>> endobj" ++ [10]). splits.
      - cbn [app]. int_tok (@nil Z) (bs "2"). int_tok [32] (bs "0"). kw_tok [32] (bs "obj"). dopen_tok [32]. name_tok (@nil Z) (bs "Type"). name_tok (@nil Z) (bs "Pages"). name_tok (@nil Z) (bs "Kids"). aopen_tok (@nil Z). int_tok (@nil Z) (bs "3"). int_tok [32] (bs "0"). kw_tok [32] (bs "R"). aclose_tok (@nil Z). dclose_tok (@nil Z). lay_end.
      - written.
      - eapply first_line_ok; reflexivity.
      - apply announces_ok. reflexivity. }
    { apply boundary_ok. reflexivity. }
    apply HL; [right; reflexivity|].
    apply (Ct_object _ _ 3 0 n3).
    { exists [(92, KW "<<"); (94, TLit (bs "Type")); (99, TLit (bs "Page")); (104, TLit (bs "MediaBox")); (113, KW "["); (114, TInt 0); (116, TInt 0); (118, TInt 99); (121, TInt 99); (123, KW "]"); (124, TLit (bs "Resources")); (134, KW "<<"); (136, TLit (bs "XObject")); (144, KW "<<"); (146, TLit (bs "X")); (149, TInt 6); (151, TInt 0); (153, KW "R"); (154, KW ">>"); (156, KW ">>"); (158, TLit (bs "Contents")); (168, TInt 5); (170, TInt 0); (172, KW "R"); (173, KW ">>")], 84, 86, 88, true, (bs "3 0 obj <</Type/Page/MediaBox[0 0 99 99]/Resources<</XObject<</X 6 0 R>>>>/Contents 5 0 R>> endobj" ++ [10]). splits.
      - cbn [app]. int_tok (@nil Z) (bs "3"). int_tok [32] (bs "0"). kw_tok [32] (bs "obj"). dopen_tok [32]. name_tok (@nil Z) (bs "Type"). name_tok (@nil Z) (bs "Page"). name_tok (@nil Z) (bs "MediaBox"). aopen_tok (@nil Z). int_tok (@nil Z) (bs "0"). int_tok [32] (bs "0"). int_tok [32] (bs "99"). int_tok [32] (bs "99"). aclose_tok (@nil Z). name_tok (@nil Z) (bs "Resources"). dopen_tok (@nil Z). name_tok (@nil Z) (bs "XObject"). dopen_tok (@nil Z). name_tok (@nil Z) (bs "X"). int_tok [32] (bs "6"). int_tok [32] (bs "0"). kw_tok [32] (bs "R"). dclose_tok (@nil Z). dclose_tok (@nil Z). name_tok (@nil Z) (bs "Contents"). int_tok [32] (bs "5"). int_tok [32] (bs "0"). kw_tok [32] (bs "R"). dclose_tok (@nil Z). lay_end.
      - written.
      - eapply first_line_ok; reflexivity.
      - apply announces_ok. reflexivity. }
    { apply boundary_ok. reflexivity. }
    apply HL; [right; reflexivity|].
    apply (Ct_object _ _ 4 0 n4).
    { exists [(191, KW "<<"); (193, TLit (bs "Subtype")); (201, TLit (bs "Type1")); (207, TLit (bs "BaseFont")); (216, TLit (bs "Symbol")); (223, KW ">>")], 183, 185, 187, true, (bs "4 0 obj <</Subtype/Type1/BaseFont/Symbol>> endobj" ++ [10]). splits.
      - cbn [app]. int_tok (@nil Z) (bs "4"). int_tok [32] (bs "0"). kw_tok [32] (bs "obj"). dopen_tok [32]. name_tok (@nil Z) (bs "Subtype"). name_tok (@nil Z) (bs "Type1"). name_tok (@nil Z) (bs "BaseFont"). name_tok (@nil Z) (bs "Symbol"). dclose_tok (@nil Z). lay_end.
      - written.
      - eapply first_line_ok; reflexivity.
      - apply announces_ok. reflexivity. }
    { apply boundary_ok. reflexivity. }
    apply HL; [right; reflexivity|].
    apply (Ct_stream _ _ 5 0 d5 s5).
    { exists [(241, KW "<<"); (243, KW ">>")], 233, 235, 237, true, (bs "5 0 obj <<>>stream" ++ [10]). splits.
      - cbn [app]. int_tok (@nil Z) (bs "5"). int_tok [32] (bs "0"). kw_tok [32] (bs "obj"). dopen_tok [32]. dclose_tok (@nil Z). lay_end.
      - apply (W_dict true true [] []); constructor.
      - eapply first_line_ok; reflexivity.
      - apply announces_ok. reflexivity. }
    { exists [10], [10]. splits; [reflexivity|left; reflexivity|apply sep_ok; reflexivity|discriminate|apply first_ok; reflexivity|].
      eapply (finished []). reflexivity. }
    { apply boundary_ok. reflexivity. }
    { discriminate. }
    apply HL; [right; reflexivity|].
    apply (Ct_stream _ _ 6 0 d6 s6).
    { exists [(301, KW "<<"); (303, TLit (bs "Subtype")); (311, TLit (bs "Form")); (316, TLit (bs "BBox")); (321, KW "["); (322, TInt 0); (324, TInt 0); (326, TInt 9); (328, TInt 9); (329, KW "]"); (330, TLit (bs "Resources")); (340, KW "<<"); (342, TLit (bs "Font")); (347, KW "<<"); (349, TLit (bs "F")); (352, TInt 4); (354, TInt 0); (356, KW "R"); (357, KW ">>"); (359, KW ">>"); (361, KW ">>")], 293, 295, 297, true, (bs "6 0 obj <</Subtype/Form/BBox[0 0 9 9]/Resources<</Font<</F 4 0 R>>>>>>stream" ++ [10]). splits.
      - cbn [app]. int_tok (@nil Z) (bs "6"). int_tok [32] (bs "0"). kw_tok [32] (bs "obj"). dopen_tok [32]. name_tok (@nil Z) (bs "Subtype"). name_tok (@nil Z) (bs "Form"). name_tok (@nil Z) (bs "BBox"). aopen_tok (@nil Z). int_tok (@nil Z) (bs "0"). int_tok [32] (bs "0"). int_tok [32] (bs "9"). int_tok [32] (bs "9"). aclose_tok (@nil Z). name_tok (@nil Z) (bs "Resources"). dopen_tok (@nil Z). name_tok (@nil Z) (bs "Font"). dopen_tok (@nil Z). name_tok (@nil Z) (bs "F"). int_tok [32] (bs "4"). int_tok [32] (bs "0"). kw_tok [32] (bs "R"). dclose_tok (@nil Z). dclose_tok (@nil Z). dclose_tok (@nil Z). lay_end.
      - change (ODict d6) with (e [("Subtype"%string, ON "Form"); ("BBox"%string, OArr [OInt 0; OInt 0; OInt 9; OInt 9]); ("Resources"%string, e [("Font"%string, e [("F"%string, ORef 4)])])]). written.
      - eapply first_line_ok; reflexivity.
      - apply announces_ok. reflexivity. }
    { exists [10], [10]. splits; [reflexivity|left; reflexivity|apply sep_ok; reflexivity|discriminate|apply first_ok; reflexivity|].
      eapply (finished []). reflexivity. }
    { apply boundary_ok. reflexivity. }
    { discriminate. }
    apply HL; [right; reflexivity|].
    apply Ct_trailer. eexists [(_, KW "<<"); (_, TLit (bs "Root")); (_, TInt 1); (_, TInt 0); (_, KW "R"); (_, KW ">>")], _, (bs "trailer <</Root 1 0 R>>" ++ [10]). splits.
    - eapply (first_line_ok _ []); reflexivity.
    - exists (bs " <</Root 1 0 R>>" ++ [10]). reflexivity.
    - apply (W_dict true true [(bs "Root", ORef 1)] [TLit (bs "Root"); TInt 1; TInt 0; KW "R"]); [repeat constructor; cbn; tauto|].
      apply (WE_cons true true (bs "Root") (ORef 1) [] [TInt 1; TInt 0; KW "R"] []); repeat constructor.
    - right. exists true. kw_tok (@nil Z) (bs "trailer"). dopen_tok [32]. name_tok (@nil Z) (bs "Root"). int_tok [32] (bs "1"). int_tok [32] (bs "0").
      kw_tok [32] (bs "R"). dclose_tok (@nil Z). lay_end.
  Qed.
  Lemma n_objects : HasObjects decode n_file n_getobj [[(ON "Root", ORef 1)]].
  Proof.
    apply (HO_found _ _ _ n_hits); [|exact n_contents|].
    - intros a b H. assert (E : forallb (fun i => negb (prefixb (bs "startxref") (skipn i n_file))) (seq 0 (length n_file)) = true) by (vm_compute; reflexivity).
      rewrite forallb_forall in E. specialize (E (length a)). cbv beta in E.
      replace (skipn (length a) n_file) with (bs "startxref" ++ b) in E by (rewrite H, skipn_app, skipn_all, Nat.sub_diag; reflexivity).
      rewrite prefixb_app in E. discriminate E. apply in_seq. rewrite H, !app_length. cbn [length bs]. lia.
    - intros id H0. unfold n_getobj.
      assert (R : forall a h c, n_hits = a ++ h :: c -> forallb (fun x => negb (fst (fst x) =? fst (fst h))) c = true ->
        (exists off gen, snd (fst h) = InUse off gen) -> Recovered decode n_hits (fst (fst h)) (snd h)).
      { intros a [[i en] o] c E F (off & gen & Eh). cbn [fst snd] in *. subst en. apply Rc_direct with off gen. exists a, c. split; [exact E|].
        apply Forall_forall. intros x Hx. rewrite forallb_forall in F. specialize (F x Hx). lia. }
      repeat match goal with |- context [id =? ?k] => destruct (Z.eqb_spec id k) as [->|] end.
      + refine (R [] (_, _, _) _ _ _ _); [reflexivity|reflexivity|repeat eexists].
      + refine (R [_] (_, _, _) _ _ _ _); [reflexivity|reflexivity|repeat eexists].
      + refine (R [_; _] (_, _, _) _ _ _ _); [reflexivity|reflexivity|repeat eexists].
      + refine (R [_; _; _] (_, _, _) _ _ _ _); [reflexivity|reflexivity|repeat eexists].
      + refine (R [_; _; _; _] (_, _, _) _ _ _ _); [reflexivity|reflexivity|repeat eexists].
      + refine (R [_; _; _; _; _] (_, _, _) _ _ _ _); [reflexivity|reflexivity|repeat eexists].
      + unfold NoHit, n_hits. repeat (apply Forall_cons; [cbn [fst]; congruence|]). apply Forall_nil.
  Qed.
End file.
Section pages.
  Variables (zlib : list Z -> option (list Z)) (ccitt : list Z -> obj -> res (list Z)).
  Definition o5 : list obj := [OK "q"; OInt 2; OInt 0; OInt 0; OInt 2; OInt 1; OInt 1; OK "cm"; ON "X"; OK "Do"; OK "Q"].
  Definition k5 : list token := [KW "q"; TInt 2; TInt 0; TInt 0; TInt 2; TInt 1; TInt 1; KW "cm"; TLit (bs "X"); KW "Do"; KW "Q"].
  Lemma tokens5 : Tokens zlib ccitt n_getobj [OStream d5 s5] o5.
  Proof.
    exists [s5]. splits; [discriminate| |apply (page_of_streams [s5] [k5])].
    - constructor; [|constructor]. eexists. split; [apply Leads_stop; discriminate|].
      eexists _, _, []. splits; [reflexivity|apply D_none; reflexivity|constructor].
    - constructor; [|constructor]. eexists. split; [unfold s5; cbn [bs app]|].
      { kw_tok (@nil Z) (bs "q"). int_tok [32] (bs "2"). int_tok [32] (bs "0"). int_tok [32] (bs "0"). int_tok [32] (bs "2"). int_tok [32] (bs "1"). int_tok [32] (bs "1"). kw_tok [32] (bs "cm"). name_tok (@nil Z) (bs "X"). kw_tok [32] (bs "Do"). kw_tok [32] (bs "Q"). lay_end. }
      reflexivity.
    - unfold k5, o5. cbn [concat app]. instr_op. apply (In_operand (OInt 2) [TInt 2]); [constructor|]. apply (In_operand (OInt 0) [TInt 0]); [constructor|]. apply (In_operand (OInt 0) [TInt 0]); [constructor|]. apply (In_operand (OInt 2) [TInt 2]); [constructor|]. apply (In_operand (OInt 1) [TInt 1]); [constructor|]. apply (In_operand (OInt 1) [TInt 1]); [constructor|]. instr_op. apply (In_operand (ON "X") [TLit (bs "X")]); [constructor|]. instr_op. instr_op. instr_op.
  Qed.
  Definition o6 : list obj := [OK "BT"; ON "F"; OInt 9; OK "Tf"; OStr (bs "AB"); OK "Tj"; OK "ET"].
  Definition k6 : list token := [KW "BT"; TLit (bs "F"); TInt 9; KW "Tf"; TStr (bs "AB"); KW "Tj"; KW "ET"].
  Lemma tokens6 : Tokens zlib ccitt n_getobj [OStream d6 s6] o6.
  Proof.
    exists [s6]. splits; [discriminate| |apply (page_of_streams [s6] [k6])].
    - constructor; [|constructor]. eexists. split; [apply Leads_stop; discriminate|].
      eexists _, _, []. splits; [reflexivity|apply D_none; reflexivity|constructor].
    - constructor; [|constructor]. eexists. split; [unfold s6; cbn [bs app]|].
      { kw_tok (@nil Z) (bs "BT"). name_tok (@nil Z) (bs "F"). int_tok [32] (bs "9"). kw_tok [32] (bs "Tf"). str_tok (@nil Z) (bs "AB"). kw_tok (@nil Z) (bs "Tj"). kw_tok [32] (bs "ET"). lay_end. }
      reflexivity.
    - unfold k6, o6. cbn [concat app]. instr_op. apply (In_operand (ON "F") [TLit (bs "F")]); [constructor|]. apply (In_operand (OInt 9) [TInt 9]); [constructor|]. instr_op. apply (In_operand (OStr (bs "AB")) [TStr (bs "AB")]); [constructor|]. instr_op. instr_op. instr_op.
  Qed.
  Lemma n_measured : FontMeasured n_getobj (fun _ => None) x_bases x_metrics (fun _ => None) (fun _ _ => None) (Data zlib ccitt) (ORef 4) p_font_.
  Proof.
    eexists _, one_byte, (fun c => match last_for [] c with Some t => Some t | None => base x_bases (bs "StandardEncoding") c end), false, (f_width p_font_), (f_descent p_font_), (f_height p_font_). splits; try reflexivity.
    - eapply Leads_ref; [reflexivity|]. apply Leads_stop; discriminate.
    - eapply FR_standard with (n := bs "Symbol") (d := x_desc) (cw := [([65], qz 500); ([66], qz 600)]).
      + right. exists (bs "Type1"). split; [reflexivity|]. intros H. cbn [map In] in H. destruct H as [H|[H|[H|[H|[]]]]]; discriminate H.
      + left. reflexivity.
      + reflexivity.
      + repeat constructor; intros o H; try discriminate H; injection H as <-; eexists; apply Leads_stop; discriminate.
      + apply UO_none. reflexivity.
      + apply CO_entry; [right; reflexivity|]. apply EN_name, V_absent. reflexivity.
    - eapply Me_standard with (n := bs "Symbol") (d := x_desc) (cw := [([65], qz 500); ([66], qz 600)]) (mw := qz 0) (w' := fun c => qz (if c =? 65 then 500 else if c =? 66 then 600 else 0)).
      + right. exists (bs "Type1"). split; [reflexivity|]. intros H. cbn [map In] in H. destruct H as [H|[H|[H|[H|[]]]]]; discriminate H.
      + left. reflexivity.
      + reflexivity.
      + repeat constructor; cbn; intuition discriminate.
      + exists (OInt 0). split; [apply V_absent; reflexivity|constructor].
      + replace (qz 1150) with (qz 900 - qz (-250))%Qc by (apply Qc_is_canon; reflexivity).
        eapply Li_box with (asc := qz 800) (x0 := qz 0) (x1 := qz 1000).
        * exists (OInt 800). split; [eapply V_present; [reflexivity|apply Leads_stop; discriminate]|constructor].
        * exists (OInt (-200)). split; [eapply V_present; [reflexivity|apply Leads_stop; discriminate]|constructor].
        * exists [OInt 0; OInt (-250); OInt 1000; OInt 900]. split; [eapply V_present; [reflexivity|apply Leads_stop; discriminate]|repeat constructor].
        * discriminate.
      + intros c. destruct (Z.eqb_spec c 65) as [->|H1]; [left; exists [65]; split; [reflexivity|left; reflexivity]|]. destruct (Z.eqb_spec c 66) as [->|H2]; [left; exists [66]; split; [reflexivity|right; left; reflexivity]|].
        right. split; [|reflexivity]. intros t Ht. change (iget [(65, [65]); (66, [66])] c = Some t) in Ht. cbn [iget] in Ht. exfalso. revert Ht.
        destruct (65 =? c) eqn:E1; [lia|]. destruct (66 =? c) eqn:E2; [lia|]. discriminate.
      + intros c. reflexivity.
    - intros s cids [= <-]. reflexivity.
  Qed.
  Lemma n_font_at : FontAt n_getobj (fun _ => None) x_bases x_metrics (fun _ => None) (fun _ _ => None) (Data zlib ccitt) (ORef 4) x_font.
  Proof.
    eexists _, one_byte, _. splits.
    - eapply Leads_ref; [reflexivity|]. apply Leads_stop; discriminate.
    - eapply FR_standard with (n := bs "Symbol") (d := x_desc) (cw := [([65], qz 500); ([66], qz 600)]).
      + right. exists (bs "Type1"). split; [reflexivity|]. intros H. cbn [map In] in H. destruct H as [H|[H|[H|[H|[]]]]]; discriminate H.
      + left. reflexivity.
      + reflexivity.
      + repeat constructor; intros o H; try discriminate H; injection H as <-; eexists; apply Leads_stop; discriminate.
      + apply UO_none. reflexivity.
      + apply CO_entry; [right; reflexivity|]. apply EN_name, V_absent. reflexivity.
    - intros s cids H. injection H as <-. reflexivity.
    - intros c. reflexivity.
  Qed.
  Definition n_res : obj := e [("XObject"%string, e [("X"%string, ORef 6)])].
  Definition f_res : obj := e [("Font"%string, e [("F"%string, ORef 4)])].
  Ltac named_ok := apply w_named; [reflexivity|repeat (apply Forall_cons; [eexists; reflexivity|]); apply Forall_nil].
  Ltac far := intros (k & H & Ek); first [discriminate Ek|cbn in H; decompose [or] H; subst; first [contradiction|discriminate Ek]].
  Ltac plain n ks args := apply (Total_Spec.sh_plain _ _ _ _ _ _ _ n ks args); [cbn [In plain_ops]; tauto|repeat (constructor; [left; eexists; reflexivity|]); constructor|].
  Lemma f_draws : Extract_Spec.Draws zlib ccitt (fun _ => None) x_bases x_metrics (fun _ => None) (fun _ _ => None) n_getobj 1 false f_res [OStream d6 s6] [[65]; [66]].
  Proof.
    cbn [Extract_Spec.Draws Total_Spec.Draws]. eexists _, [(ON "F", ORef 4)], [], [], o6. split; [splits|split].
    - apply Leads_stop; discriminate.
    - named_ok.
    - right. eexists. split; [reflexivity|apply Leads_stop; discriminate].
    - named_ok.
    - left. split; reflexivity.
    - named_ok.
    - left. split; reflexivity.
    - named_ok.
    - intros o [=].
    - constructor; [exists x_font; exact n_font_at|constructor].
    - constructor.
    - apply tokens6.
    - apply sh_BT. apply (sh_Tf _ _ _ _ _ _ _ (bs "F") (OInt 9) x_font); [exists (ORef 4); split; [reflexivity|exact n_font_at]|left; eexists; reflexivity|].
      change [[65]; [66]] with ([[65]; [66]] ++ []). apply sh_Tj; [|apply sh_ET; constructor]. split; [|split; [discriminate|]].
      + apply (sd_str x_font (bs "AB") (bs "AB") [] []); [reflexivity|constructor].
      + right. repeat constructor. intros b cids H F. injection H as <-. injection F as <-. repeat constructor; discriminate.
  Qed.
  Lemma n_draws : Extract_Spec.Draws zlib ccitt (fun _ => None) x_bases x_metrics (fun _ => None) (fun _ _ => None) n_getobj 2 false n_res [OStream d5 s5] [[65]; [66]].
  Proof.
    cbn [Extract_Spec.Draws Total_Spec.Draws]. eexists _, [], [(ON "X", ORef 6)], [], o5. split; [splits|split].
    - apply Leads_stop; discriminate.
    - named_ok.
    - left. split; reflexivity.
    - named_ok.
    - right. eexists. split; [reflexivity|apply Leads_stop; discriminate].
    - named_ok.
    - left. split; reflexivity.
    - named_ok.
    - intros o [=].
    - constructor.
    - constructor.
    - apply tokens5.
    - unfold o5. apply Total_Spec.sh_q. plain "cm"%string N6 [OInt 2; OInt 0; OInt 0; OInt 2; OInt 1; OInt 1].
      change [[65]; [66]] with ([[65]; [66]] ++ []). apply (Total_Spec.sh_Do _ _ _ _ _ _ (bs "X") [[65]; [66]]).
      { exists (ORef 6), d6, s6. splits; [reflexivity|eapply Leads_ref; [reflexivity|apply Leads_stop; discriminate]|right]. exists f_res, (OArr [OInt 0; OInt 0; OInt 9; OInt 9]), [OInt 0; OInt 0; OInt 9; OInt 9]. splits.
        - reflexivity.
        - reflexivity.
        - apply Leads_stop; discriminate.
        - split; [reflexivity|repeat constructor; eexists; reflexivity].
        - intros m [=].
        - right. right. eexists _, _. splits; [reflexivity|discriminate|apply Leads_stop; discriminate|reflexivity].
        - exact f_draws. }
      apply Total_Spec.sh_Q. constructor.
  Qed.
  Definition n_T : list coefs := [(qz 2, qz 0, qz 0, qz 2, qz 1, qz 1)].
  Definition n_base := on_page 0 (qz 0) (qz 0) (qz 99) (qz 99).
  Definition n_shown : list (list (list shown_char)) :=
    [[[([65], mkBox (qz 1) (tenths (-26)) (qz 10) (tenths 181)); ([66], mkBox (qz 10) (tenths (-26)) (tenths 208) (tenths 181))]]].
  Definition n_fonts (n : list Z) := if list_eqb n (bs "F") then Some p_font_ else None.
  Ltac qnum := apply Qc_is_canon; vm_compute; reflexivity.
  Ltac boxes := change (bs "AB") with [65; 66]; unfold glyph_box, rect; cbn [map app spec_places fst snd]; repeat (f_equal; try reflexivity; try qnum).
  Lemma f_places : Places false n_fonts n_base (unit_matrix :: n_T) par0 [] None o6 n_shown.
  Proof.
    apply pl_BT. eapply pl_Tf; [reflexivity|reflexivity|]. eapply pl_Tj.
    - exists p_font_. split; [reflexivity|]. apply (tj_str _ (bs "AB") (bs "AB") [] []); [reflexivity|constructor].
    - exists p_font_. cbv zeta. splits; try reflexivity.
      + exists 65. left. reflexivity.
      + right. intros c Hc. destruct Hc as [Hc|[Hc|[]]]; injection Hc as <-; discriminate.
    - match goal with |- Places _ _ _ _ _ _ (Some (_, _, [] ++ [?c])) _ _ =>
        replace c with [([65], mkBox (qz 1) (tenths (-26)) (qz 10) (tenths 181)); ([66], mkBox (qz 10) (tenths (-26)) (tenths 208) (tenths 181))] end.
      + apply pl_ET. constructor.
      + boxes.
  Qed.
  Ltac not_call := apply ca_tok; [far|].
  Lemma f_nested : Nested zlib ccitt (fun _ => None) x_bases x_metrics (fun _ => None) (fun _ _ => None) n_getobj (fun F => F = unit_matrix) 1 n_base false f_res [OStream d6 s6] (unit_matrix :: n_T) (Node n_shown []).
  Proof.
    cbn [Nested]. eexists n_shown, [], _, [(ON "F", ORef 4)], [], n_fonts, o6, []. splits.
    - reflexivity.
    - apply Leads_stop; discriminate.
    - named_ok.
    - right. eexists. split; [reflexivity|apply Leads_stop; discriminate].
    - named_ok.
    - left. split; reflexivity.
    - named_ok.
    - intros n f. unfold n_fonts. destruct (list_eqb n (bs "F")) eqn:E; [|discriminate]. apply list_eqb_eq in E. subst n. intros X. injection X as <-. exists (ORef 4). split; [reflexivity|exact n_measured].
    - apply tokens6.
    - exact f_places.
    - unfold o6. repeat not_call. constructor.
    - constructor.
  Qed.
  Lemma n_nested : Nested zlib ccitt (fun _ => None) x_bases x_metrics (fun _ => None) (fun _ _ => None) n_getobj (fun F => F = unit_matrix) 2 n_base false n_res [OStream d5 s5] [] (Node [] [Node n_shown []]).
  Proof.
    cbn [Nested]. eexists [], [Node n_shown []], _, [], [(ON "X", ORef 6)], (fun _ => None), o5, [(bs "X", n_T)]. splits.
    - reflexivity.
    - apply Leads_stop; discriminate.
    - named_ok.
    - left. split; reflexivity.
    - named_ok.
    - right. eexists. split; [reflexivity|apply Leads_stop; discriminate].
    - named_ok.
    - discriminate.
    - apply tokens5.
    - unfold o5. apply pl_q. apply (pl_cm _ _ _ _ _ _ [OInt 2; OInt 0; OInt 0; OInt 2; OInt 1; OInt 1] (qz 2) (qz 0) (qz 0) (qz 2) (qz 1) (qz 1)); [repeat constructor|].
      apply pl_tok; [far|]. apply pl_tok; [far|]. apply pl_Q. constructor.
    - unfold o5. apply ca_q. apply (ca_cm _ _ [OInt 2; OInt 0; OInt 0; OInt 2; OInt 1; OInt 1] (qz 2) (qz 0) (qz 0) (qz 2) (qz 1) (qz 1)); [repeat constructor|].
      apply (ca_Do _ _ (bs "X")). apply ca_Q. constructor.
    - apply fd_form with (x := ORef 6) (fd := d6) (data := s6) (F := unit_matrix) (fr := f_res).
      + reflexivity.
      + eapply Leads_ref; [reflexivity|apply Leads_stop; discriminate].
      + reflexivity.
      + discriminate.
      + left. split; reflexivity.
      + reflexivity.
      + right. right. eexists _, _. splits; [reflexivity|discriminate|apply Leads_stop; discriminate|reflexivity].
      + exact f_nested.
      + constructor.
  Qed.
  Definition plainb (o : obj) : bool := match o with ORef i => match n_getobj i with Some (ORef _) | None => false | _ => true end | _ => true end.
  Lemma n_attr path : forallb (forallb (fun kv => plainb (snd kv))) path = true -> forall k o, attr path k = Some o -> exists v, Leads n_getobj ONull o v.
  Proof.
    intros H k. induction path as [|d path IH]; [discriminate|]. cbn [forallb] in H. apply andb_prop in H as [H1 H2]. specialize (IH H2). cbn [attr].
    intros o E. destruct (dict_get d (OName k)) as [v|] eqn:D; [|destruct (Inheritable k); [exact (IH o E)|discriminate]]. injection E as ->. clear IH H2.
    induction d as [|[k' v'] d IH]; [discriminate|]. cbn [forallb snd] in H1. apply andb_prop in H1 as [H0 H1]. cbn [dict_get] in D.
    destruct (key_eqb k' (OName k)); [|exact (IH H1 D)]. injection D as ->. unfold plainb in H0. destruct o; try (eexists; apply Leads_stop; discriminate).
    destruct (n_getobj _) as [w0|] eqn:G; [|discriminate]. exists w0. eapply Leads_ref; [exact G|]. destruct w0; try discriminate H0; apply Leads_stop; discriminate.
  Qed.
  Definition n_tree : ptree := PNode 2 [(ON "Type", ON "Pages"); (ON "Kids", OArr [ORef 3])]
      [PLeaf 3 [(ON "Type", ON "Page"); (ON "MediaBox", OArr [OInt 0; OInt 0; OInt 99; OInt 99]); (ON "Resources", n_res); (ON "Contents", ORef 5)]].
  Lemma n_has : FileHas n_getobj (stored_data zlib ccitt) n_file n_tree.
  Proof.
    exists [[(ON "Root", ORef 1)]], [(ON "Pages", ORef 2)], []. splits.
    - reflexivity.
    - apply n_objects.
    - eapply Plain_root; [reflexivity|reflexivity| |].
      + eexists. split; [eapply St_ref; [split; [discriminate|reflexivity]|apply St_direct; discriminate]|reflexivity].
      + apply Info_none. reflexivity.
    - reflexivity.
    - exact x_catalog.
    - eapply S_node; [reflexivity|reflexivity|reflexivity|apply Leads_stop; discriminate|]. constructor; [apply S_leaf; reflexivity|constructor].
    - repeat (apply Forall_cons; [split; [discriminate|apply n_attr; reflexivity]|]). apply Forall_nil.
  Qed.
  Ltac pv := unfold Page_Spec.Value; cbn; first [eapply Leads_ref; [reflexivity|]; apply Leads_stop; discriminate | apply Leads_stop; discriminate | reflexivity].
  Example C107_hypotheses : FileNested zlib ccitt (fun _ => None) x_bases x_metrics (fun _ => None) (fun _ _ => None) n_getobj (fun F => F = unit_matrix) (stored_data zlib ccitt) n_file [] 0 false
    [([[65]; [66]], ((qz 99, qz 99), Node [] [Node n_shown []]))].
  Proof.
    exists n_tree. eexists. splits.
    - apply n_has.
    - left. split; reflexivity.
    - discriminate.
    - constructor; [|constructor]. split.
      + exists 2%nat, [OInt 0; OInt 0; OInt 99; OInt 99]. eexists _, (OStream d5 s5). splits; [pv| |pv|pv|exact n_draws].
        split; [reflexivity|repeat constructor; eexists; reflexivity].
      + exists [OInt 0; OInt 0; OInt 99; OInt 99], (qz 0), (qz 0), (qz 99), (qz 99), 0, 0. eexists _, (OStream d5 s5), 2%nat. splits.
        * pv.
        * repeat constructor.
        * apply (f_equal2 pair); qnum.
        * pv.
        * reflexivity.
        * pv.
        * pv.
        * exact n_nested.
  Qed.
End pages.
(* the characters of the forms on the pages of a file *)
Definition n_run (file : list Z) : list (list (list (list shown_char))) * option exn :=
  let ps := pages_of (fun _ => None) (fun _ _ => Err PDFNotImplementedError) (fun x => x) (fun x => x) (fun _ _ _ => Err PDFNotImplementedError) (fun _ => None) x_bases x_metrics
    (fun _ => None) (fun _ _ => None) (env0 file 7 true) true true [] [] 0 false 120 120 in
  (flat_map (fun p => map text_items (form_items (fst (pg_items p)))) (fst ps), match snd ps with Some e => Some e | None => fold_left (fun a p => match a with Some e => Some e | None => snd (pg_items p) end) (fst ps) None end).
Definition n_variant (dict page form : string) : list Z := bs "%PDF-1.4
1 0 obj <</Pages 2 0 R>> endobj
2 0 obj <</Type/Pages/Kids[3 0 R]>> endobj
3 0 obj <</Type/Page/MediaBox[0 0 99 99]/Resources<</XObject<</X 6 0 R>>/Font<</F 4 0 R>>>>/Contents 5 0 R>> endobj
4 0 obj <</Subtype/Type1/BaseFont/Symbol>> endobj
5 0 obj <<>>stream
" ++ bs page ++ bs "
endstream
endobj
6 0 obj <</Subtype/Form/BBox[0 0 9 9]" ++ bs dict ++ bs ">>stream
" ++ bs form ++ bs "
endstream
endobj
trailer <</Root 1 0 R>>
".
(* Refuted: the matrix of a form moves its characters (PDF Reference 1.7, section 4.9).  It does not: with a matrix that moves by 50
   they stand where they stand without it. *)
Theorem C107_matrix_refuted :
  n_run (n_variant "" "/X Do" "BT/F 9 Tf(AB)Tj ET") = n_run (n_variant "/Matrix[1 0 0 1 50 50]" "/X Do" "BT/F 9 Tf(AB)Tj ET") /\
  n_run (n_variant "" "1 0 0 1 50 50 cm/X Do" "BT/F 9 Tf(AB)Tj ET") <> n_run (n_variant "" "/X Do" "BT/F 9 Tf(AB)Tj ET").
Proof. split; [vm_compute; reflexivity|vm_compute; discriminate]. Qed.
(* Refuted: a form starts with the text state of the page at the place where it is drawn (PDF Reference 1.7, sections 4.9 and 5.2).  It starts
   with none: a form that uses the font the page has set ends the interpretation. *)
Theorem C107_inherit_refuted : n_run (n_variant "" "BT/F 9 Tf ET/X Do" "BT(AB)Tj ET") = ([], Some InvalidOperation).
Proof. vm_compute. reflexivity. Qed.
