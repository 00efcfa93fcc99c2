(* C87: a file that meets the hypotheses, runs of the model, and what does not hold. *)
From Coq Require Import String.
From Verif Require Import Base Lex_Model Lex_Spec Lines_Model Lines_Spec Markup_Spec Obj Stack_Model Stack_Spec Stack_Proofs Stack_Props Content_Model Content_Spec Stream_Model Stream_Spec Stream_Props XRef_Model XRef_Spec XRef_Proofs
  Doc_Model Doc_Spec Doc_Proofs Doc_Props Witness Num Geom_Model Page_Model Page_Spec Page_Proofs Page_Props Interp_Model Interp_Spec CMap_Model CMap_Spec CMap_Proofs Font_Model Font_Spec Font_Props
  Sec_Model Open_Model Open_Spec Open_Props Fallback_Model Fallback_Spec Fallback_Proofs Fallback_Props Convert_Model Convert_Spec TextFile_Props
  Names_Props Total_Spec Total_Props Instr_Spec Instr_Props Multi_Spec Multi_Props FontTotal_Spec FontTotal_Props Extract_Model Extract_Spec Extract_Proofs Extract_Props.
From Coq Require Import ZifyBool ZifyNat.
Open Scope Z_scope.
Import ListNotations.

Definition x_desc : list (obj * obj) := [(ON "Ascent", OInt 800); (ON "Descent", OInt (-200)); (ON "FontBBox", OArr [OInt 0; OInt (-250); OInt 1000; OInt 900])].
Definition x_metrics (n : list Z) : option (list (obj * obj) * list (list Z * num)) := if list_eqb n (bs "Symbol") then Some (x_desc, [([65], qz 500); ([66], qz 600)]) else None.
Definition x_bases : list umap := [[(65, [65]); (66, [66])]; []; []; []].
Definition x_run (file : list Z) (pagenos : list Z) (maxpages : Z) : gen Z :=
  extract (fun _ => None) (fun _ _ => Err PDFNotImplementedError) (fun x => x) (fun x => x) (fun _ _ _ => Err PDFNotImplementedError) (fun _ => None) x_bases x_metrics
    (fun _ => None) (fun _ _ => None) (env0 file 7 true) true true [] pagenos maxpages false 120 120.
Definition x_file : list Z := bs "%PDF-1.4
1 0 obj <</Pages 2 0 R>> endobj
2 0 obj <</Type/Pages/Kids[3 0 R 6 0 R]>> endobj
3 0 obj <</Type/Page/MediaBox[0 0 9 9]/Resources<</Font<</F 4 0 R>>>>/Contents 5 0 R>> endobj
4 0 obj <</Subtype/Type1/BaseFont/Symbol>> endobj
5 0 obj <<>>stream
BT/F 9 Tf(AB)Tj ET
endstream
endobj
6 0 obj <</Type/Page/MediaBox[0 0 9 9]/Resources<<>>/Contents 7 0 R>> endobj
7 0 obj <<>>stream
q Q
endstream
endobj
trailer <</Root 1 0 R>>
".
Example C87_run : x_run x_file [] 0 = (bs "========== [ page 0 ] ==========
AB
========== [ page 1 ] ==========

", None) /\ x_run x_file [1] 0 = (bs "========== [ page 0 ] ==========

", None).
Proof. vm_compute. split; reflexivity. Qed.

(* the same document with a cross-reference stream and an object stream *)
Definition x_modern : list Z := bs "%PDF-1.5" ++ [10] ++ bs "8 0 obj <</Type/ObjStm/N 3/First 14/Length 100>>stream" ++ [10] ++ bs "1 0 2 17 4 51 <</Pages 2 0 R>> <</Type/Pages/Kids[3 0 R 6 0 R]>> <</Subtype/Type1/BaseFont/Symbol>> " ++ [10] ++ bs "endstream" ++ [10] ++ bs "endobj" ++ [10] ++ bs "3 0 obj <</Type/Page/MediaBox[0 0 9 9]/Resources<</Font<</F 4 0 R>>>>/Contents 5 0 R>>" ++ [10] ++ bs "endobj" ++ [10] ++ bs "5 0 obj <</Length 18>>stream" ++ [10] ++ bs "BT/F 9 Tf(AB)Tj ET" ++ [10] ++ bs "endstream" ++ [10] ++ bs "endobj" ++ [10] ++ bs "6 0 obj <</Type/Page/MediaBox[0 0 9 9]/Resources<<>>/Contents 7 0 R>>" ++ [10] ++ bs "endobj" ++ [10] ++ bs "7 0 obj <</Length 3>>stream" ++ [10] ++ bs "q Q" ++ [10] ++ bs "endstream" ++ [10] ++ bs "endobj" ++ [10] ++ bs "9 0 obj <</Type/XRef/W[1 2 1]/Size 10/Root 1 0 R/Length 40>>stream" ++ [10; 0; 0; 0; 255; 2; 0; 8; 0; 2; 0; 8; 1; 1; 0; 182; 0; 2; 0; 8; 2; 1; 1; 20; 0; 1; 1] ++ bs "U" ++ [0; 1; 1; 162; 0; 1; 0; 9; 0; 1; 1; 211; 0; 10] ++ bs "endstream" ++ [10] ++ bs "endobj" ++ [10] ++ bs "startxref" ++ [10] ++ bs "467" ++ [10] ++ bs "%%EOF" ++ [10].
Example C87_run_modern : x_run x_modern [] 0 = x_run x_file [] 0.
Proof. vm_compute. reflexivity. Qed.

(* the objects of the file *)
Definition e (l : list (string * obj)) : obj := ODict (entries (map (fun x => (bs (fst x), snd x)) l)).
Definition o1 := e [("Pages"%string, ORef 2)].
Definition o2 := e [("Type"%string, ON "Pages"); ("Kids"%string, OArr [ORef 3; ORef 6])].
Definition box := OArr [OInt 0; OInt 0; OInt 9; OInt 9].
Definition o3 := e [("Type"%string, ON "Page"); ("MediaBox"%string, box); ("Resources"%string, e [("Font"%string, e [("F"%string, ORef 4)])]); ("Contents"%string, ORef 5)].
Definition o4 := e [("Subtype"%string, ON "Type1"); ("BaseFont"%string, ON "Symbol")].
Definition t5 := bs "BT/F 9 Tf(AB)Tj ET" ++ [10].
Definition o6 := e [("Type"%string, ON "Page"); ("MediaBox"%string, box); ("Resources"%string, e []); ("Contents"%string, ORef 7)].
Definition t7 := bs "q Q" ++ [10].
Definition x_hits : list hit :=
  [(1, InUse 9 0, o1); (2, InUse 41 0, o2); (3, InUse 90 0, o3); (4, InUse 184 0, o4); (5, InUse 234 0, OStream [] t5); (6, InUse 289 0, o6); (7, InUse 366 0, OStream [] t7)].
Definition x_get (w : Z -> option obj) (i : Z) : option obj :=
  if i =? 1 then Some o1 else if i =? 2 then Some o2 else if i =? 3 then Some o3 else if i =? 4 then Some o4 else if i =? 5 then Some (OStream [] t5)
  else if i =? 6 then Some o6 else if i =? 7 then Some (OStream [] t7) else w i.
Definition x_getobj : Z -> option obj := x_get (fun _ => None).
Ltac nodup := repeat (constructor; [cbn [In map fst]; intuition discriminate|]); constructor.
Ltac wr := lazymatch goal with
  | |- WrittenE _ _ (_ :: _) _ => eapply WE_cons; [wr|wr]
  | |- WrittenE _ _ [] _ => apply WE_nil
  | |- WrittenL _ _ (_ :: _) _ => eapply WL_cons; [wr|wr]
  | |- WrittenL _ _ [] _ => apply WL_nil
  | |- Written _ _ (e ?l) _ => unfold e; eapply (W_dict _ _ (map (fun x => (bs (fst x), snd x)) l)); [nodup|cbn [map fst snd]; wr]
  | |- Written _ _ (OArr _) _ => eapply W_arr; wr
  | |- Written _ _ (ORef _) _ => eapply (W_ref _ _ _ 0); reflexivity
  | |- Written _ _ ?x _ => first [unfold x; wr | constructor]
  end.
Lemma to_toks a b o t t' : Written a b o t -> t = t' -> Written a b o t'.
Proof. intros H <-. exact H. Qed.
Ltac written := eapply to_toks; [wr|reflexivity].

Section file.
  Variable decode : list (obj * obj) -> list Z -> res (list Z).
  Lemma x_contents : Fallback_Spec.Contents decode 0 x_file x_hits [(ON "Root", ORef 1)].
  Proof.
    change x_file with ((bs "%PDF-1.4" ++ [10]) ++
      bs "1 0 obj <</Pages 2 0 R>> " ++ bs "endobj" ++ (@nil Z ++ [10]) ++
      bs "2 0 obj <</Type/Pages/Kids[3 0 R 6 0 R]>> " ++ bs "endobj" ++ (@nil Z ++ [10]) ++
      bs "3 0 obj <</Type/Page/MediaBox[0 0 9 9]/Resources<</Font<</F 4 0 R>>>>/Contents 5 0 R>> " ++ bs "endobj" ++ (@nil Z ++ [10]) ++
      bs "4 0 obj <</Subtype/Type1/BaseFont/Symbol>> " ++ bs "endobj" ++ (@nil Z ++ [10]) ++
      bs "5 0 obj <<>>" ++ (bs "stream" ++ [10] ++ t5 ++ bs "endstream" ++ [10] ++ bs "endobj") ++ (@nil Z ++ [10]) ++
      bs "6 0 obj <</Type/Page/MediaBox[0 0 9 9]/Resources<<>>/Contents 7 0 R>> " ++ bs "endobj" ++ (@nil Z ++ [10]) ++
      bs "7 0 obj <<>>" ++ (bs "stream" ++ [10] ++ t7 ++ bs "endstream" ++ [10] ++ bs "endobj") ++ (@nil Z ++ [10]) ++
      bs "trailer <</Root 1 0 R>>" ++ [10]).
    assert (HL : forall p l rest h d, l = bs "%PDF-1.4" \/ l = [] -> Fallback_Spec.Contents decode (p + Z.of_nat (length (l ++ [10]))) rest h d -> Fallback_Spec.Contents decode p ((l ++ [10]) ++ rest) h d).
    { intros p l rest h d Hl HC. apply Ct_line; [apply Line_lf|destruct Hl; subst l; discriminate| |exact HC].
      - destruct Hl; subst l; apply no_eol_ok; reflexivity.
      - destruct Hl; subst l; apply boring_ok; reflexivity. }
    unfold x_hits. apply HL; [left; reflexivity|].
    apply (Ct_object _ _ 1 0 o1).
    { exists [(17, KW "<<"); (19, TLit (bs "Pages")); (26, TInt 2); (28, TInt 0); (30, KW "R"); (31, KW ">>")], 9, 11, 13, true, (bs "1 0 obj <</Pages 2 0 R>> endobj" ++ [10]). splits.
      - cbn [app]. int_tok (@nil Z) (bs "1"). int_tok [32] (bs "0"). kw_tok [32] (bs "obj"). dopen_tok [32]. name_tok (@nil Z) (bs "Pages"). int_tok [32] (bs "2"). int_tok [32] (bs "0"). kw_tok [32] (bs "R"). dclose_tok (@nil Z). lay_end.
      - written.
      - eapply first_line_ok; reflexivity.
      - apply announces_ok. reflexivity. }
    { apply boundary_ok. reflexivity. }
    apply HL; [right; reflexivity|].
    apply (Ct_object _ _ 2 0 o2).
    { exists [(49, KW "<<"); (51, TLit (bs "Type")); (56, TLit (bs "Pages")); (62, TLit (bs "Kids")); (67, KW "["); (68, TInt 3); (70, TInt 0); (72, KW "R"); (74, TInt 6); (76, TInt 0); (78, KW "R"); (79, KW "]"); (80, KW ">>")], 41, 43, 45, true, (bs "2 0 obj <</Type/Pages/Kids[3 0 R 6 0 R]>> endobj" ++ [10]). splits.
      - cbn [app]. int_tok (@nil Z) (bs "2"). int_tok [32] (bs "0"). kw_tok [32] (bs "obj"). dopen_tok [32]. name_tok (@nil Z) (bs "Type"). name_tok (@nil Z) (bs "Pages"). name_tok (@nil Z) (bs "Kids"). aopen_tok (@nil Z). int_tok (@nil Z) (bs "3"). int_tok [32] (bs "0"). kw_tok [32] (bs "R"). int_tok [32] (bs "6"). int_tok [32] (bs "0"). kw_tok [32] (bs "R"). aclose_tok (@nil Z). dclose_tok (@nil Z). lay_end.
      - written.
      - eapply first_line_ok; reflexivity.
      - apply announces_ok. reflexivity. }
    { apply boundary_ok. reflexivity. }
    apply HL; [right; reflexivity|].
    apply (Ct_object _ _ 3 0 o3).
    { exists [(98, KW "<<"); (100, TLit (bs "Type")); (105, TLit (bs "Page")); (110, TLit (bs "MediaBox")); (119, KW "["); (120, TInt 0); (122, TInt 0); (124, TInt 9); (126, TInt 9); (127, KW "]"); (128, TLit (bs "Resources")); (138, KW "<<"); (140, TLit (bs "Font")); (145, KW "<<"); (147, TLit (bs "F")); (150, TInt 4); (152, TInt 0); (154, KW "R"); (155, KW ">>"); (157, KW ">>"); (159, TLit (bs "Contents")); (169, TInt 5); (171, TInt 0); (173, KW "R"); (174, KW ">>")], 90, 92, 94, true, (bs "3 0 obj <</Type/Page/MediaBox[0 0 9 9]/Resources<</Font<</F 4 0 R>>>>/Contents 5 0 R>> endobj" ++ [10]). splits.
      - cbn [app]. int_tok (@nil Z) (bs "3"). int_tok [32] (bs "0"). kw_tok [32] (bs "obj"). dopen_tok [32]. name_tok (@nil Z) (bs "Type"). name_tok (@nil Z) (bs "Page"). name_tok (@nil Z) (bs "MediaBox"). aopen_tok (@nil Z). int_tok (@nil Z) (bs "0"). int_tok [32] (bs "0"). int_tok [32] (bs "9"). int_tok [32] (bs "9"). aclose_tok (@nil Z). name_tok (@nil Z) (bs "Resources"). dopen_tok (@nil Z). name_tok (@nil Z) (bs "Font"). dopen_tok (@nil Z). name_tok (@nil Z) (bs "F"). int_tok [32] (bs "4"). int_tok [32] (bs "0"). kw_tok [32] (bs "R"). dclose_tok (@nil Z). dclose_tok (@nil Z). name_tok (@nil Z) (bs "Contents"). int_tok [32] (bs "5"). int_tok [32] (bs "0"). kw_tok [32] (bs "R"). dclose_tok (@nil Z). lay_end.
      - written.
      - eapply first_line_ok; reflexivity.
      - apply announces_ok. reflexivity. }
    { apply boundary_ok. reflexivity. }
    apply HL; [right; reflexivity|].
    apply (Ct_object _ _ 4 0 o4).
    { exists [(192, KW "<<"); (194, TLit (bs "Subtype")); (202, TLit (bs "Type1")); (208, TLit (bs "BaseFont")); (217, TLit (bs "Symbol")); (224, KW ">>")], 184, 186, 188, true, (bs "4 0 obj <</Subtype/Type1/BaseFont/Symbol>> endobj" ++ [10]). splits.
      - cbn [app]. int_tok (@nil Z) (bs "4"). int_tok [32] (bs "0"). kw_tok [32] (bs "obj"). dopen_tok [32]. name_tok (@nil Z) (bs "Subtype"). name_tok (@nil Z) (bs "Type1"). name_tok (@nil Z) (bs "BaseFont"). name_tok (@nil Z) (bs "Symbol"). dclose_tok (@nil Z). lay_end.
      - written.
      - eapply first_line_ok; reflexivity.
      - apply announces_ok. reflexivity. }
    { apply boundary_ok. reflexivity. }
    apply HL; [right; reflexivity|].
    apply (Ct_stream _ _ 5 0 [] t5).
    { exists [(242, KW "<<"); (244, KW ">>")], 234, 236, 238, true, (bs "5 0 obj <<>>stream" ++ [10]). splits.
      - cbn [app]. int_tok (@nil Z) (bs "5"). int_tok [32] (bs "0"). kw_tok [32] (bs "obj"). dopen_tok [32]. dclose_tok (@nil Z). lay_end.
      - apply (W_dict true true [] []); constructor.
      - eapply first_line_ok; reflexivity.
      - apply announces_ok. reflexivity. }
    { exists [10], [10]. splits; [reflexivity|left; reflexivity|apply sep_ok; reflexivity|discriminate|apply first_ok; reflexivity|].
      eapply (finished []). reflexivity. }
    { apply boundary_ok. reflexivity. }
    { discriminate. }
    apply HL; [right; reflexivity|].
    apply (Ct_object _ _ 6 0 o6).
    { exists [(297, KW "<<"); (299, TLit (bs "Type")); (304, TLit (bs "Page")); (309, TLit (bs "MediaBox")); (318, KW "["); (319, TInt 0); (321, TInt 0); (323, TInt 9); (325, TInt 9); (326, KW "]"); (327, TLit (bs "Resources")); (337, KW "<<"); (339, KW ">>"); (341, TLit (bs "Contents")); (351, TInt 7); (353, TInt 0); (355, KW "R"); (356, KW ">>")], 289, 291, 293, true, (bs "6 0 obj <</Type/Page/MediaBox[0 0 9 9]/Resources<<>>/Contents 7 0 R>> endobj" ++ [10]). splits.
      - cbn [app]. int_tok (@nil Z) (bs "6"). int_tok [32] (bs "0"). kw_tok [32] (bs "obj"). dopen_tok [32]. name_tok (@nil Z) (bs "Type"). name_tok (@nil Z) (bs "Page"). name_tok (@nil Z) (bs "MediaBox"). aopen_tok (@nil Z). int_tok (@nil Z) (bs "0"). int_tok [32] (bs "0"). int_tok [32] (bs "9"). int_tok [32] (bs "9"). aclose_tok (@nil Z). name_tok (@nil Z) (bs "Resources"). dopen_tok (@nil Z). dclose_tok (@nil Z). name_tok (@nil Z) (bs "Contents"). int_tok [32] (bs "7"). int_tok [32] (bs "0"). kw_tok [32] (bs "R"). dclose_tok (@nil Z). lay_end.
      - written.
      - eapply first_line_ok; reflexivity.
      - apply announces_ok. reflexivity. }
    { apply boundary_ok. reflexivity. }
    apply HL; [right; reflexivity|].
    apply (Ct_stream _ _ 7 0 [] t7).
    { exists [(374, KW "<<"); (376, KW ">>")], 366, 368, 370, true, (bs "7 0 obj <<>>stream" ++ [10]). splits.
      - cbn [app]. int_tok (@nil Z) (bs "7"). int_tok [32] (bs "0"). kw_tok [32] (bs "obj"). dopen_tok [32]. dclose_tok (@nil Z). lay_end.
      - apply (W_dict true true [] []); constructor.
      - eapply first_line_ok; reflexivity.
      - apply announces_ok. reflexivity. }
    { exists [10], [10]. splits; [reflexivity|left; reflexivity|apply sep_ok; reflexivity|discriminate|apply first_ok; reflexivity|].
      eapply (finished []). reflexivity. }
    { apply boundary_ok. reflexivity. }
    { discriminate. }
    apply HL; [right; reflexivity|].
    apply Ct_trailer. eexists [(_, KW "<<"); (_, TLit (bs "Root")); (_, TInt 1); (_, TInt 0); (_, KW "R"); (_, KW ">>")], _, (bs "trailer <</Root 1 0 R>>" ++ [10]). splits.
    - eapply (first_line_ok _ []); reflexivity.
    - exists (bs " <</Root 1 0 R>>" ++ [10]). reflexivity.
    - apply (W_dict true true [(bs "Root", ORef 1)] [TLit (bs "Root"); TInt 1; TInt 0; KW "R"]); [repeat constructor; cbn; tauto|].
      apply (WE_cons true true (bs "Root") (ORef 1) [] [TInt 1; TInt 0; KW "R"] []); repeat constructor.
    - right. exists true. kw_tok (@nil Z) (bs "trailer"). dopen_tok [32]. name_tok (@nil Z) (bs "Root"). int_tok [32] (bs "1"). int_tok [32] (bs "0").
      kw_tok [32] (bs "R"). dclose_tok (@nil Z). lay_end.
  Qed.
  Lemma x_objects : HasObjects decode x_file x_getobj [[(ON "Root", ORef 1)]].
  Proof.
    apply (HO_found _ _ _ x_hits); [|exact x_contents|].
    - intros a b H. assert (E : forallb (fun i => negb (prefixb (bs "startxref") (skipn i x_file))) (seq 0 (length x_file)) = true) by (vm_compute; reflexivity).
      rewrite forallb_forall in E. specialize (E (length a)). cbv beta in E.
      replace (skipn (length a) x_file) with (bs "startxref" ++ b) in E by (rewrite H, skipn_app, skipn_all, Nat.sub_diag; reflexivity).
      rewrite prefixb_app in E. discriminate E. apply in_seq. rewrite H, !app_length. cbn [length bs]. lia.
    - intros id H0. unfold x_getobj, x_get.
      assert (R : forall a h c, x_hits = a ++ h :: c -> forallb (fun x => negb (fst (fst x) =? fst (fst h))) c = true ->
        (exists off gen, snd (fst h) = InUse off gen) -> Recovered decode x_hits (fst (fst h)) (snd h)).
      { intros a [[i en] o] c E F (off & gen & Eh). cbn [fst snd] in *. subst en. apply Rc_direct with off gen. exists a, c. split; [exact E|].
        apply Forall_forall. intros x Hx. rewrite forallb_forall in F. specialize (F x Hx). lia. }
      repeat match goal with |- context [id =? ?k] => destruct (Z.eqb_spec id k) as [->|] end.
      + refine (R [] (_, _, _) _ _ _ _); [reflexivity|reflexivity|repeat eexists].
      + refine (R [_] (_, _, _) _ _ _ _); [reflexivity|reflexivity|repeat eexists].
      + refine (R [_; _] (_, _, _) _ _ _ _); [reflexivity|reflexivity|repeat eexists].
      + refine (R [_; _; _] (_, _, _) _ _ _ _); [reflexivity|reflexivity|repeat eexists].
      + refine (R [_; _; _; _] (_, _, _) _ _ _ _); [reflexivity|reflexivity|repeat eexists].
      + refine (R [_; _; _; _; _] (_, _, _) _ _ _ _); [reflexivity|reflexivity|repeat eexists].
      + refine (R [_; _; _; _; _; _] (_, _, _) _ _ _ _); [reflexivity|reflexivity|repeat eexists].
      + unfold NoHit, x_hits. repeat (apply Forall_cons; [cbn [fst]; congruence|]). apply Forall_nil.
  Qed.
End file.

Definition x_font : font := mkFont (fun s => Ok s) (fun c => iget [(65, [65]); (66, [66])] c) (fun _ => qz 0) (fun _ => (None, qz 0)) false false (qz 0) (qz 0) (qz 0).
Ltac leads := first [eapply Leads_ref; [reflexivity|]; apply Leads_stop; discriminate | apply Leads_stop; discriminate].
Ltac pval := unfold Page_Spec.Value; cbn; leads.
Section pages.
  Variable w : Z -> option obj.     (* other objects *)
  Variables (zlib : list Z -> option (list Z)) (ccitt : list Z -> obj -> res (list Z)).
  Lemma x_font_at : FontAt (x_get w) (fun _ => None) x_bases x_metrics (fun _ => None) (fun _ _ => None) (Data zlib ccitt) (ORef 4) x_font.
  Proof.
    eexists _, one_byte, _. splits.
    - eapply Leads_ref; [reflexivity|]. apply Leads_stop; discriminate.
    - eapply FR_standard with (n := bs "Symbol") (d := x_desc) (cw := [([65], qz 500); ([66], qz 600)]).
      + right. exists (bs "Type1"). split; [reflexivity|]. intros H. cbn [map In] in H. destruct H as [H|[H|[H|[H|[]]]]]; discriminate H.
      + left. reflexivity.
      + reflexivity.
      + repeat constructor; intros o H; try discriminate H; injection H as <-; eexists; apply Leads_stop; discriminate.
      + apply UO_none. reflexivity.
      + apply CO_entry; [right; reflexivity|]. apply EN_name, V_absent. reflexivity.
    - intros s cids H. injection H as <-. reflexivity.
    - intros c. reflexivity.
  Qed.
  Lemma x_tokens1 : Tokens zlib ccitt (x_get w) [OStream [] t5] [OK "BT"; ON "F"; OInt 9; OK "Tf"; OStr (bs "AB"); OK "Tj"; OK "ET"].
  Proof.
    exists [t5]. splits; [discriminate| |apply (page_of_streams [t5] [[KW "BT"; TLit (bs "F"); TInt 9; KW "Tf"; TStr (bs "AB"); KW "Tj"; KW "ET"]])].
    - constructor; [|constructor]. eexists. split; [apply Leads_stop; discriminate|].
      eexists _, _, []. splits; [reflexivity|apply D_none; reflexivity|constructor].
    - constructor; [|constructor]. eexists. split; [unfold t5; cbn [bs app]|].
      { kw_tok (@nil Z) (bs "BT"). name_tok (@nil Z) (bs "F"). int_tok [32] (bs "9"). kw_tok [32] (bs "Tf"). str_tok (@nil Z) (bs "AB"). kw_tok (@nil Z) (bs "Tj"). kw_tok [32] (bs "ET"). lay_end. }
      reflexivity.
    - cbn [concat app]. instr_op. apply (In_operand (ON "F") [TLit (bs "F")]); [constructor|]. apply (In_operand (OInt 9) [TInt 9]); [constructor|]. instr_op.
      apply (In_operand (OStr (bs "AB")) [TStr (bs "AB")]); [constructor|]. instr_op. instr_op. instr_op.
  Qed.
  Lemma x_draws1 : Draws zlib ccitt (fun _ => None) x_bases x_metrics (fun _ => None) (fun _ _ => None) (x_get w) 1 false (e [("Font"%string, e [("F"%string, ORef 4)])]) [OStream [] t5] [[65]; [66]].
  Proof.
    cbn [Extract_Spec.Draws Total_Spec.Draws]. eexists _, [(ON "F", ORef 4)], [], [], [OK "BT"; ON "F"; OInt 9; OK "Tf"; OStr (bs "AB"); OK "Tj"; OK "ET"]. split; [splits|split].
    - apply Leads_stop; discriminate.
    - apply w_named; [reflexivity|repeat (apply Forall_cons; [eexists; reflexivity|]); apply Forall_nil].
    - right. eexists. split; [reflexivity|apply Leads_stop; discriminate].
    - apply w_named; [reflexivity|repeat (apply Forall_cons; [eexists; reflexivity|]); apply Forall_nil].
    - left. split; reflexivity.
    - apply w_named; [reflexivity|apply Forall_nil].
    - left. split; reflexivity.
    - apply w_named; [reflexivity|apply Forall_nil].
    - intros o [=].
    - constructor; [exists x_font; exact x_font_at|constructor].
    - constructor.
    - apply x_tokens1.
    - apply sh_BT. apply (sh_Tf _ _ _ _ _ _ _ (bs "F") (OInt 9) x_font); [exists (ORef 4); split; [reflexivity|exact x_font_at]|left; eexists; reflexivity|].
      change [[65]; [66]] with ([[65]; [66]] ++ []). apply sh_Tj; [|apply sh_ET; constructor]. split; [|split; [discriminate|]].
      + apply (sd_str x_font (bs "AB") (bs "AB") [] []); [reflexivity|constructor].
      + right. repeat constructor. intros b cids H F. injection H as <-. injection F as <-. repeat constructor; discriminate.
  Qed.
  Lemma x_tokens2 : Tokens zlib ccitt (x_get w) [OStream [] t7] [OK "q"; OK "Q"].
  Proof.
    exists [t7]. splits; [discriminate| |apply (page_of_streams [t7] [[KW "q"; KW "Q"]])].
    - constructor; [|constructor]. eexists. split; [apply Leads_stop; discriminate|].
      eexists _, _, []. splits; [reflexivity|apply D_none; reflexivity|constructor].
    - constructor; [|constructor]. eexists. split; [unfold t7; cbn [bs app]; kw_tok (@nil Z) (bs "q"); kw_tok [32] (bs "Q"); lay_end|reflexivity].
    - cbn [concat app]. instr_op. instr_op. instr_op.
  Qed.
  Lemma x_draws2 : Draws zlib ccitt (fun _ => None) x_bases x_metrics (fun _ => None) (fun _ _ => None) (x_get w) 1 false (e []) [OStream [] t7] [].
  Proof.
    cbn [Extract_Spec.Draws Total_Spec.Draws]. eexists _, [], [], [], [OK "q"; OK "Q"]. split; [splits|split].
    - apply Leads_stop; discriminate.
    - apply w_named; [reflexivity|apply Forall_nil].
    - left. split; reflexivity.
    - apply w_named; [reflexivity|apply Forall_nil].
    - left. split; reflexivity.
    - apply w_named; [reflexivity|apply Forall_nil].
    - left. split; reflexivity.
    - apply w_named; [reflexivity|apply Forall_nil].
    - intros o [=].
    - constructor.
    - constructor.
    - apply x_tokens2.
    - apply sh_q. apply sh_Q. constructor.
  Qed.
  Definition plainb (o : obj) : bool := match o with ORef i => match (x_get w) i with Some (ORef _) | None => false | _ => true end | _ => true end.
  Lemma x_attr path : forallb (forallb (fun kv => plainb (snd kv))) path = true -> forall k o, attr path k = Some o -> exists v, Leads (x_get w) ONull o v.
  Proof.
    intros H k. induction path as [|d path IH]; [discriminate|]. cbn [forallb] in H. apply andb_prop in H as [H1 H2]. specialize (IH H2). cbn [attr].
    intros o E. destruct (dict_get d (OName k)) as [v|] eqn:D; [|destruct (Inheritable k); [exact (IH o E)|discriminate]]. injection E as ->. clear IH H2.
    induction d as [|[k' v'] d IH]; [discriminate|]. cbn [forallb snd] in H1. apply andb_prop in H1 as [H0 H1]. cbn [dict_get] in D.
    destruct (key_eqb k' (OName k)); [|exact (IH H1 D)]. injection D as ->. unfold plainb in H0. destruct o; try (eexists; apply Leads_stop; discriminate).
    destruct ((x_get w) _) as [w0|] eqn:G; [|discriminate]. exists w0. eapply Leads_ref; [exact G|]. destruct w0; try discriminate H0; apply Leads_stop; discriminate.
  Qed.
  Definition x_tree : ptree := PNode 2 [(ON "Type", ON "Pages"); (ON "Kids", OArr [ORef 3; ORef 6])]
      [PLeaf 3 [(ON "Type", ON "Page"); (ON "MediaBox", box); (ON "Resources", e [("Font"%string, e [("F"%string, ORef 4)])]); (ON "Contents", ORef 5)];
       PLeaf 6 [(ON "Type", ON "Page"); (ON "MediaBox", box); (ON "Resources", e []); (ON "Contents", ORef 7)]].
  Lemma x_stored : Stored (x_get w) x_tree /\
    Forall (fun lp => attr (snd lp) (bs "MediaBox") <> None /\ (forall k o, attr (snd lp) k = Some o -> exists v, Leads (x_get w) ONull o v)) (leaves [] x_tree).
  Proof.
    split.
    - eapply S_node; [reflexivity|reflexivity|reflexivity|apply Leads_stop; discriminate|]. constructor; [apply S_leaf; reflexivity|]. constructor; [apply S_leaf; reflexivity|constructor].
    - repeat (apply Forall_cons; [split; [discriminate|apply x_attr; reflexivity]|]). apply Forall_nil.
  Qed.
  Lemma x_catalog k : Inheritable k = true -> dict_get [(ON "Pages", ORef 2)] (OName k) = None.
  Proof.
    intros Hk. unfold Inheritable in Hk. cbn [existsb] in Hk. cbn [dict_get]. destruct (key_eqb (ON "Pages") (OName k)) eqn:E; [|reflexivity].
    cbn [key_eqb ON] in E. apply list_eqb_eq in E. subst k. discriminate Hk.
  Qed.
  Lemma x_shows : Forall2 (fun lp ts => PageShows zlib ccitt (fun _ => None) x_bases x_metrics (fun _ => None) (fun _ _ => None) (x_get w) false (snd lp) ts) (leaves [] x_tree) [[[65]; [66]]; []].
  Proof.
    constructor; [|constructor; [|constructor]].
    + exists 1%nat, [OInt 0; OInt 0; OInt 9; OInt 9]. eexists _, (OStream [] t5). splits; [unfold Page_Spec.Value; cbn; apply Leads_stop; discriminate| | | |].
      * split; [reflexivity|repeat constructor; eexists; reflexivity].
      * unfold Page_Spec.Value. cbn. apply Leads_stop; discriminate.
      * unfold Page_Spec.Value. cbn. eapply Leads_ref; [reflexivity|apply Leads_stop; discriminate].
      * exact x_draws1.
    + exists 1%nat, [OInt 0; OInt 0; OInt 9; OInt 9]. eexists _, (OStream [] t7). splits; [unfold Page_Spec.Value; cbn; apply Leads_stop; discriminate| | | |].
      * split; [reflexivity|repeat constructor; eexists; reflexivity].
      * unfold Page_Spec.Value. cbn. apply Leads_stop; discriminate.
      * unfold Page_Spec.Value. cbn. eapply Leads_ref; [reflexivity|apply Leads_stop; discriminate].
      * exact x_draws2.
  Qed.
End pages.
Section c87.
  Variables (zlib : list Z -> option (list Z)) (ccitt : list Z -> obj -> res (list Z)).
  Lemma x_has : FileHas x_getobj (stored_data zlib ccitt) x_file x_tree.
  Proof.
    exists [[(ON "Root", ORef 1)]], [(ON "Pages", ORef 2)], []. splits.
    - reflexivity.
    - apply x_objects.
    - eapply Plain_root; [reflexivity|reflexivity| |].
      + eexists. split; [eapply St_ref; [split; [discriminate|reflexivity]|apply St_direct; discriminate]|reflexivity].
      + apply Info_none. reflexivity.
    - reflexivity.
    - exact x_catalog.
    - apply x_stored.
    - apply x_stored.
  Qed.
  Example C87_hypotheses : FileShows zlib ccitt (fun _ => None) x_bases x_metrics (fun _ => None) (fun _ _ => None) x_getobj (stored_data zlib ccitt) x_file [] 0 false [[[65]; [66]]; []] /\
    leaves [] x_tree <> [] /\ Chosen [5] 0 (leaves [] x_tree) [].
  Proof.
    split; [|split; [discriminate|left; split; reflexivity]].
    exists x_tree. eexists. splits.
    - exact x_has.
    - left. split; [reflexivity|]. reflexivity.
    - discriminate.
    - apply x_shows.
  Qed.
End c87.

(* Refuted: every document of pages with a valid tree can be converted.  A page without contents (a blank page; Contents is
   optional, ISO 32000-1, 7.7.3.3) ends the conversion with PSEOF: the parser of its contents raises it when it is made. *)
Definition x_blank : list Z := bs "%PDF-1.4
1 0 obj <</Pages 2 0 R>> endobj
2 0 obj <</Type/Pages/Kids[3 0 R 4 0 R]>> endobj
3 0 obj <</Type/Page/MediaBox[0 0 9 9]/Resources<<>>>> endobj
4 0 obj <</Type/Page/MediaBox[0 0 9 9]/Resources<<>>/Contents 5 0 R>> endobj
5 0 obj <<>>stream
q Q
endstream
endobj
trailer <</Root 1 0 R>>
".
Theorem C87_blank_page_refuted : x_run x_blank [] 0 = (bs "========== [ page 0 ] ==========
", Some PSEOF) /\ x_run x_blank [1] 0 = (bs "========== [ page 0 ] ==========

", None).
Proof. vm_compute. split; reflexivity. Qed.
