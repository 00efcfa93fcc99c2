(* C93: an encrypted file that does not allow its text to be extracted. *)
From Coq Require Import String.
From Verif Require Import Base Lex_Model Lex_Spec Lines_Model Lines_Spec Markup_Spec Obj Stack_Model Stack_Spec Stack_Proofs Stack_Props Content_Model Content_Spec Stream_Model Stream_Spec Stream_Props XRef_Model XRef_Spec XRef_Proofs
  Doc_Model Doc_Spec Doc_Proofs Doc_Props Witness Num Geom_Model Page_Model Page_Spec Page_Proofs Page_Props Interp_Model Interp_Spec CMap_Model CMap_Spec CMap_Proofs Font_Model Font_Spec Font_Props
  RC4 Sec_Model Sec_Spec Sec_Props Open_Model Open_Spec Open_Props Fallback_Model Fallback_Spec Fallback_Proofs Fallback_Props Sections_Spec Sections_Props Convert_Model Convert_Spec TextFile_Props
  Names_Props Total_Spec Total_Props Instr_Spec Instr_Props Multi_Spec Multi_Props FontTotal_Spec FontTotal_Props Extract_Model Extract_Spec Extract_Proofs Extract_Props Extract_Cases
  ExtractEnc_Spec ExtractEnc_Props ExtractEnc_Cases.
From Coq Require Import ZifyBool ZifyNat.
Open Scope Z_scope.
Import ListNotations.

Definition keyd : list Z := document_key md5_0 3 16 O5 (-60) id5 false user5.
Definition Ud : list Z := U_entry md5_0 3 id5 keyd ++ repeat 0 16.
Definition paramd : list (obj * obj) := [(ON "Filter", ON "Standard"); (ON "V", OInt 2); (ON "R", OInt 3); (ON "Length", OInt 128); (ON "P", OInt (-60));
  (ON "O", OStr O5); (ON "U", OStr Ud)].

Definition c5 : list Z := [103; 20; 111; 238; 25; 46; 46; 143; 255; 77; 116; 139; 163; 39; 161; 22; 230; 104; 77].
Definition c7 : list Z := [42; 147; 12; 254].
Definition c8 : list Z := [32; 88].
Definition o8 := e [("Title"%string, OStr (bs "Hi"))].
Definition s8 := e [("Title"%string, OStr c8)].
Definition lO : list Z := [167; 147; 50; 37; 198; 12; 82; 54; 128; 18; 31; 141; 59; 54; 181; 241; 120; 65; 74; 86; 22; 162; 17; 43; 136; 136; 40; 60; 187; 82; 136; 168].
Definition lU : list Z := [131; 187; 98; 139; 237; 123; 247; 241; 235; 233; 238; 43; 115; 57; 178; 42; 0; 0; 0; 0; 0; 0; 0; 0; 0; 0; 0; 0; 0; 0; 0; 0].
Definition lid : list Z := [115; 111; 109; 101; 45; 105; 100; 45; 49; 54; 45; 98; 121; 116; 101; 115].
Definition s9 := e [("Filter"%string, ON "Standard"); ("V"%string, OInt 2); ("R"%string, OInt 3); ("Length"%string, OInt 128); ("P"%string, OInt (-60)); ("O"%string, OStr lO); ("U"%string, OStr lU)].
Definition lkey : list Z := [240; 252; 8; 35; 47; 74; 86; 113; 125; 137; 164; 176; 203; 215; 227; 254].
Lemma keyd_lit : keyd = lkey.  Proof. unfold keyd. rewrite ExtractEnc_Cases.O5_lit. vm_compute. reflexivity. Qed.
Lemma Ud_lit : Ud = lU.  Proof. unfold Ud. rewrite keyd_lit. vm_compute. reflexivity. Qed.
Lemma sealed5 : c5 = rc4 (object_key md5_0 keyd 5 0 []) t5.  Proof. rewrite keyd_lit. vm_compute. reflexivity. Qed.
Lemma sealed7 : c7 = rc4 (object_key md5_0 keyd 7 0 []) t7.  Proof. rewrite keyd_lit. vm_compute. reflexivity. Qed.
Lemma sealed8 : c8 = rc4 (object_key md5_0 keyd 8 0 []) (bs "Hi").  Proof. rewrite keyd_lit. vm_compute. reflexivity. Qed.
Lemma sealed9 : s9 = ODict paramd.  Proof. unfold paramd. rewrite ExtractEnc_Cases.O5_lit, Ud_lit. reflexivity. Qed.
Lemma lid_ok : lid = id5.  Proof. reflexivity. Qed.
Definition s_file : list Z := (bs "%PDF-1.4" ++ [10]) ++
  bs "1 0 obj <</Pages 2 0 R>> " ++ bs "endobj" ++ (@nil Z ++ [10]) ++
  bs "2 0 obj <</Type/Pages/Kids[3 0 R 6 0 R]>> " ++ bs "endobj" ++ (@nil Z ++ [10]) ++
  bs "3 0 obj <</Type/Page/MediaBox[0 0 9 9]/Resources<</Font<</F 4 0 R>>>>/Contents 5 0 R>> " ++ bs "endobj" ++ (@nil Z ++ [10]) ++
  bs "4 0 obj <</Subtype/Type1/BaseFont/Symbol>> " ++ bs "endobj" ++ (@nil Z ++ [10]) ++
  bs "5 0 obj <<>>" ++ (bs "stream" ++ [10] ++ c5 ++ bs "endstream" ++ [10] ++ bs "endobj") ++ (@nil Z ++ [10]) ++
  bs "6 0 obj <</Type/Page/MediaBox[0 0 9 9]/Resources<<>>/Contents 7 0 R>> " ++ bs "endobj" ++ (@nil Z ++ [10]) ++
  bs "7 0 obj <<>>" ++ (bs "stream" ++ [10] ++ c7 ++ bs "endstream" ++ [10] ++ bs "endobj") ++ (@nil Z ++ [10]) ++
  bs "8 0 obj <</Title<2058> >> " ++ bs "endobj" ++ (@nil Z ++ [10]) ++
  bs "9 0 obj <</Filter/Standard/V 2/R 3/Length 128/P -60/O<a7933225c60c523680121f8d3b36b5f178414a5616a2112b8888283cbb5288a8> /U<83bb628bed7bf7f1ebe9ee2b7339b22a00000000000000000000000000000000> >> " ++ bs "endobj" ++ (@nil Z ++ [10]) ++
  bs "trailer <</Root 1 0 R/Info 8 0 R/Encrypt 9 0 R/ID[<736f6d652d69642d31362d6279746573>]>>" ++ [10].
Definition s_hits : list hit :=
  [(1, InUse 9 0, o1); (2, InUse 41 0, o2); (3, InUse 90 0, o3); (4, InUse 184 0, o4); (5, InUse 234 0, OStream [] c5); (6, InUse 289 0, o6); (7, InUse 366 0, OStream [] c7); (8, InUse 406 0, s8); (9, InUse 439 0, s9)].
Definition s_trailer : list (obj * obj) := [(ON "Root", ORef 1); (ON "Info", ORef 8); (ON "Encrypt", ORef 9); (ON "ID", OArr [OStr lid])].
Section file.
  Variable decode : list (obj * obj) -> list Z -> res (list Z).
  Lemma s_contents : Fallback_Spec.Contents decode 0 s_file s_hits s_trailer.
  Proof.
    unfold s_file.
    assert (HL : forall p l rest h d, l = bs "%PDF-1.4" \/ l = [] -> Fallback_Spec.Contents decode (p + Z.of_nat (length (l ++ [10]))) rest h d -> Fallback_Spec.Contents decode p ((l ++ [10]) ++ rest) h d).
    { intros p l rest h d Hl HC. apply Ct_line; [apply Line_lf|destruct Hl; subst l; discriminate| |exact HC].
      - destruct Hl; subst l; apply no_eol_ok; reflexivity.
      - destruct Hl; subst l; apply boring_ok; reflexivity. }
    unfold s_hits. apply HL; [left; reflexivity|].
    apply (Ct_object _ _ 1 0 o1).
    { exists [(17, KW "<<"); (19, TLit (bs "Pages")); (26, TInt 2); (28, TInt 0); (30, KW "R"); (31, KW ">>")], 9, 11, 13, true, (bs "1 0 obj <</Pages 2 0 R>> endobj" ++ [10]). splits.
      - cbn [app]. int_tok (@nil Z) (bs "1"). int_tok [32] (bs "0"). kw_tok [32] (bs "obj"). dopen_tok [32]. name_tok (@nil Z) (bs "Pages"). int_tok [32] (bs "2"). int_tok [32] (bs "0"). kw_tok [32] (bs "R"). dclose_tok (@nil Z). lay_end.
      - written.
      - apply first_line_vm; vm_compute; reflexivity.
      - apply announces_ok. reflexivity. }
    { apply boundary_ok. reflexivity. }
    apply HL; [right; reflexivity|].
    apply (Ct_object _ _ 2 0 o2).
    { exists [(49, KW "<<"); (51, TLit (bs "Type")); (56, TLit (bs "Pages")); (62, TLit (bs "Kids")); (67, KW "["); (68, TInt 3); (70, TInt 0); (72, KW "R"); (74, TInt 6); (76, TInt 0); (78, KW "R"); (79, KW "]"); (80, KW ">>")], 41, 43, 45, true, (bs "2 0 obj <</Type/Pages/Kids[3 0 R 6 0 R]>> endobj" ++ [10]). splits.
      - cbn [app]. int_tok (@nil Z) (bs "2"). int_tok [32] (bs "0"). kw_tok [32] (bs "obj"). dopen_tok [32]. name_tok (@nil Z) (bs "Type"). name_tok (@nil Z) (bs "Pages"). name_tok (@nil Z) (bs "Kids"). aopen_tok (@nil Z). int_tok (@nil Z) (bs "3"). int_tok [32] (bs "0"). kw_tok [32] (bs "R"). int_tok [32] (bs "6"). int_tok [32] (bs "0"). kw_tok [32] (bs "R"). aclose_tok (@nil Z). dclose_tok (@nil Z). lay_end.
      - written.
      - apply first_line_vm; vm_compute; reflexivity.
      - apply announces_ok. reflexivity. }
    { apply boundary_ok. reflexivity. }
    apply HL; [right; reflexivity|].
    apply (Ct_object _ _ 3 0 o3).
    { exists [(98, KW "<<"); (100, TLit (bs "Type")); (105, TLit (bs "Page")); (110, TLit (bs "MediaBox")); (119, KW "["); (120, TInt 0); (122, TInt 0); (124, TInt 9); (126, TInt 9); (127, KW "]"); (128, TLit (bs "Resources")); (138, KW "<<"); (140, TLit (bs "Font")); (145, KW "<<"); (147, TLit (bs "F")); (150, TInt 4); (152, TInt 0); (154, KW "R"); (155, KW ">>"); (157, KW ">>"); (159, TLit (bs "Contents")); (169, TInt 5); (171, TInt 0); (173, KW "R"); (174, KW ">>")], 90, 92, 94, true, (bs "3 0 obj <</Type/Page/MediaBox[0 0 9 9]/Resources<</Font<</F 4 0 R>>>>/Contents 5 0 R>> endobj" ++ [10]). splits.
      - cbn [app]. int_tok (@nil Z) (bs "3"). int_tok [32] (bs "0"). kw_tok [32] (bs "obj"). dopen_tok [32]. name_tok (@nil Z) (bs "Type"). name_tok (@nil Z) (bs "Page"). name_tok (@nil Z) (bs "MediaBox"). aopen_tok (@nil Z). int_tok (@nil Z) (bs "0"). int_tok [32] (bs "0"). int_tok [32] (bs "9"). int_tok [32] (bs "9"). aclose_tok (@nil Z). name_tok (@nil Z) (bs "Resources"). dopen_tok (@nil Z). name_tok (@nil Z) (bs "Font"). dopen_tok (@nil Z). name_tok (@nil Z) (bs "F"). int_tok [32] (bs "4"). int_tok [32] (bs "0"). kw_tok [32] (bs "R"). dclose_tok (@nil Z). dclose_tok (@nil Z). name_tok (@nil Z) (bs "Contents"). int_tok [32] (bs "5"). int_tok [32] (bs "0"). kw_tok [32] (bs "R"). dclose_tok (@nil Z). lay_end.
      - written.
      - apply first_line_vm; vm_compute; reflexivity.
      - apply announces_ok. reflexivity. }
    { apply boundary_ok. reflexivity. }
    apply HL; [right; reflexivity|].
    apply (Ct_object _ _ 4 0 o4).
    { exists [(192, KW "<<"); (194, TLit (bs "Subtype")); (202, TLit (bs "Type1")); (208, TLit (bs "BaseFont")); (217, TLit (bs "Symbol")); (224, KW ">>")], 184, 186, 188, true, (bs "4 0 obj <</Subtype/Type1/BaseFont/Symbol>> endobj" ++ [10]). splits.
      - cbn [app]. int_tok (@nil Z) (bs "4"). int_tok [32] (bs "0"). kw_tok [32] (bs "obj"). dopen_tok [32]. name_tok (@nil Z) (bs "Subtype"). name_tok (@nil Z) (bs "Type1"). name_tok (@nil Z) (bs "BaseFont"). name_tok (@nil Z) (bs "Symbol"). dclose_tok (@nil Z). lay_end.
      - written.
      - apply first_line_vm; vm_compute; reflexivity.
      - apply announces_ok. reflexivity. }
    { apply boundary_ok. reflexivity. }
    apply HL; [right; reflexivity|].
    apply (Ct_stream _ _ 5 0 [] c5).
    { exists [(242, KW "<<"); (244, KW ">>")], 234, 236, 238, true, (bs "5 0 obj <<>>stream" ++ [10]). splits.
      - cbn [app]. int_tok (@nil Z) (bs "5"). int_tok [32] (bs "0"). kw_tok [32] (bs "obj"). dopen_tok [32]. dclose_tok (@nil Z). lay_end.
      - apply (W_dict true true [] []); constructor.
      - apply first_line_vm; vm_compute; reflexivity.
      - apply announces_ok. reflexivity. }
    { exists [10], [10]. splits; [reflexivity|left; reflexivity|apply sep_ok; reflexivity|discriminate|apply first_ok; reflexivity|].
      eapply (finished []). reflexivity. }
    { apply boundary_ok. reflexivity. }
    { discriminate. }
    apply HL; [right; reflexivity|].
    apply (Ct_object _ _ 6 0 o6).
    { exists [(297, KW "<<"); (299, TLit (bs "Type")); (304, TLit (bs "Page")); (309, TLit (bs "MediaBox")); (318, KW "["); (319, TInt 0); (321, TInt 0); (323, TInt 9); (325, TInt 9); (326, KW "]"); (327, TLit (bs "Resources")); (337, KW "<<"); (339, KW ">>"); (341, TLit (bs "Contents")); (351, TInt 7); (353, TInt 0); (355, KW "R"); (356, KW ">>")], 289, 291, 293, true, (bs "6 0 obj <</Type/Page/MediaBox[0 0 9 9]/Resources<<>>/Contents 7 0 R>> endobj" ++ [10]). splits.
      - cbn [app]. int_tok (@nil Z) (bs "6"). int_tok [32] (bs "0"). kw_tok [32] (bs "obj"). dopen_tok [32]. name_tok (@nil Z) (bs "Type"). name_tok (@nil Z) (bs "Page"). name_tok (@nil Z) (bs "MediaBox"). aopen_tok (@nil Z). int_tok (@nil Z) (bs "0"). int_tok [32] (bs "0"). int_tok [32] (bs "9"). int_tok [32] (bs "9"). aclose_tok (@nil Z). name_tok (@nil Z) (bs "Resources"). dopen_tok (@nil Z). dclose_tok (@nil Z). name_tok (@nil Z) (bs "Contents"). int_tok [32] (bs "7"). int_tok [32] (bs "0"). kw_tok [32] (bs "R"). dclose_tok (@nil Z). lay_end.
      - written.
      - apply first_line_vm; vm_compute; reflexivity.
      - apply announces_ok. reflexivity. }
    { apply boundary_ok. reflexivity. }
    apply HL; [right; reflexivity|].
    apply (Ct_stream _ _ 7 0 [] c7).
    { exists [(374, KW "<<"); (376, KW ">>")], 366, 368, 370, true, (bs "7 0 obj <<>>stream" ++ [10]). splits.
      - cbn [app]. int_tok (@nil Z) (bs "7"). int_tok [32] (bs "0"). kw_tok [32] (bs "obj"). dopen_tok [32]. dclose_tok (@nil Z). lay_end.
      - apply (W_dict true true [] []); constructor.
      - apply first_line_vm; vm_compute; reflexivity.
      - apply announces_ok. reflexivity. }
    { exists [10], [10]. splits; [reflexivity|left; reflexivity|apply sep_ok; reflexivity|discriminate|apply first_ok; reflexivity|].
      eapply (finished []). reflexivity. }
    { apply boundary_ok. reflexivity. }
    { discriminate. }
    apply HL; [right; reflexivity|].
    apply (Ct_object _ _ 8 0 s8).
    { exists [(414, KW "<<"); (416, TLit (bs "Title")); (422, TStr [32; 88]); (429, KW ">>")], 406, 408, 410, true, (bs "8 0 obj <</Title<2058> >> endobj" ++ [10]). splits.
      - cbn [app]. int_tok (@nil Z) (bs "8"). int_tok [32] (bs "0"). kw_tok [32] (bs "obj"). dopen_tok [32]. name_tok (@nil Z) (bs "Title"). hex_tok (@nil Z) (bs "2058"). dclose_tok [32]. lay_end.
      - written.
      - apply first_line_vm; vm_compute; reflexivity.
      - apply announces_ok. reflexivity. }
    { apply boundary_ok. reflexivity. }
    apply HL; [right; reflexivity|].
    apply (Ct_object _ _ 9 0 s9).
    { exists [(447, KW "<<"); (449, TLit (bs "Filter")); (456, TLit (bs "Standard")); (465, TLit (bs "V")); (468, TInt 2); (469, TLit (bs "R")); (472, TInt 3); (473, TLit (bs "Length")); (481, TInt 128); (484, TLit (bs "P")); (487, TInt (-60)); (490, TLit (bs "O")); (492, TStr [167; 147; 50; 37; 198; 12; 82; 54; 128; 18; 31; 141; 59; 54; 181; 241; 120; 65; 74; 86; 22; 162; 17; 43; 136; 136; 40; 60; 187; 82; 136; 168]); (559, TLit (bs "U")); (561, TStr [131; 187; 98; 139; 237; 123; 247; 241; 235; 233; 238; 43; 115; 57; 178; 42; 0; 0; 0; 0; 0; 0; 0; 0; 0; 0; 0; 0; 0; 0; 0; 0]); (628, KW ">>")], 439, 441, 443, true, (bs "9 0 obj <</Filter/Standard/V 2/R 3/Length 128/P -60/O<a7933225c60c523680121f8d3b36b5f178414a5616a2112b8888283cbb5288a8> /U<83bb628bed7bf7f1ebe9ee2b7339b22a00000000000000000000000000000000> >> endobj" ++ [10]). splits.
      - cbn [app]. int_tok (@nil Z) (bs "9"). int_tok [32] (bs "0"). kw_tok [32] (bs "obj"). dopen_tok [32]. name_tok (@nil Z) (bs "Filter"). name_tok (@nil Z) (bs "Standard"). name_tok (@nil Z) (bs "V"). int_tok [32] (bs "2"). name_tok (@nil Z) (bs "R"). int_tok [32] (bs "3"). name_tok (@nil Z) (bs "Length"). int_tok [32] (bs "128"). name_tok (@nil Z) (bs "P"). neg_tok [32] (bs "60"). name_tok (@nil Z) (bs "O"). hex_tok (@nil Z) (bs "a7933225c60c523680121f8d3b36b5f178414a5616a2112b8888283cbb5288a8"). name_tok [32] (bs "U"). hex_tok (@nil Z) (bs "83bb628bed7bf7f1ebe9ee2b7339b22a00000000000000000000000000000000"). dclose_tok [32]. lay_end.
      - written.
      - apply first_line_vm; vm_compute; reflexivity.
      - apply announces_ok. reflexivity. }
    { apply boundary_ok. reflexivity. }
    apply HL; [right; reflexivity|].
    apply Ct_trailer. exists [(646, KW "<<"); (648, TLit (bs "Root")); (654, TInt 1); (656, TInt 0); (658, KW "R"); (659, TLit (bs "Info")); (665, TInt 8); (667, TInt 0); (669, KW "R"); (670, TLit (bs "Encrypt")); (679, TInt 9); (681, TInt 0); (683, KW "R"); (684, TLit (bs "ID")); (687, KW "["); (688, TStr [115; 111; 109; 101; 45; 105; 100; 45; 49; 54; 45; 98; 121; 116; 101; 115]); (722, KW "]"); (723, KW ">>")], 638, (bs "trailer <</Root 1 0 R/Info 8 0 R/Encrypt 9 0 R/ID[<736f6d652d69642d31362d6279746573>]>>" ++ [10]). splits.
    - apply first_line_vm; vm_compute; reflexivity.
    - eexists (bs " <</Root 1 0 R/Info 8 0 R/Encrypt 9 0 R/ID[<736f6d652d69642d31362d6279746573>]>>" ++ [10]). reflexivity.
    - change (ODict s_trailer) with (e [("Root"%string, ORef 1); ("Info"%string, ORef 8); ("Encrypt"%string, ORef 9); ("ID"%string, OArr [OStr lid])]). written.
    - right. exists true. kw_tok (@nil Z) (bs "trailer"). dopen_tok [32]. name_tok (@nil Z) (bs "Root"). int_tok [32] (bs "1"). int_tok [32] (bs "0"). kw_tok [32] (bs "R"). name_tok (@nil Z) (bs "Info"). int_tok [32] (bs "8"). int_tok [32] (bs "0"). kw_tok [32] (bs "R"). name_tok (@nil Z) (bs "Encrypt"). int_tok [32] (bs "9"). int_tok [32] (bs "0"). kw_tok [32] (bs "R"). name_tok (@nil Z) (bs "ID"). aopen_tok (@nil Z). hex_tok (@nil Z) (bs "736f6d652d69642d31362d6279746573"). aclose_tok (@nil Z). dclose_tok (@nil Z). lay_end.
  Qed.
End file.
Lemma s_has : HasSealed md5_0 s_file false keyd (ORef 9) paramd s_get [] s_hits.
Proof.
  assert (R : forall a h c, s_hits = a ++ h :: c -> forallb (fun x => negb (fst (fst x) =? fst (fst h))) c = true ->
        forall off, snd (fst h) = InUse off 0 -> StandsAt s_file [] s_hits (fst (fst h)) 0 (snd h)).
  { intros a [[i en] o] c E F off Eh. cbn [fst snd] in *. subst en. apply SA_found with off; [apply Forall_nil|]. exists a, c. split; [exact E|].
    apply Forall_forall. intros x Hx. rewrite forallb_forall in F. specialize (F x Hx). lia. }
  unfold HasSealed. splits.
  - reflexivity.
  - right. exists 9, 0. splits; [reflexivity|discriminate|]. rewrite <- sealed9. refine (R [_; _; _; _; _; _; _; _] (_, _, _) _ _ _ _ _); reflexivity.
  - intros id H0 H9. unfold s_get, x_get. repeat match goal with |- context [id =? ?k] => destruct (Z.eqb_spec id k) as [->|] end.
    + split; [lia|]. exists 0, o1. splits; [lia|lia|refine (R [] (_, _, _) _ _ _ _ _); reflexivity|sealed_other].
    + split; [lia|]. exists 0, o2. splits; [lia|lia|refine (R [_] (_, _, _) _ _ _ _ _); reflexivity|sealed_other].
    + split; [lia|]. exists 0, o3. splits; [lia|lia|refine (R [_; _] (_, _, _) _ _ _ _ _); reflexivity|sealed_other].
    + split; [lia|]. exists 0, o4. splits; [lia|lia|refine (R [_; _; _] (_, _, _) _ _ _ _ _); reflexivity|sealed_other].
    + split; [lia|]. exists 0, (OStream [] c5). splits; [lia|lia|refine (R [_; _; _; _] (_, _, _) _ _ _ _ _); reflexivity|rewrite sealed5; apply Se_stream; left; reflexivity].
    + split; [lia|]. exists 0, o6. splits; [lia|lia|refine (R [_; _; _; _; _] (_, _, _) _ _ _ _ _); reflexivity|sealed_other].
    + split; [lia|]. exists 0, (OStream [] c7). splits; [lia|lia|refine (R [_; _; _; _; _; _] (_, _, _) _ _ _ _ _); reflexivity|rewrite sealed7; apply Se_stream; left; reflexivity].
    + split; [lia|]. exists 0, s8. splits; [lia|lia|refine (R [_; _; _; _; _; _; _] (_, _, _) _ _ _ _ _); reflexivity|].
      unfold s8. rewrite sealed8. apply Se_other. exact (enc_title _ _).
    + split; [apply Forall_nil|]. unfold NoHit, s_hits. repeat (apply Forall_cons; [cbn [fst]; congruence|]). apply Forall_nil.
Qed.
Lemma s_laid decode : Laid decode s_file [] s_hits s_trailer.
Proof.
  apply La_found; [|exact (s_contents decode)].
  intros a b H. assert (E : forallb (fun i => negb (prefixb (bs "startxref") (skipn i s_file))) (seq 0 (length s_file)) = true) by (vm_compute; reflexivity).
  rewrite forallb_forall in E. specialize (E (length a)). cbv beta in E.
  replace (skipn (length a) s_file) with (bs "startxref" ++ b) in E by (rewrite H, skipn_app, skipn_all, Nat.sub_diag; reflexivity).
  rewrite prefixb_app in E. discriminate E. apply in_seq. rewrite H, !app_length. cbn [length bs]. lia.
Qed.
Section c93.
  Variables (zlib : list Z -> option (list Z)) (ccitt : list Z -> obj -> res (list Z)).
  Lemma s_document : FileHasSealed md5_0 (stored_data zlib ccitt) s_file (ORef 9) s_get paramd id5 keyd x_tree.
  Proof.
    exists [(ON "Pages", ORef 2)], [[(ON "Title", OStr (bs "Hi"))]]. splits.
    { eexists false, [], s_hits, s_trailer, [], s_trailer, [], [], (ORef 1). splits.
    - eapply RC_old; [right; reflexivity|reflexivity].
    - apply s_laid.
    - exact s_has.
    - reflexivity.
    - constructor.
    - reflexivity.
    - reflexivity.
    - reflexivity.
    - eexists. split; [eapply St_ref; [split; [discriminate|split; [discriminate|reflexivity]]|apply St_direct; discriminate]|reflexivity].
    - eapply Info_some; [reflexivity|]. eexists. split; [eapply St_ref; [split; [discriminate|split; [discriminate|reflexivity]]|apply St_direct; discriminate]|reflexivity]. }
    - reflexivity.
    - exact x_catalog.
    - intros get Hg. pose proof (s_agree get Hg) as A. destruct (x_stored (s_rest get)) as [S1 S2]. split.
      + eapply stored_same; eassumption.
      + eapply Forall_impl; [|exact S2]. intros lp [H1 H2]. split; [exact H1|]. intros k o E. destruct (H2 k o E) as [v L]. exists v. eapply leads_same; eassumption.
  Qed.
  Example C93_denied_hypotheses :
    FileHasSealed md5_0 (stored_data zlib ccitt) s_file (ORef 9) s_get paramd id5 keyd x_tree /\ leaves [] x_tree <> [] /\ Chosen [] 0 (leaves [] x_tree) (leaves [] x_tree) /\
    Supported paramd 2 3 (-60) 16 false O5 Ud /\ Protected md5_0 3 16 (-60) id5 false owner5 user5 O5 Ud keyd /\ Z.testbit (-60) 4 = false /\
    ~ U_matches md5_0 3 id5 (document_key md5_0 3 16 O5 (-60) id5 false owner5) Ud.
  Proof.
    splits; [exact s_document|discriminate|left; split; reflexivity| | |reflexivity|].
    - apply (Sup_old paramd 2 3 (-60) 128); [|lia|right; split; [reflexivity|split; [lia|reflexivity]]]. unfold Common. repeat split; try reflexivity. left. reflexivity.
    - split; [reflexivity|]. split; [reflexivity|]. unfold U_matches. change (3 <=? 3) with true. exists (repeat 0 16). unfold Ud. reflexivity.
    - apply unmatched. rewrite ExtractEnc_Cases.O5_lit, Ud_lit. vm_compute. reflexivity.
  Qed.
End c93.
(* Refuted: the owner may do everything (ISO 32000-1, 7.6.3.1).  Opened with the owner password the document still does not let its
   text be extracted. *)
Theorem C93_owner_denied_refuted : exists n1, forall F, (n1 <= F)%nat -> exists n2, forall f, (n2 <= f)%nat ->
  extract (fun _ => None) (fun _ _ => Err PDFNotImplementedError) md5_0 md5_0 (fun _ _ _ => Err PDFNotImplementedError) (fun _ => None) x_bases x_metrics
    (fun _ => None) (fun _ _ => None) (env0 s_file 7 true) true true owner5 [] 0 false F f = ([], Some PDFTextExtractionNotAllowed).
Proof.
  destruct (C93_denied_hypotheses (fun _ => None) (fun _ _ => Err PDFNotImplementedError)) as (H1 & H2 & H3 & H4 & H5 & H6 & H7).
  refine (C93_denied _ _ md5_0 md5_0 md5_0_len _ _ _ _ _ _ (env0 s_file 7 true) true [] 0 false _ _ (ORef 9) s_get paramd id5 keyd 2 3 (-60) 16 false O5 Ud owner5 user5 H4 H5 _ x_tree (leaves [] x_tree) owner5 H1 H2 H3 _ _ H6).
  - cbn; lia.
  - intros o Ho. destruct o; try reflexivity.
  - lia.
  - apply latin1_ok. reflexivity.
  - right. split; [reflexivity|exact H7].
Qed.
