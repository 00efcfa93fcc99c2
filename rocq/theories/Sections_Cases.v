(* C88: a file with a table, the cross-reference stream its XRefStm refers to, another its Prev refers to, and an object stream. *)
From Coq Require Import String.
From Verif Require Import Base Lex_Model Lex_Spec Lines_Model Lines_Spec Obj Stack_Model Stack_Spec Stack_Proofs Stack_Props XRef_Model XRef_Spec XRef_Proofs
  Doc_Model Doc_Spec Doc_Proofs Doc_Props Witness Fallback_Model Fallback_Spec Fallback_Proofs Fallback_Props Sections_Spec Sections_Props.
From Coq Require Import ZifyBool ZifyNat.
Open Scope Z_scope.
Import ListNotations.

Definition m_file : list Z := (bs "%PDF-1.5" ++ [10]) ++
  bs "1 0 obj 5 " ++ bs "endobj" ++ (@nil Z ++ [10]) ++
  bs "2 0 obj <</Type/ObjStm/N 2/First 8/Length 13>>" ++ (bs "stream" ++ [10] ++ (bs "3 0 4 2 7 [8]" ++ [10]) ++ bs "endstream" ++ [10] ++ bs "endobj") ++ (@nil Z ++ [10]) ++
  bs "5 0 obj <</Type/XRef/W[1 2 1]/Index[3 2]/Size 5/Length 8>>" ++ (bs "stream" ++ [10] ++ ([2; 0; 2; 0; 2; 0; 2; 1] ++ [10]) ++ bs "endstream" ++ [10] ++ bs "endobj") ++ (@nil Z ++ [10]) ++
  bs "6 0 obj <</Type/XRef/W[1 2 1]/Index[1 1 6 1]/Size 7/Length 8>>" ++ (bs "stream" ++ [10] ++ ([1; 0; 9; 0; 1; 0; 201; 0] ++ [10]) ++ bs "endstream" ++ [10] ++ bs "endobj") ++ (@nil Z ++ [10]) ++
  bs "7 0 obj 9 " ++ bs "endobj" ++ (@nil Z ++ [10]) ++
  (bs "xref" ++ [10]) ++
  (bs "0 1" ++ [10]) ++
  (bs "0000000000 65535 f " ++ [10]) ++
  (bs "2 1" ++ [10]) ++
  (bs "0000000026 00000 n " ++ [10]) ++
  (bs "5 1" ++ [10]) ++
  (bs "0000000110 00000 n " ++ [10]) ++
  bs "trailer <</Root 1 0 R/XRefStm 110/Prev 201>>" ++ [10] ++ bs "startxref" ++ [10] ++ bs "313" ++ [10] ++ bs "%%EOF" ++ [10].
Definition m_d2 : list (obj * obj) := [(ON "Type", ON "ObjStm"); (ON "N", OInt 2); (ON "First", OInt 8); (ON "Length", OInt 13)].
Definition m_d5 : list (obj * obj) := [(ON "Type", ON "XRef"); (ON "W", OArr [OInt 1; OInt 2; OInt 1]); (ON "Index", OArr [OInt 3; OInt 2]); (ON "Size", OInt 5); (ON "Length", OInt 8)].
Definition m_d6 : list (obj * obj) := [(ON "Type", ON "XRef"); (ON "W", OArr [OInt 1; OInt 2; OInt 1]); (ON "Index", OArr [OInt 1; OInt 1; OInt 6; OInt 1]); (ON "Size", OInt 7); (ON "Length", OInt 8)].
Definition m_tr : list (obj * obj) := [(ON "Root", ORef 1); (ON "XRefStm", OInt 110); (ON "Prev", OInt 201)].
Definition m_hits : list hit :=
  [(1, InUse 9 0, OInt 5); (2, InUse 26 0, OStream m_d2 (bs "3 0 4 2 7 [8]" ++ [10])); (3, Member 2 0, OInt 7); (4, Member 2 1, OArr [OInt 8]);
   (5, InUse 110 0, OStream m_d5 ([2; 0; 2; 0; 2; 0; 2; 1] ++ [10])); (6, InUse 201 0, OStream m_d6 ([1; 0; 9; 0; 1; 0; 201; 0] ++ [10])); (7, InUse 296 0, OInt 9)].
Definition m_table : list subsection := [(0, [Free 0 65535]); (2, [InUse 26 0]); (5, [InUse 110 0])].
Definition m_stm : list subsection := [(3, [Member 2 0; Member 2 1])].
Definition m_old : list subsection := [(1, [InUse 9 0]); (6, [InUse 201 0])].
Definition m_revs : list revision := [(m_table, m_tr); (m_stm, m_d5); (m_old, m_d6)].
Ltac nodup := repeat (constructor; [cbn [In map fst]; intuition discriminate|]); constructor.
Ltac wr := lazymatch goal with
  | |- WrittenE _ _ (_ :: _) _ => eapply WE_cons; [wr|wr]
  | |- WrittenE _ _ [] _ => apply WE_nil
  | |- WrittenL _ _ (_ :: _) _ => eapply WL_cons; [wr|wr]
  | |- WrittenL _ _ [] _ => apply WL_nil
  | |- Written _ _ (OArr _) _ => eapply W_arr; wr
  | |- Written _ _ (ORef _) _ => eapply (W_ref _ _ _ 0); reflexivity
  | |- Written _ _ ?x _ => constructor
  end.
Lemma to_toks a b o t t' : Written a b o t -> t = t' -> Written a b o t'.
Proof. intros H <-. exact H. Qed.
Lemma to_toksl a b o t t' : WrittenL a b o t -> t = t' -> WrittenL a b o t'.
Proof. intros H <-. exact H. Qed.
Ltac dwritten es := eapply to_toks; [eapply (W_dict true true es); [nodup|wr]|reflexivity].
Lemma m_stream2 : StreamAt direct_length m_file 26 2 m_d2 (bs "3 0 4 2 7 [8]").
Proof.
  eexists (firstn 26 m_file), (bs "2 0 obj <</Type/ObjStm/N 2/First 8/Length 13>>"), [10], [10], [10], (skipn 109 m_file), 0, [(_, KW "<<"); (_, TLit (bs "Type")); (_, TLit (bs "ObjStm")); (_, TLit (bs "N")); (_, TInt 2); (_, TLit (bs "First")); (_, TInt 8); (_, TLit (bs "Length")); (_, TInt 13); (_, KW ">>")], _, _, _, (OInt 13).
  intros tail; subst tail. splits; [reflexivity|reflexivity| | |left; reflexivity|reflexivity|reflexivity|constructor; [unfold white; lia|constructor]|apply sep_ok; reflexivity|discriminate| |].
  - int_tok (@nil Z) (bs "2"). int_tok [32] (bs "0"). kw_tok [32] (bs "obj"). dopen_tok [32]. name_tok (@nil Z) (bs "Type"). name_tok (@nil Z) (bs "ObjStm"). name_tok (@nil Z) (bs "N"). int_tok [32] (bs "2"). name_tok (@nil Z) (bs "First"). int_tok [32] (bs "8"). name_tok (@nil Z) (bs "Length"). int_tok [32] (bs "13"). dclose_tok (@nil Z). lay_end.
  - dwritten [(bs "Type", ON "ObjStm"); (bs "N", OInt 2); (bs "First", OInt 8); (bs "Length", OInt 13)].
  - do 2 eexists. split; [reflexivity|left; unfold white; lia].
  - eapply (finished []). reflexivity.
Qed.
Lemma m_stream5 : StreamAt direct_length m_file 110 5 m_d5 ([2; 0; 2; 0; 2; 0; 2; 1]).
Proof.
  eexists (firstn 110 m_file), (bs "5 0 obj <</Type/XRef/W[1 2 1]/Index[3 2]/Size 5/Length 8>>"), [10], [10], [10], (skipn 200 m_file), 0, [(_, KW "<<"); (_, TLit (bs "Type")); (_, TLit (bs "XRef")); (_, TLit (bs "W")); (_, KW "["); (_, TInt 1); (_, TInt 2); (_, TInt 1); (_, KW "]"); (_, TLit (bs "Index")); (_, KW "["); (_, TInt 3); (_, TInt 2); (_, KW "]"); (_, TLit (bs "Size")); (_, TInt 5); (_, TLit (bs "Length")); (_, TInt 8); (_, KW ">>")], _, _, _, (OInt 8).
  intros tail; subst tail. splits; [reflexivity|reflexivity| | |left; reflexivity|reflexivity|reflexivity|constructor; [unfold white; lia|constructor]|apply sep_ok; reflexivity|discriminate| |].
  - int_tok (@nil Z) (bs "5"). int_tok [32] (bs "0"). kw_tok [32] (bs "obj"). dopen_tok [32]. name_tok (@nil Z) (bs "Type"). name_tok (@nil Z) (bs "XRef"). name_tok (@nil Z) (bs "W"). aopen_tok (@nil Z). int_tok (@nil Z) (bs "1"). int_tok [32] (bs "2"). int_tok [32] (bs "1"). aclose_tok (@nil Z). name_tok (@nil Z) (bs "Index"). aopen_tok (@nil Z). int_tok (@nil Z) (bs "3"). int_tok [32] (bs "2"). aclose_tok (@nil Z). name_tok (@nil Z) (bs "Size"). int_tok [32] (bs "5"). name_tok (@nil Z) (bs "Length"). int_tok [32] (bs "8"). dclose_tok (@nil Z). lay_end.
  - dwritten [(bs "Type", ON "XRef"); (bs "W", OArr [OInt 1; OInt 2; OInt 1]); (bs "Index", OArr [OInt 3; OInt 2]); (bs "Size", OInt 5); (bs "Length", OInt 8)].
  - do 2 eexists. split; [reflexivity|left; unfold white; lia].
  - eapply (finished []). reflexivity.
Qed.
Lemma m_stream6 : StreamAt direct_length m_file 201 6 m_d6 ([1; 0; 9; 0; 1; 0; 201; 0]).
Proof.
  eexists (firstn 201 m_file), (bs "6 0 obj <</Type/XRef/W[1 2 1]/Index[1 1 6 1]/Size 7/Length 8>>"), [10], [10], [10], (skipn 295 m_file), 0, [(_, KW "<<"); (_, TLit (bs "Type")); (_, TLit (bs "XRef")); (_, TLit (bs "W")); (_, KW "["); (_, TInt 1); (_, TInt 2); (_, TInt 1); (_, KW "]"); (_, TLit (bs "Index")); (_, KW "["); (_, TInt 1); (_, TInt 1); (_, TInt 6); (_, TInt 1); (_, KW "]"); (_, TLit (bs "Size")); (_, TInt 7); (_, TLit (bs "Length")); (_, TInt 8); (_, KW ">>")], _, _, _, (OInt 8).
  intros tail; subst tail. splits; [reflexivity|reflexivity| | |left; reflexivity|reflexivity|reflexivity|constructor; [unfold white; lia|constructor]|apply sep_ok; reflexivity|discriminate| |].
  - int_tok (@nil Z) (bs "6"). int_tok [32] (bs "0"). kw_tok [32] (bs "obj"). dopen_tok [32]. name_tok (@nil Z) (bs "Type"). name_tok (@nil Z) (bs "XRef"). name_tok (@nil Z) (bs "W"). aopen_tok (@nil Z). int_tok (@nil Z) (bs "1"). int_tok [32] (bs "2"). int_tok [32] (bs "1"). aclose_tok (@nil Z). name_tok (@nil Z) (bs "Index"). aopen_tok (@nil Z). int_tok (@nil Z) (bs "1"). int_tok [32] (bs "1"). int_tok [32] (bs "6"). int_tok [32] (bs "1"). aclose_tok (@nil Z). name_tok (@nil Z) (bs "Size"). int_tok [32] (bs "7"). name_tok (@nil Z) (bs "Length"). int_tok [32] (bs "8"). dclose_tok (@nil Z). lay_end.
  - dwritten [(bs "Type", ON "XRef"); (bs "W", OArr [OInt 1; OInt 2; OInt 1]); (bs "Index", OArr [OInt 1; OInt 1; OInt 6; OInt 1]); (bs "Size", OInt 7); (bs "Length", OInt 8)].
  - do 2 eexists. split; [reflexivity|left; unfold white; lia].
  - eapply (finished []). reflexivity.
Qed.
Lemma m_table_at : TableAt m_file 313 m_table m_tr.
Proof.
  eexists (firstn 313 m_file), (bs "xref" ++ [10]), (bs "0 1" ++ [10] ++ bs "0000000000 65535 f " ++ [10] ++ bs "2 1" ++ [10] ++ bs "0000000026 00000 n " ++ [10] ++ bs "5 1" ++ [10] ++ bs "0000000110 00000 n " ++ [10]), (bs "trailer <</Root 1 0 R/XRefStm 110/Prev 201>>" ++ [10] ++ bs "startxref"), ([10] ++ bs "313" ++ [10] ++ bs "%%EOF" ++ [10]), [(_, KW "<<"); (_, TLit (bs "Root")); (_, TInt 1); (_, TInt 0); (_, KW "R"); (_, TLit (bs "XRefStm")); (_, TInt 110); (_, TLit (bs "Prev")); (_, TInt 201); (_, KW ">>")], _, _, true.
  splits; [reflexivity|reflexivity|discriminate| | | | |].
  - apply (textline_ok _ [] [10]); [reflexivity|constructor|constructor|discriminate].
  - unfold m_table.
    apply (XT_sub 0 [Free 0 65535] (bs "0") (bs "1") (bs "0 1" ++ [10]) (bs "0000000000 65535 f " ++ [10]) _ (bs "2 1" ++ [10] ++ bs "0000000026 00000 n " ++ [10] ++ bs "5 1" ++ [10] ++ bs "0000000110 00000 n " ++ [10])).
    { apply dec_eq; [reflexivity|discriminate|reflexivity]. }
    { apply dec_eq; [reflexivity|discriminate|reflexivity]. }
    { apply (textline_ok _ [] [10]); [reflexivity|constructor|constructor|discriminate]. }
    { apply (XE_cons (Free 0 65535) [] (bs "0000000000 65535 f") (bs "0000000000 65535 f " ++ [10]) []); [| |constructor].
      - apply (XT_f 0 65535 (bs "0000000000") (bs "65535")); apply dec_eq; [reflexivity|discriminate|reflexivity|reflexivity|discriminate|reflexivity].
      - apply (textline_ok _ [32] [10]); [reflexivity|repeat constructor|constructor|discriminate]. }
    apply (XT_sub 2 [InUse 26 0] (bs "2") (bs "1") (bs "2 1" ++ [10]) (bs "0000000026 00000 n " ++ [10]) _ (bs "5 1" ++ [10] ++ bs "0000000110 00000 n " ++ [10])).
    { apply dec_eq; [reflexivity|discriminate|reflexivity]. }
    { apply dec_eq; [reflexivity|discriminate|reflexivity]. }
    { apply (textline_ok _ [] [10]); [reflexivity|constructor|constructor|discriminate]. }
    { apply (XE_cons (InUse 26 0) [] (bs "0000000026 00000 n") (bs "0000000026 00000 n " ++ [10]) []); [| |constructor].
      - apply (XT_n 26 0 (bs "0000000026") (bs "00000")); apply dec_eq; [reflexivity|discriminate|reflexivity|reflexivity|discriminate|reflexivity].
      - apply (textline_ok _ [32] [10]); [reflexivity|repeat constructor|constructor|discriminate]. }
    apply (XT_sub 5 [InUse 110 0] (bs "5") (bs "1") (bs "5 1" ++ [10]) (bs "0000000110 00000 n " ++ [10]) _ ((@nil Z))).
    { apply dec_eq; [reflexivity|discriminate|reflexivity]. }
    { apply dec_eq; [reflexivity|discriminate|reflexivity]. }
    { apply (textline_ok _ [] [10]); [reflexivity|constructor|constructor|discriminate]. }
    { apply (XE_cons (InUse 110 0) [] (bs "0000000110 00000 n") (bs "0000000110 00000 n " ++ [10]) []); [| |constructor].
      - apply (XT_n 110 0 (bs "0000000110") (bs "00000")); apply dec_eq; [reflexivity|discriminate|reflexivity|reflexivity|discriminate|reflexivity].
      - apply (textline_ok _ [32] [10]); [reflexivity|repeat constructor|constructor|discriminate]. }
    constructor.
  - exists (bs " <</Root 1 0 R/XRefStm 110/Prev 201>>" ++ [10]), (bs "startxref" ++ [10] ++ bs "313" ++ [10] ++ bs "%%EOF" ++ [10]). split; [reflexivity|]. apply (Line_lf (bs "trailer <</Root 1 0 R/XRefStm 110/Prev 201>>")). apply no_eol_ok. reflexivity.
  - kw_tok (@nil Z) (bs "trailer"). dopen_tok [32]. name_tok (@nil Z) (bs "Root"). int_tok [32] (bs "1"). int_tok [32] (bs "0"). kw_tok [32] (bs "R"). name_tok (@nil Z) (bs "XRefStm"). int_tok [32] (bs "110"). name_tok (@nil Z) (bs "Prev"). int_tok [32] (bs "201"). dclose_tok (@nil Z). kw_tok [10] (bs "startxref"). lay_end.
  - dwritten [(bs "Root", ORef 1); (bs "XRefStm", OInt 110); (bs "Prev", OInt 201)].
Qed.
Lemma m_sections : Sections raw_data m_file 313 m_revs.
Proof.
  apply (Sec_at _ _ _ m_table m_tr [(m_stm, m_d5)] [(m_old, m_d6)]).
  - left. exact m_table_at.
  - apply (Lk_some _ _ 110). apply (Sec_at _ _ _ m_stm m_d5 [] []); [|constructor|constructor]. right.
    eexists 5, _, 1%nat, 2%nat, 1%nat. splits; [exact m_stream5| | | |reflexivity].
    + unfold XRefAttrs. splits; [reflexivity|reflexivity|]. eexists. split; [reflexivity|left; reflexivity].
    + repeat (apply Forall_cons; [cbn [In]; tauto|]). apply Forall_nil.
    + repeat apply Forall_cons; try apply Forall_nil; cbn; lia.
  - apply (Lk_some _ _ 201). apply (Sec_at _ _ _ m_old m_d6 [] []); [|constructor|constructor]. right.
    eexists 6, _, 1%nat, 2%nat, 1%nat. splits; [exact m_stream6| | | |reflexivity].
    + unfold XRefAttrs. splits; [reflexivity|reflexivity|]. eexists. split; [reflexivity|left; reflexivity].
    + repeat (apply Forall_cons; [cbn [In]; tauto|]). apply Forall_nil.
    + repeat apply Forall_cons; try apply Forall_nil; cbn; lia.
Qed.
Lemma m_packs raw : raw = bs "3 0 4 2 7 [8]" \/ raw = bs "3 0 4 2 7 [8]" ++ [10] -> Packs raw_data m_d2 raw [(3, OInt 7); (4, OArr [OInt 8])].
Proof.
  intros H. unfold Packs. splits; [reflexivity|reflexivity|].
  eexists raw, [(3, 0); (4, 2)], [(_, TInt 3); (_, TInt 0); (_, TInt 4); (_, TInt 2); (_, TInt 7); (_, KW "["); (_, TInt 8); (_, KW "]")], true. splits.
  - reflexivity.
  - reflexivity.
  - destruct H as [-> | ->]; int_tok (@nil Z) (bs "3"); int_tok [32] (bs "0"); int_tok [32] (bs "4"); int_tok [32] (bs "2"); int_tok [32] (bs "7"); aopen_tok [32]; int_tok (@nil Z) (bs "8"); aclose_tok (@nil Z); lay_end.
  - eapply to_toksl; [cbn [map fst snd flat_map app]; wr|reflexivity].
  - repeat (constructor; [discriminate|]). constructor.
Qed.
Lemma m_contents : Contents raw_data 0 m_file m_hits m_tr.
Proof.
  assert (HL : forall p l rest h t, In l [[]; bs "%PDF-1.5"; bs "xref"; bs "0 1"; bs "0000000000 65535 f "; bs "2 1"; bs "0000000026 00000 n "; bs "5 1"; bs "0000000110 00000 n "] ->
    Contents raw_data (p + Z.of_nat (length (l ++ [10]))) rest h t -> Contents raw_data p ((l ++ [10]) ++ rest) h t).
  { intros p l rest h t Hl HC. apply Ct_line; [apply Line_lf| | |exact HC];
      repeat (destruct Hl as [H|Hl]; [subst l; first [apply no_eol_ok; reflexivity|discriminate|apply boring_ok; reflexivity]|]); destruct Hl. }
  unfold m_hits, m_file.
  apply HL; [cbn [In]; tauto|].
  apply (Ct_object _ _ 1 0 (OInt 5)).
  { eexists [(_, TInt 5)], _, _, _, true, (bs "1 0 obj 5 endobj" ++ [10]). splits.
    - cbn [app]. int_tok (@nil Z) (bs "1"). int_tok [32] (bs "0"). kw_tok [32] (bs "obj"). int_tok [32] (bs "5"). lay_end.
    - constructor.
    - eapply first_line_ok; reflexivity.
    - apply announces_ok. reflexivity. }
  { apply boundary_ok. reflexivity. }
  apply HL; [cbn [In]; tauto|].
  apply (Ct_packed _ _ 2 0 m_d2 (bs "3 0 4 2 7 [8]" ++ [10]) [(3, OInt 7); (4, OArr [OInt 8])]).
  { eexists [(_, KW "<<"); (_, TLit (bs "Type")); (_, TLit (bs "ObjStm")); (_, TLit (bs "N")); (_, TInt 2); (_, TLit (bs "First")); (_, TInt 8); (_, TLit (bs "Length")); (_, TInt 13); (_, KW ">>")], _, _, _, true, (bs "2 0 obj <</Type/ObjStm/N 2/First 8/Length 13>>stream" ++ [10]). splits.
    - cbn [app]. int_tok (@nil Z) (bs "2"). int_tok [32] (bs "0"). kw_tok [32] (bs "obj"). dopen_tok [32]. name_tok (@nil Z) (bs "Type"). name_tok (@nil Z) (bs "ObjStm"). name_tok (@nil Z) (bs "N"). int_tok [32] (bs "2"). name_tok (@nil Z) (bs "First"). int_tok [32] (bs "8"). name_tok (@nil Z) (bs "Length"). int_tok [32] (bs "13"). dclose_tok (@nil Z). lay_end.
    - dwritten [(bs "Type", ON "ObjStm"); (bs "N", OInt 2); (bs "First", OInt 8); (bs "Length", OInt 13)].
    - eapply first_line_ok; reflexivity.
    - apply announces_ok. reflexivity. }
  { exists [10], [10]. splits; [reflexivity|left; reflexivity|apply sep_ok; reflexivity|discriminate|apply first_ok; reflexivity|].
    eapply (finished []). reflexivity. }
  { apply boundary_ok. reflexivity. }
  { apply m_packs. right. reflexivity. }
  apply HL; [cbn [In]; tauto|].
  apply (Ct_stream _ _ 5 0 m_d5 ([2; 0; 2; 0; 2; 0; 2; 1] ++ [10])).
  { eexists [(_, KW "<<"); (_, TLit (bs "Type")); (_, TLit (bs "XRef")); (_, TLit (bs "W")); (_, KW "["); (_, TInt 1); (_, TInt 2); (_, TInt 1); (_, KW "]"); (_, TLit (bs "Index")); (_, KW "["); (_, TInt 3); (_, TInt 2); (_, KW "]"); (_, TLit (bs "Size")); (_, TInt 5); (_, TLit (bs "Length")); (_, TInt 8); (_, KW ">>")], _, _, _, true, (bs "5 0 obj <</Type/XRef/W[1 2 1]/Index[3 2]/Size 5/Length 8>>stream" ++ [10]). splits.
    - cbn [app]. int_tok (@nil Z) (bs "5"). int_tok [32] (bs "0"). kw_tok [32] (bs "obj"). dopen_tok [32]. name_tok (@nil Z) (bs "Type"). name_tok (@nil Z) (bs "XRef"). name_tok (@nil Z) (bs "W"). aopen_tok (@nil Z). int_tok (@nil Z) (bs "1"). int_tok [32] (bs "2"). int_tok [32] (bs "1"). aclose_tok (@nil Z). name_tok (@nil Z) (bs "Index"). aopen_tok (@nil Z). int_tok (@nil Z) (bs "3"). int_tok [32] (bs "2"). aclose_tok (@nil Z). name_tok (@nil Z) (bs "Size"). int_tok [32] (bs "5"). name_tok (@nil Z) (bs "Length"). int_tok [32] (bs "8"). dclose_tok (@nil Z). lay_end.
    - dwritten [(bs "Type", ON "XRef"); (bs "W", OArr [OInt 1; OInt 2; OInt 1]); (bs "Index", OArr [OInt 3; OInt 2]); (bs "Size", OInt 5); (bs "Length", OInt 8)].
    - eapply first_line_ok; reflexivity.
    - apply announces_ok. reflexivity. }
  { exists [10], [10]. splits; [reflexivity|left; reflexivity|apply sep_ok; reflexivity|discriminate|apply first_ok; reflexivity|].
    eapply (finished []). reflexivity. }
  { apply boundary_ok. reflexivity. }
  { discriminate. }
  apply HL; [cbn [In]; tauto|].
  apply (Ct_stream _ _ 6 0 m_d6 ([1; 0; 9; 0; 1; 0; 201; 0] ++ [10])).
  { eexists [(_, KW "<<"); (_, TLit (bs "Type")); (_, TLit (bs "XRef")); (_, TLit (bs "W")); (_, KW "["); (_, TInt 1); (_, TInt 2); (_, TInt 1); (_, KW "]"); (_, TLit (bs "Index")); (_, KW "["); (_, TInt 1); (_, TInt 1); (_, TInt 6); (_, TInt 1); (_, KW "]"); (_, TLit (bs "Size")); (_, TInt 7); (_, TLit (bs "Length")); (_, TInt 8); (_, KW ">>")], _, _, _, true, (bs "6 0 obj <</Type/XRef/W[1 2 1]/Index[1 1 6 1]/Size 7/Length 8>>stream" ++ [10]). splits.
    - cbn [app]. int_tok (@nil Z) (bs "6"). int_tok [32] (bs "0"). kw_tok [32] (bs "obj"). dopen_tok [32]. name_tok (@nil Z) (bs "Type"). name_tok (@nil Z) (bs "XRef"). name_tok (@nil Z) (bs "W"). aopen_tok (@nil Z). int_tok (@nil Z) (bs "1"). int_tok [32] (bs "2"). int_tok [32] (bs "1"). aclose_tok (@nil Z). name_tok (@nil Z) (bs "Index"). aopen_tok (@nil Z). int_tok (@nil Z) (bs "1"). int_tok [32] (bs "1"). int_tok [32] (bs "6"). int_tok [32] (bs "1"). aclose_tok (@nil Z). name_tok (@nil Z) (bs "Size"). int_tok [32] (bs "7"). name_tok (@nil Z) (bs "Length"). int_tok [32] (bs "8"). dclose_tok (@nil Z). lay_end.
    - dwritten [(bs "Type", ON "XRef"); (bs "W", OArr [OInt 1; OInt 2; OInt 1]); (bs "Index", OArr [OInt 1; OInt 1; OInt 6; OInt 1]); (bs "Size", OInt 7); (bs "Length", OInt 8)].
    - eapply first_line_ok; reflexivity.
    - apply announces_ok. reflexivity. }
  { exists [10], [10]. splits; [reflexivity|left; reflexivity|apply sep_ok; reflexivity|discriminate|apply first_ok; reflexivity|].
    eapply (finished []). reflexivity. }
  { apply boundary_ok. reflexivity. }
  { discriminate. }
  apply HL; [cbn [In]; tauto|].
  apply (Ct_object _ _ 7 0 (OInt 9)).
  { eexists [(_, TInt 9)], _, _, _, true, (bs "7 0 obj 9 endobj" ++ [10]). splits.
    - cbn [app]. int_tok (@nil Z) (bs "7"). int_tok [32] (bs "0"). kw_tok [32] (bs "obj"). int_tok [32] (bs "9"). lay_end.
    - constructor.
    - eapply first_line_ok; reflexivity.
    - apply announces_ok. reflexivity. }
  { apply boundary_ok. reflexivity. }
  apply HL; [cbn [In]; tauto|].
  apply HL; [cbn [In]; tauto|].
  apply HL; [cbn [In]; tauto|].
  apply HL; [cbn [In]; tauto|].
  apply HL; [cbn [In]; tauto|].
  apply HL; [cbn [In]; tauto|].
  apply HL; [cbn [In]; tauto|].
  apply HL; [cbn [In]; tauto|].
  apply Ct_trailer. eexists [(_, KW "<<"); (_, TLit (bs "Root")); (_, TInt 1); (_, TInt 0); (_, KW "R"); (_, TLit (bs "XRefStm")); (_, TInt 110); (_, TLit (bs "Prev")); (_, TInt 201); (_, KW ">>")], _, (bs "trailer <</Root 1 0 R/XRefStm 110/Prev 201>>" ++ [10]). splits.
  - eapply (first_line_ok _ _); reflexivity.
  - exists (bs " <</Root 1 0 R/XRefStm 110/Prev 201>>" ++ [10]). reflexivity.
  - dwritten [(bs "Root", ORef 1); (bs "XRefStm", OInt 110); (bs "Prev", OInt 201)].
  - left. eexists _, true, (bs "trailer <</Root 1 0 R/XRefStm 110/Prev 201>>" ++ [10] ++ bs "startxref"), ([10] ++ bs "313" ++ [10] ++ bs "%%EOF" ++ [10]). splits; [reflexivity|discriminate|]. kw_tok (@nil Z) (bs "trailer"). dopen_tok [32]. name_tok (@nil Z) (bs "Root"). int_tok [32] (bs "1"). int_tok [32] (bs "0"). kw_tok [32] (bs "R"). name_tok (@nil Z) (bs "XRefStm"). int_tok [32] (bs "110"). name_tok (@nil Z) (bs "Prev"). int_tok [32] (bs "201"). dclose_tok (@nil Z). kw_tok [10] (bs "startxref"). lay_end.
Qed.
Example C88_hypotheses : StartXRef m_file 313 /\ Sections raw_data m_file 313 m_revs /\ Forall (fun r => Disjoint (fst r)) m_revs /\
  Contents raw_data 0 m_file m_hits m_tr /\
  Object raw_data (Scanned m_file m_hits) m_revs m_hits 1 (OInt 5) /\ Object raw_data (Scanned m_file m_hits) m_revs m_hits 4 (OArr [OInt 8]) /\
  Object raw_data (Scanned m_file m_hits) m_revs m_hits 7 (OInt 9) /\ Unlisted m_revs 8 /\ NoHit m_hits 8 /\
  Object raw_data (Exact m_file) m_revs [] 1 (OInt 5) /\ Object raw_data (Exact m_file) m_revs [] 3 (OInt 7) /\
  Object raw_data (Exact m_file) m_revs [] 2 (OStream m_d2 (bs "3 0 4 2 7 [8]")).
Proof.
  assert (E : forall secs id en pre s post k, secs = pre ++ s :: post -> id = fst s + Z.of_nat k -> nth_error (snd s) k = Some en ->
    existsb (fun t => (fst t <=? id) && (id <? fst t + Z.of_nat (length (snd t)))) pre = false -> EntryOf secs id en).
  { intros secs id en pre s post k E1 E2 E3 E4. exists pre, s, post, k. splits; try assumption. apply Forall_forall. intros t Ht C. unfold covers in C.
    apply Bool.not_true_iff_false in E4. apply E4. apply existsb_exists. exists t. split; [exact Ht|lia]. }
  assert (U : forall r id, existsb (fun t => (fst t <=? id) && (id <? fst t + Z.of_nat (length (snd t)))) (fst r) = false -> Silent id r).
  { intros r id H. left. apply Forall_forall. intros t Ht C. unfold covers in C. apply Bool.not_true_iff_false in H. apply H. apply existsb_exists. exists t. split; [exact Ht|lia]. }
  assert (L1 : Listed m_revs 1 (InUse 9 0)).
  { exists [(m_table, m_tr); (m_stm, m_d5)], (m_old, m_d6), []. splits; [reflexivity|repeat (constructor; [apply U; reflexivity|]); constructor| |discriminate].
    eapply (E _ _ _ [] _ _ 0%nat); reflexivity. }
  assert (L2 : Listed m_revs 2 (InUse 26 0)).
  { exists [], (m_table, m_tr), [(m_stm, m_d5); (m_old, m_d6)]. splits; [reflexivity|constructor| |discriminate].
    eapply (E _ _ _ [_] _ _ 0%nat); reflexivity. }
  assert (L3 : forall k, (k < 2)%nat -> Listed m_revs (3 + Z.of_nat k) (Member 2 (Z.of_nat k))).
  { intros k Hk. exists [(m_table, m_tr)], (m_stm, m_d5), [(m_old, m_d6)]. destruct k as [|[|k]]; [| |lia];
      (splits; [reflexivity|repeat (constructor; [apply U; reflexivity|]); constructor| |discriminate]).
    - eapply (E _ _ _ [] _ _ 0%nat); reflexivity.
    - eapply (E _ _ _ [] _ _ 1%nat); reflexivity. }
  assert (O1 : ObjectAt m_file 9 1 (OInt 5)).
  { eexists (firstn 9 m_file), (bs "1 0 obj 5 endobj"), (skipn 25 m_file), 0, [(_, TInt 5)], _, _, _, _, true. splits; [reflexivity|reflexivity|discriminate| |constructor].
    cbn [app]. int_tok (@nil Z) (bs "1"). int_tok [32] (bs "0"). kw_tok [32] (bs "obj"). int_tok [32] (bs "5"). kw_tok [32] (bs "endobj"). lay_end. }
  assert (UL : forall id, forallb (fun r => negb (existsb (fun t : subsection => (fst t <=? id) && (id <? fst t + Z.of_nat (length (snd t)))) (fst r))) m_revs = true -> Unlisted m_revs id).
  { intros id H. rewrite forallb_forall in H. apply Forall_forall. intros r Hr. apply U. specialize (H r Hr). apply negb_true_iff in H. exact H. }
  splits.
  - exists (firstn 434 m_file), 10, (bs "startxref" ++ [10]), (bs "313"), (bs "313" ++ [10]), (bs "%%EOF" ++ [10]).
    splits; [reflexivity|left; reflexivity| | | |].
    + apply (textline_ok _ [] [10]); [reflexivity|constructor|constructor|discriminate].
    + apply dec_eq; [reflexivity|discriminate|reflexivity].
    + apply (textline_ok _ [] [10]); [reflexivity|constructor|constructor|discriminate].
    + intros a b H. apply (f_equal (@length Z)) in H. rewrite !app_length in H. cbn in H. lia.
  - exact m_sections.
  - repeat constructor; unfold covers; cbn; intros; lia.
  - exact m_contents.
  - apply Ob_whole. eapply Wh_listed; [exact L1|]. left. exact O1.
  - eapply (Ob_member _ _ _ _ 4 2 1%nat); [left; apply (L3 1%nat); lia|discriminate| |apply m_packs; right; reflexivity|reflexivity].
    eapply Wh_listed; [exact L2|]. right. exists 0. right. left. reflexivity.
  - apply Ob_whole. eapply Wh_found; [apply UL; reflexivity|]. exists (firstn 6 m_hits), []. split; [reflexivity|constructor].
  - apply UL. reflexivity.
  - repeat (constructor; [discriminate|]). constructor.
  - apply Ob_whole. eapply Wh_listed; [exact L1|]. left. exact O1.
  - eapply (Ob_member _ _ _ _ 3 2 0%nat); [left; apply (L3 0%nat); lia|discriminate| |apply m_packs; left; reflexivity|reflexivity].
    eapply Wh_listed; [exact L2|]. right. do 2 eexists. split; [reflexivity|exact m_stream2].
  - apply Ob_whole. eapply Wh_listed; [exact L2|]. right. do 2 eexists. split; [reflexivity|exact m_stream2].
Qed.
(* the model run on the same file *)
Definition m_look (fb caching : bool) (i : Z) : res obj :=
  do D <- open_document fb (env0 m_file 7 fb) raw_data 60; fst (getobj D caching 5 i dstate0).
Example C88_run : map (m_look true true) [1; 4; 7; 8; 9] = [Ok (OInt 5); Ok (OArr [OInt 8]); Ok (OInt 9); Err PDFObjectNotFound; Err PDFObjectNotFound] /\
  map (m_look false false) [1; 3; 7; 2] = [Ok (OInt 5); Ok (OInt 7); Err PDFObjectNotFound; Ok (OStream m_d2 (bs "3 0 4 2 7 [8]"))].
Proof. vm_compute. split; reflexivity. Qed.

