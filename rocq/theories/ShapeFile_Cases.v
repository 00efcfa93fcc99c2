(* C103: a file that meets the hypotheses, and what does not hold. *)
From Coq Require Import String.
From Verif Require Import Base Lex_Model Lex_Spec Lines_Model Lines_Spec Markup_Spec Obj Stack_Model Stack_Spec Stack_Proofs Stack_Props Content_Model Content_Spec Stream_Model Stream_Spec Stream_Props XRef_Model XRef_Spec XRef_Proofs
  Doc_Model Doc_Spec Doc_Proofs Doc_Props Witness Num Geom_Model Page_Model Page_Spec Page_Proofs Page_Props Interp_Model Interp_Spec CMap_Model CMap_Spec CMap_Proofs Font_Model Font_Spec Font_Props
  Sec_Model Open_Model Open_Spec Open_Props Fallback_Model Fallback_Spec Fallback_Proofs Fallback_Props Convert_Model Convert_Spec TextFile_Props
  Names_Props Instr_Spec Instr_Props Multi_Spec Multi_Props FontTotal_Spec FontTotal_Props Extract_Model Total_Spec Total_Props Extract_Spec Extract_Proofs Extract_Props Extract_Cases State_Spec PlaceFile_Spec Shape_Spec ShapeFile_Spec ShapeFile_Props.
From Coq Require Import Qcanon ZifyBool ZifyNat.
Open Scope Z_scope.
Import ListNotations.

Definition y_file : list Z := bs "%PDF-1.4
1 0 obj <</Pages 2 0 R>> endobj
2 0 obj <</Type/Pages/Kids[3 0 R]>> endobj
3 0 obj <</Type/Page/MediaBox[1 1 9 9]/Resources<</XObject<</I 5 0 R>>>>/Contents 4 0 R>> endobj
4 0 obj <<>>stream
1 w 0 G q 2 0 0 2 1 1 cm 0 0 2 3 re S/I Do Q 1 1 m 3 1 l S
endstream
endobj
5 0 obj <</Subtype/Image/Width 1/Height 1>>stream
abc
endstream
endobj
trailer <</Root 1 0 R>>
".
Definition y1 := e [("Pages"%string, ORef 2)].
Definition y2 := e [("Type"%string, ON "Pages"); ("Kids"%string, OArr [ORef 3])].
Definition y3 := e [("Type"%string, ON "Page"); ("MediaBox"%string, OArr [OInt 1; OInt 1; OInt 9; OInt 9]); ("Resources"%string, e [("XObject"%string, e [("I"%string, ORef 5)])]); ("Contents"%string, ORef 4)].
Definition s4 := bs "1 w 0 G q 2 0 0 2 1 1 cm 0 0 2 3 re S/I Do Q 1 1 m 3 1 l S" ++ [10].
Definition d4 : list (obj * obj) := [].
Definition s5 := bs "abc" ++ [10].
Definition d5 : list (obj * obj) := [(ON "Subtype", ON "Image"); (ON "Width", OInt 1); (ON "Height", OInt 1)].
Definition y_hits : list hit := [(1, InUse 9 0, y1); (2, InUse 41 0, y2); (3, InUse 84 0, y3); (4, InUse 181 0, OStream d4 s4); (5, InUse 276 0, OStream d5 s5)].
Definition y_getobj (i : Z) : option obj := if i =? 1 then Some y1 else if i =? 2 then Some y2 else if i =? 3 then Some y3 else if i =? 4 then Some (OStream d4 s4) else if i =? 5 then Some (OStream d5 s5) else None.
Section file.
  Variable decode : list (obj * obj) -> list Z -> res (list Z).
  Lemma y_contents : Fallback_Spec.Contents decode 0 y_file y_hits [(ON "Root", ORef 1)].
  Proof.
    change y_file with ((bs "%PDF-1.4" ++ [10]) ++
      bs "1 0 obj <</Pages 2 0 R>> " ++ bs "endobj" ++ (@nil Z ++ [10]) ++
      bs "2 0 obj <</Type/Pages/Kids[3 0 R]>> " ++ bs "endobj" ++ (@nil Z ++ [10]) ++
      bs "3 0 obj <</Type/Page/MediaBox[1 1 9 9]/Resources<</XObject<</I 5 0 R>>>>/Contents 4 0 R>> " ++ bs "endobj" ++ (@nil Z ++ [10]) ++
      bs "4 0 obj <<>>" ++ (bs "stream" ++ [10] ++ s4 ++ bs "endstream" ++ [10] ++ bs "endobj") ++ (@nil Z ++ [10]) ++
      bs "5 0 obj <</Subtype/Image/Width 1/Height 1>>" ++ (bs "stream" ++ [10] ++ s5 ++ bs "endstream" ++ [10] ++ bs "endobj") ++ (@nil Z ++ [10]) ++
      bs "trailer <</Root 1 0 R>>" ++ [10]).
    assert (HL : forall p l rest h d, l = bs "%PDF-1.4" \/ l = [] -> Fallback_Spec.Contents decode (p + Z.of_nat (length (l ++ [10]))) rest h d -> Fallback_Spec.Contents decode p ((l ++ [10]) ++ rest) h d).
    { intros p l rest h d Hl HC. apply Ct_line; [apply Line_lf|destruct Hl; subst l; discriminate| |exact HC].
      - destruct Hl; subst l; apply no_eol_ok; reflexivity.
      - destruct Hl; subst l; apply boring_ok; reflexivity. }
    unfold y_hits. apply HL; [left; reflexivity|].
    apply (Ct_object _ _ 1 0 y1).
    { exists [(17, KW "<<"); (19, TLit (bs "Pages")); (26, TInt 2); (28, TInt 0); (30, KW "R"); (31, KW ">>")], 9, 11, 13, true, (bs "1 0 obj <</Pages 2 0 R>> endobj" ++ [10]). splits.
      - cbn [app]. int_tok (@nil Z) (bs "1"). int_tok [32] (bs "0"). kw_tok [32] (bs "obj"). dopen_tok [32]. name_tok (@nil Z) (bs "Pages"). int_tok [32] (bs "2"). int_tok [32] (bs "0"). kw_tok [32] (bs "R"). dclose_tok (@nil Z). lay_end.
      - written.
      - eapply first_line_ok; reflexivity.
      - apply announces_ok. reflexivity. }
    { apply boundary_ok. reflexivity. }
    apply HL; [right; reflexivity|].
    apply (Ct_object _ _ 2 0 y2).
    { exists [(49, KW "<<"); (51, TLit (bs "Type")); (56, TLit (bs "Pages")); (62, TLit (bs "Kids")); (67, KW "["); (68, TInt 3); (70, TInt 0); (72, KW "R"); (73, KW "]"); (74, KW ">>")], 41, 43, 45, true, (bs "2 0 obj <</Type/Pages/Kids[3 0 R]>> endobj" ++ [10]). splits.
      - cbn [app]. int_tok (@nil Z) (bs "2"). int_tok [32] (bs "0"). kw_tok [32] (bs "obj"). dopen_tok [32]. name_tok (@nil Z) (bs "Type"). name_tok (@nil Z) (bs "Pages"). name_tok (@nil Z) (bs "Kids"). aopen_tok (@nil Z). int_tok (@nil Z) (bs "3"). int_tok [32] (bs "0"). kw_tok [32] (bs "R"). aclose_tok (@nil Z). dclose_tok (@nil Z). lay_end.
      - written.
      - eapply first_line_ok; reflexivity.
      - apply announces_ok. reflexivity. }
    { apply boundary_ok. reflexivity. }
    apply HL; [right; reflexivity|].
    apply (Ct_object _ _ 3 0 y3).
    { exists [(92, KW "<<"); (94, TLit (bs "Type")); (99, TLit (bs "Page")); (104, TLit (bs "MediaBox")); (113, KW "["); (114, TInt 1); (116, TInt 1); (118, TInt 9); (120, TInt 9); (121, KW "]"); (122, TLit (bs "Resources")); (132, KW "<<"); (134, TLit (bs "XObject")); (142, KW "<<"); (144, TLit (bs "I")); (147, TInt 5); (149, TInt 0); (151, KW "R"); (152, KW ">>"); (154, KW ">>"); (156, TLit (bs "Contents")); (166, TInt 4); (168, TInt 0); (170, KW "R"); (171, KW ">>")], 84, 86, 88, true, (bs "3 0 obj <</Type/Page/MediaBox[1 1 9 9]/Resources<</XObject<</I 5 0 R>>>>/Contents 4 0 R>> endobj" ++ [10]). splits.
      - cbn [app]. int_tok (@nil Z) (bs "3"). int_tok [32] (bs "0"). kw_tok [32] (bs "obj"). dopen_tok [32]. name_tok (@nil Z) (bs "Type"). name_tok (@nil Z) (bs "Page"). name_tok (@nil Z) (bs "MediaBox"). aopen_tok (@nil Z). int_tok (@nil Z) (bs "1"). int_tok [32] (bs "1"). int_tok [32] (bs "9"). int_tok [32] (bs "9"). aclose_tok (@nil Z). name_tok (@nil Z) (bs "Resources"). dopen_tok (@nil Z). name_tok (@nil Z) (bs "XObject"). dopen_tok (@nil Z). name_tok (@nil Z) (bs "I"). int_tok [32] (bs "5"). int_tok [32] (bs "0"). kw_tok [32] (bs "R"). dclose_tok (@nil Z). dclose_tok (@nil Z). name_tok (@nil Z) (bs "Contents"). int_tok [32] (bs "4"). int_tok [32] (bs "0"). kw_tok [32] (bs "R"). dclose_tok (@nil Z). lay_end.
      - written.
      - eapply first_line_ok; reflexivity.
      - apply announces_ok. reflexivity. }
    { apply boundary_ok. reflexivity. }
    apply HL; [right; reflexivity|].
    apply (Ct_stream _ _ 4 0 d4 s4).
    { exists [(189, KW "<<"); (191, KW ">>")], 181, 183, 185, true, (bs "4 0 obj <<>>stream" ++ [10]). splits.
      - cbn [app]. int_tok (@nil Z) (bs "4"). int_tok [32] (bs "0"). kw_tok [32] (bs "obj"). dopen_tok [32]. dclose_tok (@nil Z). lay_end.
      - apply (W_dict true true [] []); constructor.
      - eapply first_line_ok; reflexivity.
      - apply announces_ok. reflexivity. }
    { exists [10], [10]. splits; [reflexivity|left; reflexivity|apply sep_ok; reflexivity|discriminate|apply first_ok; reflexivity|].
      eapply (finished []). reflexivity. }
    { apply boundary_ok. reflexivity. }
    { discriminate. }
    apply HL; [right; reflexivity|].
    apply (Ct_stream _ _ 5 0 d5 s5).
    { exists [(284, KW "<<"); (286, TLit (bs "Subtype")); (294, TLit (bs "Image")); (300, TLit (bs "Width")); (307, TInt 1); (308, TLit (bs "Height")); (316, TInt 1); (317, KW ">>")], 276, 278, 280, true, (bs "5 0 obj <</Subtype/Image/Width 1/Height 1>>stream" ++ [10]). splits.
      - cbn [app]. int_tok (@nil Z) (bs "5"). int_tok [32] (bs "0"). kw_tok [32] (bs "obj"). dopen_tok [32]. name_tok (@nil Z) (bs "Subtype"). name_tok (@nil Z) (bs "Image"). name_tok (@nil Z) (bs "Width"). int_tok [32] (bs "1"). name_tok (@nil Z) (bs "Height"). int_tok [32] (bs "1"). dclose_tok (@nil Z). lay_end.
      - change (ODict d5) with (e [("Subtype"%string, ON "Image"); ("Width"%string, OInt 1); ("Height"%string, OInt 1)]). written.
      - eapply first_line_ok; reflexivity.
      - apply announces_ok. reflexivity. }
    { exists [10], [10]. splits; [reflexivity|left; reflexivity|apply sep_ok; reflexivity|discriminate|apply first_ok; reflexivity|].
      eapply (finished []). reflexivity. }
    { apply boundary_ok. reflexivity. }
    { discriminate. }
    apply HL; [right; reflexivity|].
    apply Ct_trailer. eexists [(_, KW "<<"); (_, TLit (bs "Root")); (_, TInt 1); (_, TInt 0); (_, KW "R"); (_, KW ">>")], _, (bs "trailer <</Root 1 0 R>>" ++ [10]). splits.
    - eapply (first_line_ok _ []); reflexivity.
    - exists (bs " <</Root 1 0 R>>" ++ [10]). reflexivity.
    - apply (W_dict true true [(bs "Root", ORef 1)] [TLit (bs "Root"); TInt 1; TInt 0; KW "R"]); [repeat constructor; cbn; tauto|].
      apply (WE_cons true true (bs "Root") (ORef 1) [] [TInt 1; TInt 0; KW "R"] []); repeat constructor.
    - right. exists true. kw_tok (@nil Z) (bs "trailer"). dopen_tok [32]. name_tok (@nil Z) (bs "Root"). int_tok [32] (bs "1"). int_tok [32] (bs "0").
      kw_tok [32] (bs "R"). dclose_tok (@nil Z). lay_end.
  Qed.
  Lemma y_objects : HasObjects decode y_file y_getobj [[(ON "Root", ORef 1)]].
  Proof.
    apply (HO_found _ _ _ y_hits); [|exact y_contents|].
    - intros a b H. assert (E : forallb (fun i => negb (prefixb (bs "startxref") (skipn i y_file))) (seq 0 (length y_file)) = true) by (vm_compute; reflexivity).
      rewrite forallb_forall in E. specialize (E (length a)). cbv beta in E.
      replace (skipn (length a) y_file) with (bs "startxref" ++ b) in E by (rewrite H, skipn_app, skipn_all, Nat.sub_diag; reflexivity).
      rewrite prefixb_app in E. discriminate E. apply in_seq. rewrite H, !app_length. cbn [length bs]. lia.
    - intros id H0. unfold y_getobj.
      assert (R : forall a h c, y_hits = a ++ h :: c -> forallb (fun x => negb (fst (fst x) =? fst (fst h))) c = true ->
        (exists off gen, snd (fst h) = InUse off gen) -> Recovered decode y_hits (fst (fst h)) (snd h)).
      { intros a [[i en] o] c E F (off & gen & Eh). cbn [fst snd] in *. subst en. apply Rc_direct with off gen. exists a, c. split; [exact E|].
        apply Forall_forall. intros x Hx. rewrite forallb_forall in F. specialize (F x Hx). lia. }
      repeat match goal with |- context [id =? ?k] => destruct (Z.eqb_spec id k) as [->|] end.
      + refine (R [] (_, _, _) _ _ _ _); [reflexivity|reflexivity|repeat eexists].
      + refine (R [_] (_, _, _) _ _ _ _); [reflexivity|reflexivity|repeat eexists].
      + refine (R [_; _] (_, _, _) _ _ _ _); [reflexivity|reflexivity|repeat eexists].
      + refine (R [_; _; _] (_, _, _) _ _ _ _); [reflexivity|reflexivity|repeat eexists].
      + refine (R [_; _; _; _] (_, _, _) _ _ _ _); [reflexivity|reflexivity|repeat eexists].
      + unfold NoHit, y_hits. repeat (apply Forall_cons; [cbn [fst]; congruence|]). apply Forall_nil.
  Qed.
End file.
Definition y_objs : list obj := [OInt 1; OK "w"; OInt 0; OK "G"; OK "q"; OInt 2; OInt 0; OInt 0; OInt 2; OInt 1; OInt 1; OK "cm"; OInt 0; OInt 0; OInt 2; OInt 3; OK "re"; OK "S"; ON "I"; OK "Do"; OK "Q"; OInt 1; OInt 1; OK "m"; OInt 3; OInt 1; OK "l"; OK "S"].
Definition y_toks : list token := [TInt 1; KW "w"; TInt 0; KW "G"; KW "q"; TInt 2; TInt 0; TInt 0; TInt 2; TInt 1; TInt 1; KW "cm"; TInt 0; TInt 0; TInt 2; TInt 3; KW "re"; KW "S"; TLit (bs "I"); KW "Do"; KW "Q"; TInt 1; TInt 1; KW "m"; TInt 3; TInt 1; KW "l"; KW "S"].
Section pages.
  Variables (zlib : list Z -> option (list Z)) (ccitt : list Z -> obj -> res (list Z)).
  Lemma y_tokens : Tokens zlib ccitt y_getobj [OStream [] s4] y_objs.
  Proof.
    exists [s4]. splits; [discriminate| |apply (page_of_streams [s4] [y_toks])].
    - constructor; [|constructor]. eexists. split; [apply Leads_stop; discriminate|].
      eexists _, _, []. splits; [reflexivity|apply D_none; reflexivity|constructor].
    - constructor; [|constructor]. eexists. split; [unfold s4; cbn [bs app]|].
      { int_tok (@nil Z) (bs "1"). kw_tok [32] (bs "w"). int_tok [32] (bs "0"). kw_tok [32] (bs "G"). kw_tok [32] (bs "q"). int_tok [32] (bs "2"). int_tok [32] (bs "0"). int_tok [32] (bs "0"). int_tok [32] (bs "2"). int_tok [32] (bs "1"). int_tok [32] (bs "1"). kw_tok [32] (bs "cm"). int_tok [32] (bs "0"). int_tok [32] (bs "0"). int_tok [32] (bs "2"). int_tok [32] (bs "3"). kw_tok [32] (bs "re"). kw_tok [32] (bs "S"). name_tok (@nil Z) (bs "I"). kw_tok [32] (bs "Do"). kw_tok [32] (bs "Q"). int_tok [32] (bs "1"). int_tok [32] (bs "1"). kw_tok [32] (bs "m"). int_tok [32] (bs "3"). int_tok [32] (bs "1"). kw_tok [32] (bs "l"). kw_tok [32] (bs "S"). lay_end. }
      reflexivity.
    - unfold y_toks, y_objs. cbn [concat app]. apply (In_operand (OInt 1) [TInt 1]); [constructor|]. instr_op. apply (In_operand (OInt 0) [TInt 0]); [constructor|]. instr_op. instr_op. apply (In_operand (OInt 2) [TInt 2]); [constructor|]. apply (In_operand (OInt 0) [TInt 0]); [constructor|]. apply (In_operand (OInt 0) [TInt 0]); [constructor|]. apply (In_operand (OInt 2) [TInt 2]); [constructor|]. apply (In_operand (OInt 1) [TInt 1]); [constructor|]. apply (In_operand (OInt 1) [TInt 1]); [constructor|]. instr_op. apply (In_operand (OInt 0) [TInt 0]); [constructor|]. apply (In_operand (OInt 0) [TInt 0]); [constructor|]. apply (In_operand (OInt 2) [TInt 2]); [constructor|]. apply (In_operand (OInt 3) [TInt 3]); [constructor|]. instr_op. instr_op. apply (In_operand (ON "I") [TLit (bs "I")]); [constructor|]. instr_op. instr_op. apply (In_operand (OInt 1) [TInt 1]); [constructor|]. apply (In_operand (OInt 1) [TInt 1]); [constructor|]. instr_op. apply (In_operand (OInt 3) [TInt 3]); [constructor|]. apply (In_operand (OInt 1) [TInt 1]); [constructor|]. instr_op. instr_op. instr_op.
  Qed.
  Ltac plain n ks args := apply (Total_Spec.sh_plain _ _ _ _ _ _ _ n ks args); [cbn [In plain_ops]; tauto|repeat (constructor; [left; eexists; reflexivity|]); constructor|].
  Definition y_res : obj := e [("XObject"%string, e [("I"%string, ORef 5)])].
  Lemma y_draws : Extract_Spec.Draws zlib ccitt (fun _ => None) x_bases x_metrics (fun _ => None) (fun _ _ => None) y_getobj 1 false y_res [OStream [] s4] [].
  Proof.
    cbn [Extract_Spec.Draws Total_Spec.Draws]. eexists _, [], [(ON "I", ORef 5)], [], y_objs. split; [splits|split].
    - apply Leads_stop; discriminate.
    - apply w_named; [reflexivity|repeat (apply Forall_cons; [eexists; reflexivity|]); apply Forall_nil].
    - left. split; reflexivity.
    - apply w_named; [reflexivity|apply Forall_nil].
    - right. eexists. split; [reflexivity|apply Leads_stop; discriminate].
    - apply w_named; [reflexivity|repeat (apply Forall_cons; [eexists; reflexivity|]); apply Forall_nil].
    - left. split; reflexivity.
    - apply w_named; [reflexivity|apply Forall_nil].
    - intros o [=].
    - constructor.
    - constructor.
    - apply y_tokens.
    - unfold y_objs. plain "w"%string N1 [OInt 1]. plain "G"%string N1 [OInt 0]. apply Total_Spec.sh_q. plain "cm"%string N6 [OInt 2; OInt 0; OInt 0; OInt 2; OInt 1; OInt 1].
      plain "re"%string N4 [OInt 0; OInt 0; OInt 2; OInt 3]. plain "S"%string (@nil kind) (@nil obj).
      apply (Total_Spec.sh_Do _ _ _ _ _ _ (bs "I") []).
      { exists (ORef 5), d5, s5. splits; [reflexivity|eapply Leads_ref; [reflexivity|apply Leads_stop; discriminate]|left; split; reflexivity]. }
      apply Total_Spec.sh_Q. plain "m"%string N2 [OInt 1; OInt 1]. plain "l"%string N2 [OInt 3; OInt 1]. plain "S"%string (@nil kind) (@nil obj). constructor.
  Qed.
  Definition y_base := on_page 0 (qz 1) (qz 1) (qz 9) (qz 9).
  Definition y_pen := mkPen (Some (gray (OInt 0))) None (Some (OInt 1)).
  Definition y_T : list coefs := [(qz 2, qz 0, qz 0, qz 2, qz 1, qz 1)].
  Definition y_out : list drawn :=
    [DPath [SMove (qz 0, qz 0); SLine (qz 0 + qz 2, qz 0)%Qc; SLine (qz 0 + qz 2, qz 0 + qz 3)%Qc; SLine (qz 0, qz 0 + qz 3)%Qc; SClose] false y_T y_pen;
     DImage (OStream d5 s5) y_T;
     DPath [SMove (qz 1, qz 1); SLine (qz 3, qz 1)] false [] y_pen].
  Definition y_images (n : list Z) : option obj := if list_eqb n (bs "I") then Some (OStream d5 s5) else None.
  Ltac qnum := apply Qc_is_canon; vm_compute; reflexivity.
  Ltac quiet_tok := apply Shape_Spec.sh_tok; [intros (k & Ek & H); try discriminate Ek; revert H; cbn; intuition discriminate|].
  Lemma y_shapes : Shapes y_base y_images (fun _ => False) [] pen0 [] [] y_objs y_out.
  Proof.
    unfold y_objs. apply (Shape_Spec.sh_w _ _ _ _ _ _ _ (OInt 1)); [discriminate|]. apply (Shape_Spec.sh_G _ _ _ _ _ _ _ (OInt 0)); [discriminate|]. apply Shape_Spec.sh_q.
    eapply (Shape_Spec.sh_cm _ _ _ _ _ _ [OInt 2; OInt 0; OInt 0; OInt 2; OInt 1; OInt 1]); [repeat constructor|].
    eapply (Shape_Spec.sh_re _ _ _ _ _ _ _ [OInt 0; OInt 0; OInt 2; OInt 3]); [repeat constructor|].
    apply Shape_Spec.sh_paint; [left; reflexivity| |].
    { intros (p0 & p1 & p2 & p3 & E & _ & H). injection E as <- <- <- <-. apply H. splits; qnum. }
    apply (Shape_Spec.sh_image _ _ _ _ _ _ _ (bs "I")); [reflexivity| |].
    { intros p Hp. cbn in Hp. destruct Hp as [<-|[<-|[<-|[<-|[]]]]]; unfold inside; splits; vm_compute; discriminate. }
    apply Shape_Spec.sh_Q.
    eapply (Shape_Spec.sh_m _ _ _ _ _ _ _ (OInt 1) (OInt 1)); [repeat constructor|]. eapply (Shape_Spec.sh_l _ _ _ _ _ _ _ (OInt 3) (OInt 1)); [repeat constructor|].
    apply Shape_Spec.sh_paint; [left; reflexivity| |apply Shape_Spec.sh_nil].
    intros (p0 & p1 & p2 & p3 & E & _). discriminate E.
  Qed.
  Definition plainb (o : obj) : bool := match o with ORef i => match y_getobj i with Some (ORef _) | None => false | _ => true end | _ => true end.
  Lemma y_attr path : forallb (forallb (fun kv => plainb (snd kv))) path = true -> forall k o, attr path k = Some o -> exists v, Leads y_getobj ONull o v.
  Proof.
    intros H k. induction path as [|d path IH]; [discriminate|]. cbn [forallb] in H. apply andb_prop in H as [H1 H2]. specialize (IH H2). cbn [attr].
    intros o E. destruct (dict_get d (OName k)) as [v|] eqn:D; [|destruct (Inheritable k); [exact (IH o E)|discriminate]]. injection E as ->. clear IH H2.
    induction d as [|[k' v'] d IH]; [discriminate|]. cbn [forallb snd] in H1. apply andb_prop in H1 as [H0 H1]. cbn [dict_get] in D.
    destruct (key_eqb k' (OName k)); [|exact (IH H1 D)]. injection D as ->. unfold plainb in H0. destruct o; try (eexists; apply Leads_stop; discriminate).
    destruct (y_getobj _) as [w0|] eqn:G; [|discriminate]. exists w0. eapply Leads_ref; [exact G|]. destruct w0; try discriminate H0; apply Leads_stop; discriminate.
  Qed.
  Definition y_tree : ptree := PNode 2 [(ON "Type", ON "Pages"); (ON "Kids", OArr [ORef 3])]
      [PLeaf 3 [(ON "Type", ON "Page"); (ON "MediaBox", OArr [OInt 1; OInt 1; OInt 9; OInt 9]); (ON "Resources", y_res); (ON "Contents", ORef 4)]].
  Lemma y_has : FileHas y_getobj (stored_data zlib ccitt) y_file y_tree.
  Proof.
    exists [[(ON "Root", ORef 1)]], [(ON "Pages", ORef 2)], []. splits.
    - reflexivity.
    - apply y_objects.
    - eapply Plain_root; [reflexivity|reflexivity| |].
      + eexists. split; [eapply St_ref; [split; [discriminate|reflexivity]|apply St_direct; discriminate]|reflexivity].
      + apply Info_none. reflexivity.
    - reflexivity.
    - exact x_catalog.
    - eapply S_node; [reflexivity|reflexivity|reflexivity|apply Leads_stop; discriminate|]. constructor; [apply S_leaf; reflexivity|constructor].
    - repeat (apply Forall_cons; [split; [discriminate|apply y_attr; reflexivity]|]). apply Forall_nil.
  Qed.
  Ltac pv := unfold Page_Spec.Value; cbn; first [eapply Leads_ref; [reflexivity|]; apply Leads_stop; discriminate | apply Leads_stop; discriminate | reflexivity].
  Example C103_hypotheses : FileDrawn zlib ccitt (fun _ => None) x_bases x_metrics (fun _ => None) (fun _ _ => None) y_getobj (stored_data zlib ccitt) y_file [] 0 false
    [([], (y_base, y_out))].
  Proof.
    exists y_tree. eexists. splits.
    - apply y_has.
    - left. split; reflexivity.
    - discriminate.
    - constructor; [|constructor]. split.
      + exists 1%nat, [OInt 1; OInt 1; OInt 9; OInt 9]. eexists _, (OStream [] s4). splits; [pv| |pv|pv|exact y_draws].
        split; [reflexivity|repeat constructor; eexists; reflexivity].
      + exists [OInt 1; OInt 1; OInt 9; OInt 9], (qz 1), (qz 1), (qz 9), (qz 9), 0, 0. eexists _, _, [(ON "I", ORef 5)], [], y_images, (fun _ => False), (OStream [] s4), y_objs. splits.
        * pv.
        * repeat constructor.
        * pv.
        * reflexivity.
        * reflexivity.
        * pv.
        * apply Leads_stop; discriminate.
        * right. eexists. split; [reflexivity|apply Leads_stop; discriminate].
        * intros n st. unfold y_images. destruct (list_eqb n (bs "I")) eqn:E; [|discriminate]. apply list_eqb_eq in E. subst n. intros X. injection X as <-.
          exists (ORef 5), d5, s5, (OInt 1), (OInt 1). splits; try reflexivity. eapply Leads_ref; [reflexivity|apply Leads_stop; discriminate].
        * intros n [].
        * left. split; reflexivity.
        * intros n _. reflexivity.
        * pv.
        * apply y_tokens.
        * apply y_shapes.
  Qed.
End pages.

(* Refuted: where the page sets no line width and no colour, those of the PDF defaults (1, black in DeviceGray: PDF Reference 1.7, tables
   4.2 and 4.12) are given.  The items carry the width 0 and colours without components. *)
Theorem C103_defaults_refuted :
  match prep_state (fun _ => None) 5 (fun _ => Err KeyError) matrix_identity (ODict []) false with
  | Ok s => match run (fun _ => None) 5 (fun _ => Err KeyError) (fun s _ => (([], None), s)) s [OInt 0; OInt 0; OK "m"; OInt 1; OInt 0; OK "l"; OK "S"] with
            | (([ICurve _ width _ _ stroke fill _], None), _) => Some (width, c_vals stroke, c_vals fill)
            | _ => None
            end
  | Err _ => None
  end = Some (OInt 0, [], []).
Proof. vm_compute. reflexivity. Qed.
