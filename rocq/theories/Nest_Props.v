(* C107: the characters of forms stand where the page and the forms say. *)
From Coq Require Import String.
From Verif Require Import Base Lex_Model Lex_Spec Lines_Model Lines_Spec Markup_Spec Obj Stack_Model Stack_Spec Content_Model Content_Spec Stream_Model Stream_Spec Stream_Props XRef_Model XRef_Spec XRef_Proofs
  Doc_Model Doc_Spec Doc_Proofs Doc_Props Num Geom_Model Page_Model Page_Spec Page_Proofs Page_Props Interp_Model Interp_Spec Interp_Proofs Interp_Props CMap_Model CMap_Spec CMap_Proofs Font_Model Font_Spec Font_Proofs Font_Props
  Sec_Model Open_Model Open_Spec Open_Props Fallback_Model Fallback_Spec Fallback_Proofs Fallback_Props Sections_Spec Sections_Props Convert_Model Convert_Spec TextFile_Props
  Names_Props Total_Spec Total_Props Instr_Spec Instr_Props Multi_Spec Multi_Props FontTotal_Spec FontTotal_Props Extract_Model Extract_Spec Extract_Proofs Extract_Props
  State_Spec State_Props Forms_Props Place_Spec Place_Props Measure_Spec Measure_Props PlaceFile_Spec PlaceFile_Props Shape_Props Nest_Spec.
From Coq Require Import Qcanon ZifyBool ZifyNat.
Open Scope Z_scope.
Import ListNotations.

(* ---------- the calls of a content ---------- *)
Section calls.
Context (getobj : Z -> option obj) (depth : nat) (mkfont : obj -> res font) (nested : istate -> list obj -> gen item * istate).
Notation step := (step getobj depth).
Notation exec := (exec getobj depth).
Notation run := (run getobj depth mkfont nested).
Definition not_form (p : pending) : Prop := match p with PItem (IXObj _ _ _) | PXObj _ _ _ _ => False | _ => True end.
Definition call_op (c : op) : bool := match c with o_q | o_Q | o_cm | o_Do => true | _ => false end.
Definition still (s s1 : istate) : Prop :=
  s_ctm s1 = s_ctm s /\ s_gstack s1 = s_gstack s /\ s_xobjs s1 = s_xobjs s /\ s_resources s1 = s_resources s /\
  exists extra, s_done s1 = s_done s ++ extra /\ Forall not_form extra.
Lemma still_same s s1 : s_ctm s1 = s_ctm s -> s_gstack s1 = s_gstack s -> s_xobjs s1 = s_xobjs s -> s_resources s1 = s_resources s -> s_done s1 = s_done s -> still s s1.
Proof. intros. unfold still. splits; try assumption. exists []. rewrite app_nil_r. split; [assumption|constructor]. Qed.
Ltac st := apply still_same; reflexivity.
Lemma still_done s p : not_form p -> still s (with_done s (s_done s ++ [p])).
Proof. intros H. unfold still. splits; try reflexivity. exists [p]. split; [reflexivity|constructor; [exact H|constructor]]. Qed.
Lemma still_paint s eo p : still s (paint s eo p).
Proof.
  unfold still, paint. splits; try reflexivity. eexists. split; [reflexivity|constructor; [|constructor]].
  destruct (make_curve_spec (s_ctm s) (s_g s) eo p) as [(k & w & b & c1 & c2 & ->)|[-> _]]; exact Logic.I.
Qed.
Lemma EI_not_form ctm o p : item_EI ctm o = Ok (Some p) -> not_form p.
Proof. unfold item_EI. destruct o; try discriminate; destruct (dget _ _); try discriminate; destruct (dget _ _); try discriminate. intros [= <-]. exact Logic.I. Qed.
Lemma exec_still c args s : call_op c = false -> still s (fst (exec c args s)).
Proof.
  intros H. destruct c; try discriminate; unfold Interp_Model.exec, with_num, device, nextline, fresh_lm, move_text, ok, fail;
    try (destruct args as [|? [|? [|? [|]]]]; try (solve [st]));
    try solve [brk; st];
    try solve [destruct (nums _) as [v|]; [|st]; brk; st];
    try solve [apply still_paint];
    try solve [match goal with |- context [show ?s ?q] => destruct (show_frame s q) as (?lm & ?b & [->| ->]); st end].
  all: try solve [unfold still; splits; try reflexivity; eexists; split; [reflexivity|constructor; [destruct (s_block s); exact Logic.I|constructor]]].
  all: try solve [brk; try solve [st]; match goal with |- context [show ?s ?q] => destruct (show_frame s q) as (?lm & ?b & [->| ->]); st end].
  - destruct (g_scs (s_g s)) as [cs|]; [|st]. destruct (cs_n cs); try (solve [st]). pose proof (pop_other s z) as P. destruct (pop s z) as [v s1]. destruct P as (k & -> & _). st.
  - destruct (g_ncs (s_g s)) as [cs|]; [|st]. destruct (cs_n cs); try (solve [st]). pose proof (pop_other s z) as P. destruct (pop s z) as [v s1]. destruct P as (k & -> & _). st.
  - unfold add_item. destruct (item_EI (s_ctm s) o) as [[q|]|e] eqn:E; try solve [st]. apply still_done. eapply EI_not_form. exact E.
Qed.
Lemma step_still s o s1 : ~ among o call_words -> step s o = (s1, None) -> still s s1.
Proof.
  intros Ho E. destruct (step_cases getobj depth s o) as [(k & args & b & Hk & c & C1 & C2)|[(b & C1)|(b & k & Hk & C1)]].
  - rewrite C2 in E. subst o. destruct (call_op c) eqn:Es.
    + exfalso. apply Ho. apply (not_among_ops _ k c C1). destruct c; try discriminate; vm_compute; reflexivity.
    + pose proof (exec_still c args (with_args s b) Es) as K. rewrite E in K. exact K.
  - rewrite C1 in E. injection E as <-. st.
  - rewrite C1 in E. discriminate.
Qed.
Lemma form_items_app a b : form_items (a ++ b) = form_items a ++ form_items b.
Proof. apply flat_map_app. Qed.
Lemma finish_no_form g p i : not_form p -> finish getobj depth mkfont nested g p = (i, None) -> form_items i = [].
Proof. destruct p as [it|strm box r ctm]; cbn [finish not_form]; [destruct it; intros H; [injection 1 as <-..]; try reflexivity; destruct H|intros []]. Qed.
Lemma gflat_no_form g l i : Forall not_form l -> gflat (finish getobj depth mkfont nested g) l = (i, None) -> form_items i = [].
Proof.
  intros H. revert i. induction H as [|p l Hp _ IH]; intros i; cbn [gflat]; [injection 1 as <-; reflexivity|].
  destruct (finish _ _ _ _ _ p) as [i1 [e|]] eqn:E; [discriminate|]. cbn [gapp snd fst]. destruct (gflat _ l) as [i2 e2]. cbn [fst snd] in *. intros [= <- ->].
  rewrite form_items_app, (finish_no_form _ _ _ Hp E), (IH i2 eq_refl). reflexivity.
Qed.
Lemma Do_item xo ctm pg n it : item_Do getobj depth xo ctm pg (OName n) = Ok (Some (PItem it)) -> not_form (PItem it).
Proof.
  unfold item_Do. cbn [hashable negb]. destruct (assoc_get xo (OName n)) as [x|]; [|discriminate]. destruct (validated_stream getobj depth x) as [st|]; cbn [bind]; [|discriminate].
  cbv zeta. generalize (match dget (sattrs st) "Subtype" with Some (OName st0) => list_eqb st0 (bs "Form") | _ => false end) as b1.
  generalize (match dget (sattrs st) "Subtype" with Some (OName st0) => list_eqb st0 (bs "Image") | _ => false end) as b2. intros b2 b1 H.
  assert (G : match b2, dget (sattrs st) "Width", dget (sattrs st) "Height" with true, Some _, Some _ => Ok (Some (PItem (make_image st ctm))) | _, _, _ => Ok None end = Ok (Some (PItem it)) -> not_form (PItem it)).
  { destruct b2, (dget (sattrs st) "Width"), (dget (sattrs st) "Height"); try discriminate. intros X. injection X as <-. exact Logic.I. }
  destruct b1; [|exact (G H)]. destruct (dget (sattrs st) "BBox") as [bb|]; [|exact (G H)].
  destruct (list_value getobj depth bb) as [b|]; cbn [bind] in H; [|discriminate H].
  destruct (form_matrix getobj depth _) as [m|]; cbn [bind] in H; [|discriminate H]. destruct (form_resources getobj depth _ _) as [rr|]; cbn [bind] in H; [|discriminate H].
  destruct (nums b) as [v|]; [|discriminate H]. unfold make_xobject in H. destruct v as [|v1 [|v2 [|v3 [|v4 [|]]]]]; cbn [bind] in H; discriminate H.
Qed.
Section main.
Context (base : num * num -> num * num) (xobjs : list (obj * obj)) (res : obj).
(* what became of a call: a form with these items, or nothing of the kind *)
Definition Called (c : list Z * list coefs) (ko : option (list item)) : Prop :=
  exists ctm, is_trans ctm base (snd c) /\
    match ko with
    | Some kids => exists strm box r m g s1 xs, item_Do getobj depth xobjs ctm res (OName (fst c)) = Ok (Some (PXObj strm box r m)) /\
        prep_state getobj depth mkfont m r false = Ok xs /\ nested (with_g xs g) [strm] = ((kids, None), s1)
    | None => exists po, item_Do getobj depth xobjs ctm res (OName (fst c)) = Ok po /\ match po with Some p => not_form p | None => True end
    end.
Definition some {A} (o : option A) : list A := match o with Some x => [x] | None => [] end.
Record Cs (s : istate) (T : list coefs) (S : list (list coefs)) : Prop := mkCs {
  c_T : is_trans (s_ctm s) base T;
  c_S : Forall2 (fun x y => is_trans (fst (fst x)) base y) (rev (s_gstack s)) S;
  c_d : s_done s = [];
  c_x : s_xobjs s = xobjs;
  c_r : s_resources s = res }.
Ltac kws := repeat (constructor; [first [eapply num_not_kwd; eassumption|assumption]|]); constructor.
Ltac kws' := repeat (constructor; [intros ?; discriminate|]); constructor.
Ltac quiet R A n a c args :=
  apply (run_instr_inv getobj depth mkfont nested n a c _ args) in R as (s1 & E1 & E2); try reflexivity; try assumption; try exact (c_d _ _ _ A); try (kws; fail).
Lemma calls_run T S l calls : Calls T S l calls -> forall s items s', Cs s T S -> run s l = ((items, None), s') ->
  exists kos, Forall2 Called calls kos /\ form_items items = flat_map some kos.
Proof.
  induction 1 as [T S|T S o l out Ho _ IH|T S xs a b c d e f l out Hx _ IH|T S l out _ IH|T T1 S l out _ IH|T S n l out _ IH]; intros s items s' A R.
  - cbn [Interp_Model.run] in R. injection R as <- <-. exists []. split; [constructor|reflexivity].
  - apply run_cons in R as (s1 & i1 & i2 & E1 & E2 & E3 & ->). destruct (step_still s o s1 Ho E1) as (U1 & U2 & U3 & U4 & extra & U5 & U6).
    rewrite (c_d _ _ _ A) in U5. cbn [app] in U5. rewrite U5 in E2. rewrite form_items_app, (gflat_no_form _ _ _ U6 E2). cbn [app]. eapply IH; [|exact E3].
    destruct A as [A1 A2 A3 A4 A5]. constructor; cbn [s_ctm s_gstack s_done s_xobjs s_resources with_done]; rewrite ?U1, ?U2, ?U3, ?U4; try assumption. reflexivity.
  - destruct (forall2_nums _ _ Hx) as (N1 & N2 & N3). quiet R A "cm"%string 6%nat o_cm xs.
    cbn [Interp_Model.exec] in E1. unfold with_num in E1. rewrite N1 in E1. injection E1 as <-. eapply IH; [|exact (E2 (c_d _ _ _ A))].
    destruct A as [A1 A2 A3 A4 A5]. constructor; try assumption. apply trans_cm. exact A1.
  - quiet R A "q"%string 0%nat o_q (@nil obj). injection E1 as <-. eapply IH; [|exact (E2 (c_d _ _ _ A))].
    destruct A as [A1 A2 A3 A4 A5]. constructor; try assumption. cbn [s_gstack with_gstack]. rewrite rev_app_distr. cbn [rev app]. constructor; assumption.
  - quiet R A "Q"%string 0%nat o_Q (@nil obj). destruct A as [A1 A2 A3 A4 A5]. cbn [Interp_Model.exec] in E1.
    destruct (rev (s_gstack s)) as [|[[m t] g] st] eqn:Eg; [inversion A2|]. inversion A2 as [|? ? ? ? S1 S3]; subst. injection E1 as <-. eapply IH; [|exact (E2 A3)]. constructor; try assumption; try reflexivity.
    cbn [s_gstack with_gstack with_ctm with_text]. rewrite rev_involutive. exact S3.
  - rewrite (run_push getobj depth mkfont nested [OName n] ltac:(kws') s _ (c_d _ _ _ A)) in R. apply run_cons in R as (s1 & i1 & i2 & E1 & E2 & E3 & ->).
    rewrite (step_op getobj depth "Do" 1 o_Do s (s_args s) [OName n] eq_refl eq_refl eq_refl) in E1. replace (with_args s (s_args s)) with s in E1 by (destruct s; reflexivity).
    cbn [Interp_Model.exec] in E1. unfold add_item in E1.
    destruct (item_Do getobj depth (s_xobjs s) (s_ctm s) (s_resources s) (OName n)) as [[q|]|e] eqn:EDo; [| |discriminate]; injection E1 as <-.
    + cbn [s_done with_done s_g] in E2. rewrite (c_d _ _ _ A) in E2. cbn [app] in E2.
      destruct (IH (with_done s []) i2 s') as (kos & K1 & K2); [destruct A; constructor; try assumption; reflexivity|exact E3|].
      rewrite (c_x _ _ _ A), (c_r _ _ _ A) in EDo. destruct q as [it|strm box r m].
      * exists (None :: kos). split; [constructor; [|exact K1]|].
        -- exists (s_ctm s). split; [exact (c_T _ _ _ A)|]. exists (Some (PItem it)). split; [exact EDo|exact (Do_item _ _ _ _ _ EDo)].
        -- rewrite form_items_app, K2. assert (Y : Forall not_form [PItem it]) by (constructor; [exact (Do_item _ _ _ _ _ EDo)|constructor]). rewrite (gflat_no_form _ _ _ Y E2). reflexivity.
      * cbn [gflat finish] in E2. destruct (prep_state getobj depth mkfont m r false) as [xs|] eqn:EP; [|discriminate E2].
        destruct (nested (with_g xs (s_g s)) [strm]) as [[kids [e|]] s2] eqn:EN; [discriminate E2|]. cbn [snd fst gapp] in E2. injection E2 as <-.
        exists (Some kids :: kos). split; [constructor; [|exact K1]|].
        -- exists (s_ctm s). split; [exact (c_T _ _ _ A)|]. exists strm, box, r, m, (s_g s), s2, xs. splits; assumption.
        -- cbn. f_equal. exact K2.
    + rewrite (c_d _ _ _ A) in E2. injection E2 as <-. destruct (IH (with_done s []) i2 s') as (kos & K1 & K2); [destruct A; constructor; try assumption; reflexivity|exact E3|].
      exists (None :: kos). split; [constructor; [|exact K1]|exact K2]. rewrite (c_x _ _ _ A), (c_r _ _ _ A) in EDo. exists (s_ctm s). split; [exact (c_T _ _ _ A)|]. exists None. split; [exact EDo|exact Logic.I].
Qed.
End main.
End calls.
(* ---------- it depends only on what getobj gives ---------- *)
Section same.
  Context (g h : Z -> option obj) (Hgh : forall i, g i = h i).
  Context (zlib : list Z -> option (list Z)) (ccitt : list Z -> obj -> res (list Z)).
  Context (glyphs : list Z -> option (list Z)) (bases : list umap) (metrics : list Z -> option (list (obj * obj) * list (list Z * num)))
          (load_cmap : list Z -> option (bool * list (Z * trie))) (load_umap : list Z -> bool -> option umap).
  Context (allowed : coefs -> Prop).
  Lemma form_matrix_same fd F : FormMatrix g fd F -> FormMatrix h fd F.
  Proof.
    intros [H|(m & ml & a & b & c & d & e & f & E & L & N & X)]; [left; exact H|right]. exists m, ml, a, b, c, d, e, f. splits; try assumption. eapply leads_same; eassumption.
  Qed.
  Lemma forms_same xs r (P P' : obj -> list obj -> list coefs -> tree -> Prop) calls ts : (forall fr st T t, P fr st T t -> P' fr st T t) -> FormsDrawn g allowed xs r P calls ts -> FormsDrawn h allowed xs r P' calls ts.
  Proof.
    intros HP. induction 1 as [|n T calls x fd data F fr t ts H1 H2 H3 H4 H5 H6 H7 H8 _ IH|n T calls x fd data ts H1 H2 H3 _ IH].
    - constructor.
    - eapply fd_form; try eassumption; [eapply leads_same; eassumption|apply form_matrix_same; exact H5|eapply own_same; eassumption|apply HP; exact H8].
    - eapply fd_image; try eassumption. eapply leads_same; eassumption.
  Qed.
  Lemma nest_same k : forall base lenient r st T t, Nested zlib ccitt glyphs bases metrics load_cmap load_umap g allowed k base lenient r st T t ->
    Nested zlib ccitt glyphs bases metrics load_cmap load_umap h allowed k base lenient r st T t.
  Proof.
    induction k as [|k IH]; intros base lenient r st T t; [exact (fun x => x)|]. cbn [Nested].
    intros (texts & forms & d & fs & xs & fonts & objs & calls & E & L & Nd & C & Nf & Cx & Nx & HF & HT & PL & CA & FD).
    exists texts, forms, d, fs, xs, fonts, objs, calls. splits; try assumption.
    - eapply leads_same; eassumption.
    - eapply category_same; eassumption.
    - eapply category_same; eassumption.
    - intros n f Hf. destruct (HF n f Hf) as (x & E1 & M). exists x. split; [exact E1|eapply measured_same; eassumption].
    - eapply tokens_same; eassumption.
    - refine (forms_same xs r _ _ _ _ _ FD). intros fr st' T' t'. apply IH.
  Qed.
  Lemma page_nested_same lenient path p : PageNested zlib ccitt glyphs bases metrics load_cmap load_umap g allowed lenient path p -> PageNested zlib ccitt glyphs bases metrics load_cmap load_umap h allowed lenient path p.
  Proof.
    intros (mb & x0 & y0 & x1 & y1 & r & k & res & c & dp & V1 & N & E & V2 & K & V3 & V4 & H).
    exists mb, x0, y0, x1, y1, r, k, res, c, dp. splits; try (eapply pvalue_same; eassumption); try assumption. apply nest_same, H.
  Qed.
End same.

(* ---------- a content and its forms ---------- *)
Lemma do_form getobj depth xobjs xs n x fd data page fr ctm r : (forall m, assoc_get xobjs (OName m) = dict_get xs (OName m)) ->
  dict_get xs (OName n) = Some x -> Leads getobj ONull x (OStream fd data) -> dict_get fd (ON "Subtype") = Some (ON "Form") -> dict_get fd (ON "BBox") <> None ->
  own_resources getobj page fd fr -> item_Do getobj depth xobjs ctm page (OName n) = Ok r -> exists box, r = Some (PXObj (OStream fd data) box fr ctm).
Proof.
  intros HX E1 Ld E2 E3 E4. unfold item_Do. cbn [hashable negb]. rewrite HX, E1. unfold validated_stream.
  destruct (resolved getobj depth x) as [o|] eqn:Eo; cbn [bind]; [|discriminate]. pose proof (resolved_leads getobj _ _ _ _ Ld Eo) as ->. cbn [sattrs]. cbv zeta. unfold dget. rewrite E2. unfold ON at 1.
  change (list_eqb (bs "Form") (bs "Form")) with true. cbv iota. destruct (dict_get fd (ON "BBox")) as [bb|]; [|congruence].
  destruct (list_value getobj depth bb) as [b|]; cbn [bind]; [|discriminate]. destruct (form_matrix getobj depth _) as [m|]; cbn [bind]; [|discriminate].
  destruct (form_resources getobj depth page _) as [rr|] eqn:ER; cbn [bind]; [|discriminate].
  assert (rr = fr) as ->.
  { unfold form_resources in ER. destruct E4 as [[Ed ->]|[[Ed ->]|(o & rd & Ed & Hne & Lr & ->)]]; rewrite Ed in ER.
    - congruence.
    - cbn in ER. congruence.
    - destruct (truthy o) eqn:Et.
      + destruct (Page_Model.dict_value getobj depth o) as [l|] eqn:El; cbn [bind] in ER; [|discriminate]. pose proof (dict_value_leads getobj _ _ _ _ Lr El) as ->. congruence.
      + exfalso. inversion Lr; subst; try discriminate. destruct rd; [congruence|discriminate]. }
  destruct (nums b) as [v|]; [|discriminate]. unfold make_xobject. destruct v as [|v1 [|v2 [|v3 [|v4 [|]]]]]; cbn [bind]; try discriminate. intros [= <-]. eexists. reflexivity.
Qed.
Lemma do_image_no getobj depth xobjs xs n x fd data page ctm p : (forall m, assoc_get xobjs (OName m) = dict_get xs (OName m)) ->
  dict_get xs (OName n) = Some x -> Leads getobj ONull x (OStream fd data) -> dict_get fd (ON "Subtype") = Some (ON "Image") ->
  item_Do getobj depth xobjs ctm page (OName n) = Ok (Some p) -> exists it, p = PItem it.
Proof.
  intros HX E1 Ld E2. unfold item_Do. cbn [hashable negb]. rewrite HX, E1. unfold validated_stream.
  destruct (resolved getobj depth x) as [o|] eqn:Eo; cbn [bind]; [|discriminate]. pose proof (resolved_leads getobj _ _ _ _ Ld Eo) as ->. cbn [sattrs]. cbv zeta. unfold dget. rewrite E2. unfold ON at 1 2.
  change (list_eqb (bs "Image") (bs "Form")) with false. change (list_eqb (bs "Image") (bs "Image")) with true. cbv iota.
  destruct (dict_get fd (ON "Width")), (dict_get fd (ON "Height")); try discriminate. intros [= <-]. eexists. reflexivity.
Qed.
Lemma through_unit T p : through (unit_matrix :: T) p = through T p.
Proof.
  assert (E : act unit_matrix p = p); [|unfold through; cbn [fold_left]; rewrite E; reflexivity].
  destruct p as [x y]. unfold act, unit_matrix. change (qz 1) with 1%Qc. change (qz 0) with 0%Qc. cbn [fst snd]. f_equal; ring.
Qed.
Section page.
  Context (zlib : list Z -> option (list Z)) (ccitt : list Z -> obj -> res (list Z)).
  Context (glyphs : list Z -> option (list Z)) (bases : list umap) (metrics : list Z -> option (dict * list (list Z * num)))
          (load_cmap : list Z -> option (bool * list (Z * trie))) (load_umap : list Z -> bool -> option umap).
  Context (n : nat) (Hn : (0 < n)%nat) (h : Z -> option obj).
  Notation doc_font := (doc_font zlib ccitt glyphs bases metrics load_cmap load_umap n h).
  Notation content := (content zlib ccitt n h).
  Definition plain (F : coefs) : Prop := F = unit_matrix.
  Notation Nested := (Nested zlib ccitt glyphs bases metrics load_cmap load_umap h plain).
  (* running the streams with the resources r gives t *)
  Definition gives (base : num * num -> num * num) (lenient : bool) (r : obj) (streams : list obj) (T : list coefs) (t : tree) (m : nat) : Prop :=
    forall d ctm s0 g fuel its s1, (m <= d)%nat -> prep_state h d (doc_font d) ctm r lenient = Ok s0 -> is_trans ctm base T ->
      process h d (doc_font d) (content d) fuel (with_g s0 g) streams = ((its, None), s1) -> Holds its t.
  Lemma forms_lemma base (P : obj -> list obj -> list coefs -> tree -> Prop) xs r calls ts :
    (forall fr st T t, P fr st T t -> exists m, gives base false fr st T t m) -> FormsDrawn h plain xs r P calls ts ->
    exists m, forall d xobjs fuel kos, (m <= d)%nat -> (forall nm, assoc_get xobjs (OName nm) = dict_get xs (OName nm)) ->
      Forall2 (Called h d (doc_font d) (process h d (doc_font d) (content d) fuel) base xobjs r) calls kos -> Forall2 Holds (flat_map some kos) ts.
  Proof.
    intros HP. induction 1 as [|nm T calls x fd data F fr t ts H1 H2 H3 H4 H5 H6 H7 H8 _ (m & IH)|nm T calls x fd data ts H1 H2 H3 _ (m & IH)].
    - exists O. intros d xobjs fuel kos _ _ HC. inversion HC; subst. constructor.
    - destruct (HP _ _ _ _ H8) as (m1 & HG). exists (m + m1)%nat. intros d xobjs fuel kos Hd HX HC. inversion HC as [|? ko ? kos' (ctm & HT & HK) HC']; subst. cbn [fst snd] in *.
      specialize (IH d xobjs fuel kos' ltac:(lia) HX HC'). destruct ko as [kids|].
      + destruct HK as (strm & box & rr & m2 & g & s1 & xst & EDo & EP & EN). destruct (do_form _ _ _ _ _ _ _ _ _ _ _ _ HX H1 H2 H3 H4 H7 EDo) as (box' & E). injection E as -> -> -> ->.
        cbn [flat_map some app]. constructor; [|exact IH]. eapply HG; [|exact EP| |exact EN]; [lia|]. intros p. rewrite H6, through_unit. apply HT.
      + destruct HK as (po & EDo & Hpo). destruct (do_form _ _ _ _ _ _ _ _ _ _ _ _ HX H1 H2 H3 H4 H7 EDo) as (box' & ->). destruct Hpo.
    - exists m. intros d xobjs fuel kos Hd HX HC. inversion HC as [|? ko ? kos' (ctm & HT & HK) HC']; subst. cbn [fst snd] in *. specialize (IH d xobjs fuel kos' Hd HX HC'). destruct ko as [kids|]; [|exact IH].
      destruct HK as (strm & box & rr & m2 & g & s1 & xst & EDo & _). destruct (do_image_no _ _ _ _ _ _ _ _ _ _ _ HX H1 H2 H3 EDo) as (it & E). discriminate E.
  Qed.
  Lemma nest_lemma k : forall base lenient r streams T t, Nested k base lenient r streams T t -> exists m, gives base lenient r streams T t m.
  Proof.
    induction k as [|k IH]; intros base lenient r streams T t; [intros []|]. cbn [Nest_Spec.Nested].
    intros (texts & forms & d0 & fs & xs & fonts & objs & calls & -> & L & Nd & C & Nf & Cx & Nx & HF & HT & PL & CA & FD).
    destruct (fonts_uniform zlib ccitt glyphs bases metrics load_cmap load_umap n Hn h fs fonts HF) as (m1 & U). destruct (tokens_lemma zlib ccitt glyphs metrics load_cmap load_umap n Hn h _ _ HT) as (m2 & HTk).
    destruct (forms_lemma base _ xs r calls forms (fun fr st T' t' H => IH base false fr st T' t' H) FD) as (m3 & HFo).
    exists (m1 + m2 + m3)%nat. intros d ctm s0 g fuel its s1 Hd EP HTr EX. destruct fuel as [|fuel]; [discriminate EX|]. cbn [process] in EX. rewrite HTk in EX by lia.
    destruct (run h d (doc_font d) _ (with_g s0 g) objs) as [[its1 e1] s2] eqn:ERun. destruct e1; [discriminate EX|]. injection EX as -> ->.
    destruct (prep_resources h d (doc_font d) _ _ _ _ _ _ _ EP L Nd C Nf Cx Nx) as [RF RX].
    destruct (C66_form_start h d (doc_font d) _ _ _ _ EP) as (P1 & P2 & P3 & P4 & P5 & P6 & P7 & P8 & P9).
    constructor.
    - set (fonts' := fun nm => match fonts nm with Some _ => assoc_get (s_fonts s0) (OName nm) | None => None end).
      assert (PL' : Places lenient fonts' base T par0 [] None objs texts).
      { refine (placed_as lenient fonts fonts' base base _ _ _ _ _ _ _ _ PL par0 [] _ _).
        - intros nm f Hf. destruct (U d ltac:(lia) nm f Hf) as (x & f' & Ex & Ef & A). exists f'. split; [|exact A]. unfold fonts'. rewrite Hf, RF. unfold font_of. rewrite Ex. unfold font_at. rewrite Ef. reflexivity.
        - reflexivity.
        - unfold par_as, par0. cbn. splits; reflexivity || exact Logic.I.
        - constructor. }
      eapply (C94_run h d (doc_font d)); [exact PL'| |exact ERun]. constructor; cbn [s_fonts s_ctm s_text s_gstack s_done with_g].
      + intros nm f. unfold fonts'. destruct (fonts nm); [exact (fun x => x)|discriminate].
      + rewrite P1. exact HTr.
      + unfold is_pars. rewrite P8. cbn. splits; reflexivity.
      + rewrite P3. constructor.
      + rewrite P8, P3. split; [reflexivity|constructor].
      + exact P6.
      + exact P7.
    - destruct (calls_run h d (doc_font d) (process h d (doc_font d) (content d) fuel) base (s_xobjs s0) r T [] objs calls CA (with_g s0 g) its s1) as (kos & K1 & ->); [|exact ERun|eapply HFo; [|exact RX|exact K1]; lia].
      constructor; cbn [s_ctm s_gstack s_done s_xobjs s_resources with_g]; [rewrite P1; exact HTr|rewrite P3; constructor|exact P6|reflexivity|exact P2].
  Qed.
  Lemma nest_page_lemma lenient lp p ts q : PageOf h lp p -> PageShows zlib ccitt glyphs bases metrics load_cmap load_umap h lenient (snd lp) ts ->
    PageNested zlib ccitt glyphs bases metrics load_cmap load_umap h plain lenient (snd lp) q ->
    exists m, forall d i w hh items, (m <= d)%nat -> interpret_page zlib ccitt glyphs bases metrics load_cmap load_umap n h d lenient (i, p) = Ok (Convert_Model.mkPage i w hh (items, None)) ->
      (w, hh) = fst q /\ Holds items (snd q).
  Proof.
    intros (_ & _ & VR & (o & EM & LM) & _ & (rt & VRt & ERt) & (c & VC & EC)) _ (mb & x0 & y0 & x1 & y1 & r & k & res & c2 & dp & V1 & N & E & V2 & K & V3 & V4 & H).
    assert (one : forall path kk dflt v v', Page_Spec.Value h path kk dflt v -> Page_Spec.Value h path kk dflt v' -> v = v').
    { intros path k1 dflt v v'. unfold Page_Spec.Value. destruct (attr path k1); [apply leads_one|congruence]. }
    pose proof (one _ _ _ _ _ VR V3) as ER. rewrite (one _ _ _ _ _ VC V4) in EC. pose proof (one _ _ _ _ _ VRt V2) as ->.
    assert (EB : pg_mediabox p = OArr mb) by (unfold Page_Spec.Value in V1; rewrite EM in V1; eapply leads_one; eassumption). clear one.
    destruct (nest_lemma _ _ _ _ _ _ _ H) as (m & HG). exists m. intros d i w hh items Hd. unfold interpret_page, media_box. rewrite EB.
    destruct (forall2_nums _ _ N) as (Nu & _ & Len). destruct mb as [|b1 [|b2 [|b3 [|b4 [|? ?]]]]]; try discriminate Len. cbn [bind]. rewrite Nu. cbn [bind].
    rewrite ER, ERt, K. destruct (prep_state h d (doc_font d) (page_ctm (90 * k) x0 y0 x1 y1) res lenient) as [s0|] eqn:EP; cbn [bind]; [|discriminate].
    unfold page_size. intros X. injection X as X1 X2 X3. destruct q as [[qw qh] out]. cbn [fst snd] in *. injection E as -> ->. split; [congruence|].
    rewrite EC in X3. destruct (process h d (doc_font d) (content d) d s0 _) as [[its e1] s1] eqn:EX. cbn [fst] in X3. injection X3 as -> ->.
    eapply (HG d _ s0 (s_g s0)); [exact Hd|exact EP| |replace (with_g s0 (s_g s0)) with s0 by (destruct s0; reflexivity); exact EX].
    intros [x y]. rewrite ctm_image by (pose proof (Z.mod_pos_bound r 360 ltac:(lia)); lia). reflexivity.
  Qed.
End page.

(* ---------- the file ---------- *)
Section main.
  Context (zlib : list Z -> option (list Z)) (ccitt : list Z -> obj -> res (list Z)).
  Context (md5 sha256 : list Z -> list Z) (aes : list Z -> list Z -> list Z -> res (list Z)).
  Context (glyphs : list Z -> option (list Z)) (bases : list umap) (metrics : list Z -> option (dict * list (list Z * num)))
          (load_cmap : list Z -> option (bool * list (Z * trie))) (load_umap : list Z -> bool -> option umap).
  Notation interpret := (interpret zlib ccitt glyphs bases metrics load_cmap load_umap).
  Notation pages_of := (pages_of zlib ccitt md5 sha256 aes glyphs bases metrics load_cmap load_umap).
  Notation PageShows := (PageShows zlib ccitt glyphs bases metrics load_cmap load_umap).
  Notation PageNested := (PageNested zlib ccitt glyphs bases metrics load_cmap load_umap).
  (* a page of the output, and what it should be *)
  Definition page_holds (p : opage) (q : list (list Z) * nested_page) : Prop :=
    (pg_width p, pg_height p) = fst (snd q) /\ exists items, pg_items p = (items, None) /\ Reads items (fst q) /\ Holds items (snd (snd q)).
  Lemma nested_pages n (Hn : (0 < n)%nat) h lenient chosen pages spec : Forall2 (PageOf h) chosen pages ->
    Forall2 (fun lp q => PageShows h lenient (snd lp) (fst q) /\ PageNested h plain lenient (snd lp) (snd q)) chosen spec -> chosen <> [] ->
    exists m, forall d, (m <= d)%nat -> exists ps, interpret n h d lenient (pages, None) = (ps, None) /\
      map pg_num ps = map Z.of_nat (seq 0 (length spec)) /\ Forall2 page_holds ps spec.
  Proof.
    intros HP HS Hne.
    assert (G : exists m, forall d, (m <= d)%nat -> forall i, exists ps, gmap_list (interpret_page zlib ccitt glyphs bases metrics load_cmap load_umap n h d lenient) (number (Z.of_nat i) pages) = (ps, None) /\
      map pg_num ps = map Z.of_nat (seq i (length spec)) /\ Forall2 page_holds ps spec).
    { clear Hne. revert spec HS. induction HP as [|lp p chosen pages Hp _ IH]; intros spec HS; inversion HS as [|? q ? spec' [Hs1 Hs2] HS']; subst.
      - exists O. intros d _ i. exists []. splits; [reflexivity|reflexivity|constructor].
      - destruct (IH _ HS') as (m1 & H1). destruct (page_lemma zlib ccitt glyphs bases metrics load_cmap load_umap n Hn h _ _ _ _ Hp Hs1) as (m2 & H2).
        destruct (nest_page_lemma zlib ccitt glyphs bases metrics load_cmap load_umap n Hn h _ _ _ _ _ Hp Hs1 Hs2) as (m3 & H3). exists (m1 + m2 + m3)%nat. intros d Hd i.
        destruct (H1 d ltac:(lia) (S i)) as (ps & E1 & E2 & E3). destruct (H2 d (Z.of_nat i) ltac:(lia)) as (w & hh & items & E4 & R).
        destruct (H3 d (Z.of_nat i) w hh items ltac:(lia) E4) as [E5 E6].
        exists (Convert_Model.mkPage (Z.of_nat i) w hh (items, None) :: ps). cbn [number gmap_list]. rewrite E4.
        replace (Z.of_nat i + 1) with (Z.of_nat (S i)) by lia. rewrite E1. splits; [reflexivity|cbn [map length seq pg_num]; rewrite E2; reflexivity|].
        constructor; [|exact E3]. split; [exact E5|]. exists items. splits; [reflexivity|exact R|exact E6]. }
    destruct G as (m & G). exists m. intros d Hd. destruct (G d Hd 0%nat) as (ps & E1 & E2 & E3). exists ps. split; [|split; assumption].
    unfold Extract_Model.interpret, gmap. cbn [fst snd]. change (Z.of_nat 0) with 0 in E1. rewrite E1. unfold gapp. cbn [fst snd]. rewrite app_nil_r.
    destruct ps as [|p ps]; [|reflexivity]. inversion E3; subst. inversion HS; subst. contradiction.
  Qed.
  (* C107. A file, not encrypted, whose chosen pages are said to show certain texts and, content by content (the page, the forms it draws,
     the forms these draw, and so on), characters at certain places, every form with the identity as its matrix: interpreting it, with or
     without caching and the check for permission, whatever the password, gives these pages, numbered from 0, of the size of their media box;
     they read these texts, and hold the forms drawn, in order, nested as the file nests them, each with the characters of its own text
     objects, with the text and the box that the file says: the position in the form, mapped by the transformations at the place where it is drawn. *)
  Theorem C107_file_partial e caching check password pagenos maxpages lenient getobj spec : (0 < bufsiz e)%nat -> (forall o, (forall i, o <> ORef i) -> resolve e o = o) ->
    FileNested zlib ccitt glyphs bases metrics load_cmap load_umap getobj (fun F => F = unit_matrix) (stored_data zlib ccitt) (file e) pagenos maxpages lenient spec ->
    exists n1, forall F, (n1 <= F)%nat -> exists n2, forall f, (n2 <= f)%nat -> exists ps,
      pages_of e caching check password pagenos maxpages lenient F f = (ps, None) /\ map pg_num ps = map Z.of_nat (seq 0 (length spec)) /\ Forall2 page_holds ps spec.
  Proof.
    intros Hb Hres (t & chosen & HF & HCh & Hne & HS).
    assert (Hl : leaves [] t <> []) by (intros E; rewrite E in HCh; apply Hne; destruct HCh as [(_ & ->)|(_ & _ & ->)]; [reflexivity|apply firstn_nil]).
    destruct (pages_of_file zlib ccitt md5 sha256 aes glyphs bases metrics load_cmap load_umap e caching check password pagenos maxpages lenient getobj t chosen Hb Hres HF Hl HCh) as (n1 & HP).
    exists n1. intros F HF1. destruct (HP F HF1) as (h & cp & p & Hh & FC & EX). clear HP.
    assert (HS' : Forall2 (fun lp q => PageShows h lenient (snd lp) (fst q) /\ PageNested h plain lenient (snd lp) (snd q)) chosen spec).
    { clear -HS Hh. induction HS as [|lp q ls qs [H1 H2] _ IH]; constructor; [|exact IH]. split; [eapply shows_same; eassumption|eapply page_nested_same; eassumption]. }
    destruct (nested_pages (bufsiz e) Hb h lenient chosen cp spec FC HS' Hne) as (m & HQ). exists (p + m)%nat. intros f Hf.
    destruct (HQ f ltac:(lia)) as (ps & EI & EN & FR). exists ps. split; [|split; assumption]. rewrite EX by lia. exact EI.
  Qed.
End main.
