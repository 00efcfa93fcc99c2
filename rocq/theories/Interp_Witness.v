(* Concrete content streams: they meet the hypotheses of the theorems of Interp_Props.v, and show where the interpreter
   departs from the PDF Reference. *)
From Coq Require Import String.
From Verif Require Import Base Obj Stream_Model Num Geom_Model Page_Model Interp_Model Interp_Spec Interp_Proofs Text_Proofs Interp_Props.
From Coq Require Import Qcanon.
Open Scope Z_scope.

Definition go (s : istate) (l : list obj) : cmd := steps (fun _ => None) 1 s l.
Definition I := OInt.
(* a font of 500/1000 em wide characters, one byte each, undefined above 127 *)
Definition font1 : font := mkFont (fun b => Ok b) (fun c => if c <=? 127 then Some [c] else None) (fun _ => half) (fun _ => (None, qz 0))
  false false (qz 1) (qz 1) (qz 0).
Definition s_f : istate := with_fonts s0 [(ON "F1", font1)].
Definition q4 (b : bbox) : list Qc := [bx0 b; by0 b; bx1 b; by1 b].
(* values are compared up to the proofs inside Qc *)
Lemma runs s l : snd (go s l) = None -> go s l = (fst (go s l), None).
Proof. destruct (go s l) as [s' e]. cbn. intros ->. reflexivity. Qed.
Lemma pt_eq (a b c d : Qc) : qeqb a c && qeqb b d = true -> (a, b) = (c, d).
Proof. intros H. apply andb_prop in H as [H1 H2]. apply qeqb_iff in H1, H2. congruence. Qed.
Lemma pt_eq_ p (c d : Qc) : qeqb (fst p) c && qeqb (snd p) d = true -> p = (c, d).
Proof. destruct p. apply pt_eq. Qed.
Definition mx_eqb (m n : matrix) : bool :=
  let '(a, b, c, d, e, f) := m in let '(a', b', c', d', e', f') := n in
  qeqb a a' && qeqb b b' && qeqb c c' && qeqb d d' && qeqb e e' && qeqb f f'.
Lemma mx_eq (m n : matrix) : mx_eqb m n = true -> m = n.
Proof.
  destruct m as [[[[[a b] c] d] e] f], n as [[[[[a' b'] c'] d'] e'] f']. unfold mx_eqb. intros H.
  repeat (apply andb_prop in H as [H ?]). repeat match goal with H : qeqb _ _ = true |- _ => apply qeqb_iff in H; subst end. reflexivity.
Qed.
Ltac vm := vm_compute; reflexivity.
Ltac ptv := match goal with |- ?x = (?a, ?b) => apply (pt_eq_ x a b) end; vm.
Ltac mxv := match goal with |- ?x = ?y => apply (mx_eq x y) end; vm.
Ltac notkw := intros ? ?; discriminate.
Ltac notin := intros (n & H & E); vm_compute in H; repeat (destruct H as [<-|H]; [discriminate E|]); destruct H.

(* ---- C36 ---- *)
Lemma C36_exact_operands_witness : In ("re"%string, 4%nat) operand_count /\ length [I 1; I 2; I 3; I 4] = 4%nat.
Proof. split; [vm_compute; tauto|reflexivity]. Qed.
Lemma C36_too_few_witness : (length (s_args (with_args s0 [I 1; I 2])) < 4)%nat /\
  snd (go (with_args s0 [I 1; I 2]) [OK "re"]) = Some CommandProcessorError.
Proof. split; [cbn; lia|vm_compute; reflexivity]. Qed.
Lemma C36_unknown_witness : ~ known (bs "sh") /\ (forall n, In n alias_names -> bs "sh" <> bs n).
Proof.
  split.
  - intros [(n & H & E)|(n & H & E)]; vm_compute in H; repeat (destruct H as [<-|H]; [discriminate E|]); destruct H.
  - intros n H E. vm_compute in H; repeat (destruct H as [<-|H]; [discriminate E|]); destruct H.
Qed.
(* Two deviations.  The colour operators SC, SCN, sc and scn do not report missing operands, and they take as many operands
   as the space declares. *)
Lemma C36_colour_too_few_accepted :
  let s := with_args (with_g s0 (g_with_scs g0 (Some (mkCs (ON "DeviceRGB") (OInt 3))))) [I 1] in
  exists s', go s [OK "SC"] = (s', None) /\ c_vals (g_scolor (s_g s')) = [I 1].
Proof. eexists. split; [apply runs; vm|vm]. Qed.
(* The names under which the asterisk and quote operators are registered are accepted as operators: T_a is T-star. *)
Lemma C36_alias_accepted : go (with_text s0 (t_with_leading t0 (qz (-12)))) [OK "T_a"] = go (with_text s0 (t_with_leading t0 (qz (-12)))) [OK "T*"] /\
  go s0 [OK "T_a"] <> (s0, None).
Proof.
  split; [reflexivity|]. intros H. apply (f_equal (fun c => length (s_heap (fst c)))) in H. vm_compute in H. discriminate.
Qed.

(* ---- C37 ---- *)
Definition prog1 : list obj := [I 2; I 0; I 0; I 2; I 10; I 20; OK "cm"; OK "q"; I 5; OK "Tc"; OK "Q"; OK "BT"; I 9; I 9; OK "Td"; OK "ET"].
Lemma page_ok o : match o with OKwd k => negb (existsb (fun n => list_eqb k (bs n)) ["q"; "Q"; "BT"; "ET"; "Tj"; "TJ"; "'"; """"]%string) | _ => true end = true ->
  ~ among o ["q"; "Q"; "BT"; "ET"; "Tj"; "TJ"; "'"; """"]%string.
Proof.
  intros H (n & Hn & ->). unfold OK in H. apply negb_true_iff in H. rewrite (proj2 (existsb_exists _ _)) in H; [discriminate|].
  exists n. split; [assumption|]. apply list_eqb_eq. reflexivity.
Qed.
Lemma C37_witness : page_level prog1 /\ balanced prog1 /\ Forall (fun o => ~ among o ["_q"; "_w"]%string) prog1 /\
  exists s', go s_f (OK "q" :: prog1 ++ [OK "Q"]) = (s', None).
Proof.
  assert (P : page_level prog1).
  { unfold prog1. do 7 (apply pl_tok; [apply page_ok; reflexivity|]).
    apply (pl_save [I 5; OK "Tc"]).
    - do 2 (apply pl_tok; [apply page_ok; reflexivity|]). apply pl_nil.
    - apply (pl_text [I 9; I 9; OK "Td"]); [|apply pl_nil]. repeat constructor; notin. }
  split; [assumption|]. split; [apply page_level_balanced; assumption|]. split; [repeat constructor; notin|].
  eexists. apply runs. vm.
Qed.
(* q 5 w Q: the line width is not restored; it was 0 *)
Lemma C37_width_not_restored : exists s', go s0 [OK "q"; I 5; OK "w"; OK "Q"] = (s', None) /\ g_width (s_g s') = I 5 /\ g_width (s_g s0) = I 0.
Proof. eexists. split; [apply runs; vm|split; vm]. Qed.
(* BT q (ab) Tj Q: the position in the line is shared with the saved state, so it is not restored *)
Lemma C37_position_not_restored : exists s s', go s_f [OK "BT"; ON "F1"; I 10; OK "Tf"] = (s, None) /\
  go s [OK "q"; OStr (bs "ab"); OK "Tj"; OK "Q"] = (s', None) /\ line_pos s = (qz 0, qz 0) /\ line_pos s' = (qz 10, qz 0).
Proof.
  eexists. eexists. split; [apply runs; vm|]. split; [apply runs; vm|]. split; ptv.
Qed.

(* ---- C38 ---- *)
(* 14 TL 0 0 Td (a) ' 100 -20 TD T* *)
Definition prog2 : list obj := [I 14; OK "TL"] ++ [I 0; I 0; OK "Td"] ++ [OStr (bs "a"); OK "'"] ++ [I 100; I (-20); OK "TD"] ++ [OK "T*"].
Lemma C38_history_witness : (exists L', Lines (qz 0) prog2 (qz 100, qz (-54)) L') /\
  exists s s', go s_f [OK "BT"; ON "F1"; I 10; OK "Tf"] = (s, None) /\ t_leading (s_text s) = (- qz 0)%Qc /\ go s prog2 = (s', None) /\
    t_matrix (s_text s') = (qz 1, qz 0, qz 0, qz 1, qz 100, qz (-54)).
Proof.
  split.
  - eexists. replace (qz 100, qz (-54)) with ((qz 0 + (qz 100 + qz 0))%Qc, (qz 0 + (- qz 14 + (qz (-20) + (- (- qz (-20)) + qz 0))))%Qc) by (apply pt_eq; vm).
    apply li_TL with (a := qz 14); [reflexivity|]. apply (li_Td _ _ _ (qz 0) (qz 0)); [reflexivity|reflexivity|].
    apply li_quote; [discriminate|]. apply (li_TD _ _ _ (qz 100) (qz (-20))); [reflexivity|reflexivity|]. apply li_next. apply li_nil.
  - eexists. eexists. split; [apply runs; vm|]. split; [apply qeqb_iff; vm|]. split; [apply runs; vm|]. mxv.
Qed.
(* the double-quote operator must go to the next line first; it does not *)
Lemma C38_dquote_stays : exists s s' s'', go s_f [OK "BT"; ON "F1"; I 10; OK "Tf"; I 14; OK "TL"] = (s, None) /\
  go s [I 0; I 0; OStr (bs "a"); OK """"] = (s', None) /\ go s [OStr (bs "a"); OK "'"] = (s'', None) /\
  t_matrix (s_text s') = (qz 1, qz 0, qz 0, qz 1, qz 0, qz 0) /\ t_matrix (s_text s'') = (qz 1, qz 0, qz 0, qz 1, qz 0, qz (-14)).
Proof. do 3 eexists. split; [apply runs; vm|]. split; [apply runs; vm|]. split; [apply runs; vm|]. split; mxv. Qed.

(* ---- C39 ---- *)
Definition goi (s : istate) (l : list obj) := run (fun _ => None) 1 (fun _ => Err MissingFont) (fun s _ => (gfail OutOfFuel, s)) s l.
Definition items_of (c : gen item * istate) : list item := fst (fst c).
Lemma runsi s l : snd (fst (goi s l)) = None -> goi s l = ((items_of (goi s l), None), snd (goi s l)).
Proof. unfold items_of. destruct (goi s l) as [[i e] s']. cbn. intros ->. reflexivity. Qed.
Definition prog3 : list obj :=
  [I 1; I 2; OK "m"] ++ [I 3; I 4; OK "l"] ++ OK "S" :: [I 0; I 0; I 5; I 6; OK "re"] ++ OK "f*" :: [I 0; I 0; OK "m"] ++ OK "n" :: [].
Lemma C39_witness : exists out p, Paints [] prog3 out p /\ length out = 2%nat /\ exists items s', goi s0 prog3 = ((items, None), s') /\ length items = 2%nat.
Proof.
  eexists. eexists. split.
  - unfold prog3. eapply pa_m; [reflexivity|reflexivity|]. eapply pa_l; [reflexivity|reflexivity|]. apply pa_paint; [left; reflexivity|].
    eapply pa_re; [reflexivity|reflexivity|reflexivity|reflexivity|]. apply pa_paint_eo; [left; reflexivity|].
    eapply pa_m; [reflexivity|reflexivity|]. apply pa_n. apply pa_nil.
  - split; [reflexivity|]. eexists. eexists. split; [apply runsi; vm|vm].
Qed.
(* under a rotation by 45 degrees (scaled), a rectangle comes out as None *)
Lemma C39_rotated_rect_lost : exists s', goi s0 [I 1; I 1; I (-1); I 1; I 0; I 0; OK "cm"; I 0; I 0; I 5; I 6; OK "re"; OK "f"] = (([INone], None), s').
Proof. eexists. rewrite runsi by vm. apply (f_equal2 pair); [|reflexivity]. apply (f_equal2 pair); [|reflexivity]. vm. Qed.
(* the box of a curve is in user space, that of a line or rectangle in device space *)
Definition is_curve (i : item) : bool := match i with ICurve CCurve _ _ _ _ _ _ => true | _ => false end.
Definition item_box (i : item) : bbox := match i with ICurve _ _ _ b _ _ _ => b | _ => mkBox (qz 0) (qz 0) (qz 0) (qz 0) end.
Lemma C39_curve_box_untransformed : exists items s', goi s0 [I 1; I 0; I 0; I 1; I 100; I 100; OK "cm"; I 0; I 0; OK "m"; I 1; I 1; OK "l"; I 2; I 0; OK "l"; OK "S"] = ((items, None), s') /\
  map is_curve items = [true] /\ map (fun i => (bx0 (item_box i), by1 (item_box i))) items = [(qz 0, qz 1)].
Proof. eexists. eexists. split; [apply runsi; vm|]. split; [vm|].
  match goal with |- map ?f (items_of ?g) = _ => assert (L : length (items_of g) = 1%nat) by vm; destruct (items_of g) as [|i [|? ?]] eqn:E; try discriminate L end.
  cbn [map]. f_equal. assert (B : i = hd INone (items_of (goi s0 [I 1; I 0; I 0; I 1; I 100; I 100; OK "cm"; I 0; I 0; OK "m"; I 1; I 1; OK "l"; I 2; I 0; OK "l"; OK "S"]))) by (rewrite E; reflexivity).
  rewrite B. apply pt_eq. vm. Qed.

(* ---- C40 ---- *)
Lemma C40_witness : device_spaces s0.
Proof. intros n k H. vm_compute in H. repeat (destruct H as [H|H]; [injection H as <- <-; vm_compute; reflexivity|]). destruct H. Qed.
(* 0 0 0 1 k sets the stroking colour and leaves the non-stroking one *)
Lemma C40_k_sets_stroking : exists s', go s0 [I 0; I 0; I 0; I 1; OK "k"] = (s', None) /\
  c_vals (g_scolor (s_g s')) = [I 0; I 0; I 0; I 1] /\ g_ncolor (s_g s') = g_ncolor (s_g s0).
Proof. eexists. split; [apply runs; vm|split; vm]. Qed.
(* 1 g must also make DeviceGray the current space for sc; it does not *)
Lemma C40_space_not_selected : let s := with_g s0 (g_with_ncs g0 (Some (mkCs (ON "DeviceRGB") (OInt 3)))) in
  exists s', go s [I 1; OK "g"] = (s', None) /\ g_ncs (s_g s') = Some (mkCs (ON "DeviceRGB") (OInt 3)).
Proof. eexists. split; [apply runs; vm|vm]. Qed.

(* ---- C41 ---- *)
Lemma C41_witness : exists s b, go s_f [OK "BT"; ON "F1"; I 10; OK "Tf"; I 2; OK "Tc"; I 3; OK "Tw"] = (s, None) /\
  t_font (s_text s) = Some font1 /\ s_block s = Some b /\ (t_lm (s_text s) < length (s_heap s))%nat /\
  tj_seq (f_decode font1) [OStr (bs "a b"); I 100; OStr (bs "c")] (map Chr (bs "a b") ++ [Adj (qz 100); Chr 99]) /\
  has_chr (map Chr (bs "a b") ++ [Adj (qz 100); Chr 99]) /\
  (forall c, In (Chr c) (map Chr (bs "a b") ++ [Adj (qz 100); Chr 99]) -> f_unichr font1 c <> None).
Proof.
  eexists. eexists. split; [apply runs; vm|]. split; [reflexivity|]. split; [reflexivity|]. split; [apply Nat.ltb_lt; vm|].
  split; [|split].
  - apply tj_str with (cids := bs "a b"); [reflexivity|]. apply tj_num; [reflexivity|]. apply (tj_str _ (bs "c") [99] [] []); [reflexivity|]. apply tj_nil.
  - exists 97. left. reflexivity.
  - intros c H. cbn in H. repeat (destruct H as [H|H]; [try (injection H as <-); cbn; discriminate|]). destruct H.
Qed.
(* (a) Tj (b) Tj with 2 Tc: between a and b the character spacing is missing; (ab) Tj has it *)
Lemma C41_char_space_lost : exists s1 s2 s, go s_f [OK "BT"; ON "F1"; I 10; OK "Tf"; I 2; OK "Tc"] = (s, None) /\
  go s [OStr (bs "a"); OK "Tj"; OStr (bs "b"); OK "Tj"] = (s1, None) /\ go s [OStr (bs "ab"); OK "Tj"] = (s2, None) /\
  line_pos s1 = (qz 10, qz 0) /\ line_pos s2 = (qz 12, qz 0).
Proof. do 3 eexists. split; [apply runs; vm|]. split; [apply runs; vm|]. split; [apply runs; vm|]. split; ptv. Qed.
(* showing the empty string fails *)
Lemma C41_empty_witness : exists s, go s_f [OK "BT"; ON "F1"; I 10; OK "Tf"] = (s, None) /\ snd (go s [OStr []; OK "Tj"]) = Some IndexError.
Proof. eexists. split; [apply runs; vm|vm]. Qed.
