(* Properties of the content-stream interpreter: C36-C41. *)
From Coq Require Import String ZifyBool ZifyNat.
From Verif Require Import Base Obj Stream_Model Num Geom_Model Geom_Spec Geom_Proofs Page_Model Interp_Model Interp_Spec Interp_Proofs Text_Proofs.
From Coq Require Import Qcanon.
Open Scope Z_scope.

Section props.
Context (getobj : Z -> option obj) (depth : nat).
Notation step := (step getobj depth).
Notation steps := (steps getobj depth).
Notation exec := (exec getobj depth).

Lemma steps_app a b s : steps s (a ++ b) = match steps s a with (s1, None) => steps s1 b | x => x end.
Proof.
  revert s. induction a as [|o a IH]; intros s; cbn [app Interp_Model.steps].
  - reflexivity.
  - destruct (step s o) as [s1 [e|]]; [reflexivity|apply IH].
Qed.

(* ================= C36 ================= *)
(* anything but a keyword is pushed *)
Theorem C36_operand_pushed s o : (forall k, o <> OKwd k) -> step s o = (with_args s (s_args s ++ [o]), None).
Proof. intros H. destruct o; try reflexivity. exfalso. apply (H k). reflexivity. Qed.

(* keywords the operator table does not have; the six spellings with _ are accepted for the starred and quote operators *)
Definition alias_names : list string := ["f_a"; "B_a"; "b_a"; "T_a"; "_q"; "_w"]%string.
Theorem C36_unknown_no_effect s k : ~ known k -> (forall n, In n alias_names -> k <> bs n) -> step s (OKwd k) = (s, None).
Proof.
  intros H1 H2. unfold Interp_Model.step. destruct (command k) as [c|] eqn:E; [|reflexivity]. exfalso.
  assert (A : among (OKwd k) (map fst operand_count ++ space_operators ++ alias_names)).
  { apply (not_among_ops _ _ _ E). destruct c; vm_compute; reflexivity. }
  destruct A as (n & A & B). injection B as B. apply in_app_or in A as [A|A]; [apply H1; left; exists n; tauto|].
  apply in_app_or in A as [A|A]; [apply H1; right; exists n; tauto|]. apply (H2 n A B).
Qed.

Lemma table_arity : forallb (fun e => match command (bs (fst e)) with
  | Some c => Nat.eqb (arity c) (snd e) && negb (if op_eq c o_SCN then true else if op_eq c o_scn then true else false)
  | None => false end) operand_count = true.
Proof. vm_compute. reflexivity. Qed.
Lemma operator n a : In (n, a) operand_count -> exists c, command (bs n) = Some c /\ arity c = a /\ c <> o_SCN /\ c <> o_scn.
Proof.
  intros H. pose proof table_arity as T. rewrite forallb_forall in T. apply T in H. cbn [fst snd] in H.
  destruct (command (bs n)) as [c|]; [|discriminate]. exists c. apply andb_true_iff in H as [H1 H2]. apply Nat.eqb_eq in H1.
  destruct (op_eq c o_SCN), (op_eq c o_scn); try discriminate. tauto.
Qed.
Lemma step_op n a c s base args : command (bs n) = Some c -> arity c = a -> length args = a ->
  step (with_args s (base ++ args)) (OK n) = exec c args (with_args s base).
Proof.
  intros H1 H2 H3. unfold Interp_Model.step, OK. rewrite H1. destruct (Nat.eqb (arity c) 0) eqn:E.
  - apply Nat.eqb_eq in E. assert (args = []) as -> by (destruct args; [reflexivity|cbn in H3; lia]). rewrite app_nil_r. reflexivity.
  - apply Nat.eqb_neq in E. unfold pop. cbn [s_args with_args]. replace (Z.of_nat (arity c) =? 0) with false by lia.
    replace (0 <? Z.of_nat (arity c)) with true by lia. rewrite Nat2Z.id, app_length. replace (length base + length args - arity c)%nat with (length base) by lia.
    rewrite skipn_app, skipn_all, Nat.sub_diag. cbn [skipn app]. rewrite firstn_app, firstn_all, Nat.sub_diag. cbn [firstn]. rewrite app_nil_r.
    replace (Nat.eqb (length args) (arity c)) with true by lia. reflexivity.
Qed.

(* An operator takes exactly its operands from the top of the stack: what it does depends on these alone, and what is below
   stays. *)
Theorem C36_exact_operands n a s base args : In (n, a) operand_count -> length args = a ->
  exists s' e, step (with_args s (base ++ args)) (OK n) = (with_args s' base, e) /\
               step (with_args s args) (OK n) = (with_args s' [], e).
Proof.
  intros H1 H2. destruct (operator n a H1) as (c & A & B & C & D).
  exists (fst (exec c args s)), (snd (exec c args s)). rewrite (step_op n a c s base args A B H2).
  pose proof (step_op n a c s [] args A B H2) as K. cbn [app] in K. rewrite K. split; apply exec_args; assumption.
Qed.
(* too few operands: an error, and nothing but the operand stack has changed *)
Theorem C36_too_few_rejected n a s : In (n, a) operand_count -> (length (s_args s) < a)%nat ->
  step s (OK n) = (with_args s [], Some CommandProcessorError).
Proof.
  intros H1 H2. destruct (operator n a H1) as (c & A & B & C & D). unfold Interp_Model.step, OK. rewrite A.
  replace (Nat.eqb (arity c) 0) with false by lia. unfold pop. replace (Z.of_nat (arity c) =? 0) with false by lia.
  replace (0 <? Z.of_nat (arity c)) with true by lia. rewrite Nat2Z.id. replace (length (s_args s) - arity c)%nat with O by lia.
  cbn [skipn firstn]. replace (Nat.eqb (length (s_args s)) (arity c)) with false by lia. reflexivity.
Qed.
(* programs: instructions with the right number of operands each *)
Definition instr := (list obj * string)%type.
Definition well_formed (i : instr) : Prop := In (snd i, length (fst i)) operand_count /\ Forall (fun o => forall k, o <> OKwd k) (fst i).
Definition tokens_of (i : instr) : list obj := fst i ++ [OK (snd i)].
Lemma steps_push l : Forall (fun o => forall k, o <> OKwd k) l -> forall s, steps s l = (with_args s (s_args s ++ l), None).
Proof.
  induction 1 as [|o l H1 H2 IH]; intros s; cbn [Interp_Model.steps].
  - rewrite app_nil_r. destruct s; reflexivity.
  - rewrite C36_operand_pushed by assumption. rewrite IH. cbn [s_args with_args]. rewrite <- app_assoc. reflexivity.
Qed.
Theorem C36_program_frame prog s base : Forall well_formed prog ->
  exists s' e, steps (with_args s base) (flat_map tokens_of prog) = (with_args s' base, e) /\
               steps (with_args s []) (flat_map tokens_of prog) = (with_args s' [], e).
Proof.
  intros H. revert s. induction H as [|[args n] prog [W1 W2] _ IH]; intros s.
  - exists s, None. split; reflexivity.
  - cbn [flat_map fst snd] in *. unfold tokens_of at 1 3. cbn [fst snd]. rewrite <- !app_assoc, !(steps_app args), !(steps_push args W2). cbn [s_args with_args app Interp_Model.steps].
    destruct (C36_exact_operands n (length args) s base args W1 eq_refl) as (s1 & e & A & B).
    change (with_args (with_args s base) (base ++ args)) with (with_args s (base ++ args)).
    change (with_args (with_args s []) args) with (with_args s args). rewrite A, B.
    destruct e as [e|]; [exists s1, (Some e); split; reflexivity|]. cbn [Interp_Model.steps]. apply IH.
Qed.
(* colour operators take as many operands as the current colour space has components *)
Theorem C36_colour_operands s base args cs n : 
  (g_scs (s_g s) = Some cs -> cs_n cs = OInt n -> 0 < n -> length args = Z.to_nat n -> forall k, In k ["SC"; "SCN"]%string ->
   step (with_args s (base ++ args)) (OK k) = (with_args (with_g s (set_stroke_color (s_g s) (Some cs) args)) base, None)) /\
  (g_ncs (s_g s) = Some cs -> cs_n cs = OInt n -> 0 < n -> length args = Z.to_nat n -> forall k, In k ["sc"; "scn"]%string ->
   step (with_args s (base ++ args)) (OK k) = (with_args (with_g s (set_nostroke_color (s_g s) (Some cs) args)) base, None)).
Proof.
  assert (P : 0 < n -> length args = Z.to_nat n -> pop (with_args s (base ++ args)) n = (args, with_args s base)).
  { intros H1 H2. unfold pop. replace (n =? 0) with false by lia. replace (0 <? n) with true by lia. cbn [s_args with_args].
    rewrite app_length. replace (length base + length args - Z.to_nat n)%nat with (length base) by lia.
    rewrite skipn_app, skipn_all, Nat.sub_diag, firstn_app, firstn_all, Nat.sub_diag. cbn [skipn firstn app]. rewrite app_nil_r. reflexivity. }
  split; intros H1 H2 H3 H4 k Hk; specialize (P H3 H4).
  - assert (E : command (bs k) = Some o_SCN) by (destruct Hk as [<-|[<-|[]]]; vm_compute; reflexivity).
    unfold Interp_Model.step, OK. rewrite E. cbn [arity Nat.eqb]. unfold Interp_Model.exec. cbn [s_g with_args]. rewrite H1, H2, P. reflexivity.
  - assert (E : command (bs k) = Some o_scn) by (destruct Hk as [<-|[<-|[]]]; vm_compute; reflexivity).
    unfold Interp_Model.step, OK. rewrite E. cbn [arity Nat.eqb]. unfold Interp_Model.exec. cbn [s_g with_args]. rewrite H1, H2, P. reflexivity.
Qed.

(* ================= C37 ================= *)
Lemma not_qQ o k c : o <> OK "q" -> o <> OK "Q" -> o = OKwd k -> command k = Some c -> c <> o_q /\ c <> o_Q.
Proof.
  intros H1 H2 -> E. split; intros ->; apply command_keys in E; vm_compute in E; destruct E as [<-|[]].
  - apply H1. reflexivity.
  - apply H2. reflexivity.
Qed.
Lemma step_gstack s o s' : o <> OK "q" -> o <> OK "Q" -> step s o = (s', None) -> s_gstack s' = s_gstack s.
Proof.
  intros H1 H2 H. destruct (step_cases getobj depth s o) as [(k & args & b & Ho & c & E & E2)|[(b & E)|(b & k & Ho & E)]].
  - rewrite E2 in H. destruct (not_qQ o k c H1 H2 Ho E). pose proof (exec_gstack getobj depth c args (with_args s b) H0 H3) as K. rewrite H in K. exact K.
  - rewrite E in H. injection H as <-. reflexivity.
  - rewrite E in H. discriminate.
Qed.
Lemma step_q s : step s (OK "q") = (with_gstack s (s_gstack s ++ [(s_ctm s, s_text s, s_g s)]), None).
Proof. reflexivity. Qed.
Lemma step_Q s l m t g : s_gstack s = l ++ [(m, t, g)] -> step s (OK "Q") = (with_gstack (with_ctm (with_text s t) m) l, None).
Proof.
  intros H. unfold Interp_Model.step, OK. change (command _) with (Some o_Q). cbn [arity Nat.eqb]. unfold Interp_Model.exec. rewrite H, rev_app_distr. cbn [rev app].
  rewrite rev_involutive. reflexivity.
Qed.
Lemma balanced_gstack l : balanced l -> forall s s', steps s l = (s', None) -> s_gstack s' = s_gstack s.
Proof.
  induction 1 as [|o l H1 H2 _ IH|l1 l2 _ IH1 _ IH2]; intros s s' H.
  - injection H as <-. reflexivity.
  - cbn [Interp_Model.steps] in H. destruct (step s o) as [s1 [e|]] eqn:E; [discriminate|].
    apply IH in H. apply step_gstack in E; [congruence|assumption|assumption].
  - cbn [Interp_Model.steps] in H. rewrite step_q in H. rewrite steps_app in H. destruct (steps _ l1) as [s1 [e|]] eqn:E1; [discriminate|].
    apply IH1 in E1. cbn [s_gstack with_gstack] in E1. cbn [Interp_Model.steps] in H. rewrite (step_Q s1 _ _ _ _ E1) in H.
    apply IH2 in H. exact H.
Qed.
Lemma q_block l s s' : balanced l -> steps s (OK "q" :: l ++ [OK "Q"]) = (s', None) ->
  exists s1, steps (with_gstack s (s_gstack s ++ [(s_ctm s, s_text s, s_g s)])) l = (s1, None) /\
    s' = with_gstack (with_ctm (with_text s1 (s_text s)) (s_ctm s)) (s_gstack s).
Proof.
  intros B H. cbn [Interp_Model.steps] in H. rewrite step_q, steps_app in H. destruct (steps _ l) as [s1 [e|]] eqn:E1; [discriminate|].
  exists s1. split; [reflexivity|]. apply (balanced_gstack l B) in E1. cbn [s_gstack with_gstack] in E1. cbn [Interp_Model.steps] in H.
  rewrite (step_Q s1 _ _ _ _ E1) in H. injection H as <-. reflexivity.
Qed.
(* Whatever happens between a q and its Q, the transformation matrix, every parameter of the text state, the text matrix
   and the stack of saved states are as they were.  Missing: the position within the current line (next theorem) and the
   graphics parameters, which are not restored. *)
Theorem C37_restored_partial l s s' : balanced l -> steps s (OK "q" :: l ++ [OK "Q"]) = (s', None) ->
  s_ctm s' = s_ctm s /\ s_text s' = s_text s /\ s_gstack s' = s_gstack s.
Proof. intros B H. destruct (q_block l s s' B H) as (s1 & _ & ->). repeat split. Qed.
(* The graphics parameters (line width, colours, ...) after Q are those the operators in between have left. *)
Theorem C37_graphics_not_restored l s s' : balanced l -> steps s (OK "q" :: l ++ [OK "Q"]) = (s', None) ->
  exists s1, steps (with_gstack s (s_gstack s ++ [(s_ctm s, s_text s, s_g s)])) l = (s1, None) /\ s_g s' = s_g s1.
Proof. intros B H. destruct (q_block l s s' B H) as (s1 & E & ->). exists s1. split; [assumption|reflexivity]. Qed.

(* the position within the current line *)
Definition line_pos (s : istate) : point := hget (s_heap s) (t_lm (s_text s)).
Definition keeps (n : nat) (s s' : istate) : Prop :=
  (length (s_heap s) <= length (s_heap s'))%nat /\ forall a, (a < n)%nat -> hget (s_heap s') a = hget (s_heap s) a.
Lemma keeps_refl n s : keeps n s s.
Proof. split; [lia|reflexivity]. Qed.
Lemma keeps_trans n n2 s1 s2 s3 : (n <= n2)%nat -> keeps n s1 s2 -> keeps n2 s2 s3 -> keeps n s1 s3.
Proof. intros H [A1 A2] [B1 B2]. split; [lia|]. intros a Ha. rewrite B2 by lia. apply A2. assumption. Qed.
Lemma line_keeps s s' n : line_effect s s' -> (n <= t_lm (s_text s))%nat -> (n <= length (s_heap s))%nat -> 
  keeps n s s' /\ (n <= t_lm (s_text s'))%nat.
Proof.
  intros [H1 H2|H1 H2|p H1 H2|p H1 H2] Hn Hl; unfold keeps; rewrite H1, H2, ?hset_length, ?app_length; cbn [length]; split; try lia;
    (split; [lia|]); intros a Ha; rewrite ?hget_hset_other by lia; rewrite ?hget_app by lia; reflexivity.
Qed.
Lemma text_level_keeps l : Forall (fun o => ~ among o ["q"; "Q"; "BT"; "ET"]%string) l -> forall n s s', steps s l = (s', None) ->
  (n <= t_lm (s_text s))%nat -> (n <= length (s_heap s))%nat -> keeps n s s'.
Proof.
  induction 1 as [|o l Ho _ IH]; intros n s s' H Hn Hl; cbn [Interp_Model.steps] in H.
  - injection H as <-. apply keeps_refl.
  - destruct (step s o) as [s1 [e|]] eqn:E; [discriminate|].
    assert (K : keeps n s s1 /\ (n <= t_lm (s_text s1))%nat).
    { destruct (step_cases getobj depth s o) as [(k & args & b & Hk & c & E1 & E2)|[(b & E1)|(b & k & Hk & E1)]].
      - rewrite E2 in E. subst o. assert (HQ : c <> o_Q).
        { intros ->. apply Ho. apply (not_among_ops _ k o_Q E1). vm_compute. reflexivity. }
        pose proof (exec_line getobj depth c args (with_args s b) HQ) as L. rewrite E in L. apply (line_keeps _ _ n L Hn Hl).
      - rewrite E1 in E. injection E as <-. split; [exact (keeps_refl _ s)|assumption].
      - rewrite E1 in E. discriminate. }
    destruct K as [K1 K2]. apply (keeps_trans n n s s1 s' (le_n n) K1). apply (IH n s1 s' H K2). destruct K1. lia.
Qed.
Lemma step_noshow s o s1 : ~ among o ["q"; "Q"; "BT"; "ET"; "Tj"; "TJ"; "'"; """"]%string -> ~ among o ["_q"; "_w"]%string ->
  step s o = (s1, None) -> keeps (length (s_heap s)) s s1 /\ (length (s_heap s) <= length (s_heap s1))%nat.
Proof.
  intros Ho Ha E. destruct (step_cases getobj depth s o) as [(k & args & b & Hk & c & E1 & E2)|[(b & E1)|(b & k & Hk & E1)]].
  - rewrite E2 in E. subst o. assert (HQ : c <> o_Q).
    { intros ->. apply Ho. apply (not_among_ops _ k o_Q E1). vm_compute. reflexivity. }
    assert (HS : ~ show_op c).
    { intros HS. assert (A : among (OKwd k) (["q"; "Q"; "BT"; "ET"; "Tj"; "TJ"; "'"; """"]%string ++ ["_q"; "_w"]%string)).
      { destruct HS as [->|[->|[->| ->]]]; apply (not_among_ops _ k _ E1); vm_compute; reflexivity. }
      destruct A as (n & A & B). apply in_app_or in A as [A|A]; [apply Ho; exists n; tauto|apply Ha; exists n; tauto]. }
    destruct (exec_line_noshow getobj depth c args (with_args s b) HQ HS) as [[L1 L2]|[L1 L2]]; rewrite E in L1, L2; cbn [fst s_heap with_args] in L1;
      unfold keeps; rewrite L1, ?app_length; cbn [length]; (split; [split; [lia|]|lia]); intros a H; rewrite ?hget_app by lia; reflexivity.
  - rewrite E1 in E. injection E as <-. split; [exact (keeps_refl _ s)|cbn; lia].
  - rewrite E1 in E. discriminate.
Qed.
Lemma step_BT_ s s1 : step s (OK "BT") = (s1, None) -> s_heap s1 = s_heap s ++ [(qz 0, qz 0)] /\ t_lm (s_text s1) = length (s_heap s) /\ s_gstack s1 = s_gstack s.
Proof. unfold Interp_Model.step, OK. change (command _) with (Some o_BT). cbn [arity Nat.eqb]. unfold Interp_Model.exec. destruct (s_block s); intros [= <-]; repeat split. Qed.
Lemma step_ET_ s s1 : step s (OK "ET") = (s1, None) -> s_heap s1 = s_heap s /\ s_gstack s1 = s_gstack s.
Proof. unfold Interp_Model.step, OK. change (command _) with (Some o_ET). cbn [arity Nat.eqb]. unfold Interp_Model.exec. intros [= <-]; repeat split. Qed.
Lemma page_level_balanced l : page_level l -> balanced l.
Proof.
  induction 1 as [|o l H _ IH|l1 l2 _ IH1 _ IH2|l1 l2 H _ IH].
  - constructor.
  - constructor; [| |assumption]; intros ->; apply H; eexists; (split; [|reflexivity]); cbn; tauto.
  - apply bal_nest; assumption.
  - constructor; [discriminate|discriminate|]. assert (K : forall r, balanced r -> balanced (l1 ++ r)).
    { intros r Hr. induction H as [|o l1 Ho _ IHl]; [assumption|]. cbn [app]. constructor; [| |assumption]; intros ->; apply Ho; eexists; (split; [|reflexivity]); cbn; tauto. }
    apply K. constructor; [discriminate|discriminate|assumption].
Qed.
Lemma page_level_keeps l : page_level l -> Forall (fun o => ~ among o ["_q"; "_w"]%string) l -> forall s s', steps s l = (s', None) ->
  keeps (length (s_heap s)) s s'.
Proof.
  induction 1 as [|o l H _ IH|l1 l2 P1 IH1 _ IH2|l1 l2 HT _ IH]; intros HA s s' E.
  - injection E as <-. apply keeps_refl.
  - inversion HA as [|? ? HA1 HA2]; subst. cbn [Interp_Model.steps] in E. destruct (step s o) as [s1 [e|]] eqn:E1; [discriminate|].
    destruct (step_noshow s o s1 H HA1 E1) as [K1 K2]. apply (keeps_trans _ _ _ _ _ K2 K1). apply IH; assumption.
  - inversion HA as [|? ? _ HA2]; subst. apply Forall_app in HA2 as [HA1 HA2]. inversion HA2 as [|? ? _ HA3]; subst.
    cbn [Interp_Model.steps] in E. rewrite step_q, steps_app in E. destruct (steps _ l1) as [s1 [e|]] eqn:E1; [discriminate|].
    pose proof (IH1 HA1 _ _ E1) as K1. pose proof (balanced_gstack l1 (page_level_balanced l1 P1) _ _ E1) as G1.
    cbn [s_gstack with_gstack s_heap] in G1, K1. cbn [Interp_Model.steps] in E. rewrite (step_Q s1 _ _ _ _ G1) in E.
    apply (IH2 HA3) in E. cbn [s_heap with_gstack with_ctm with_text] in E. 
    assert (K2 : (length (s_heap s) <= length (s_heap s1))%nat) by apply K1. apply (keeps_trans _ _ _ _ _ K2 K1 E).
  - inversion HA as [|? ? _ HA2]; subst. apply Forall_app in HA2 as [HA1 HA2]. inversion HA2 as [|? ? _ HA3]; subst.
    cbn [Interp_Model.steps] in E. destruct (step s (OK "BT")) as [s1 [e|]] eqn:E1; [discriminate|]. apply step_BT_ in E1 as (B1 & B2 & B3).
    rewrite steps_app in E. destruct (steps s1 l1) as [s2 [e|]] eqn:E2; [discriminate|].
    cbn [Interp_Model.steps] in E. destruct (step s2 (OK "ET")) as [s3 [e|]] eqn:E3; [discriminate|]. apply step_ET_ in E3 as (C1 & C2).
    apply (IH HA3) in E.
    assert (K1 : keeps (length (s_heap s)) s s1).
    { unfold keeps. rewrite B1, app_length. split; [lia|]. intros a Ha. apply hget_app. assumption. }
    assert (K2 : keeps (length (s_heap s)) s1 s2).
    { apply (text_level_keeps l1 HT _ _ _ E2); [lia|]. rewrite B1, app_length. lia. }
    assert (K3 : keeps (length (s_heap s)) s s3).
    { pose proof (keeps_trans _ _ _ _ _ (le_n _) K1 K2) as [X Y]. split; rewrite C1; assumption. }
    assert (K4 : (length (s_heap s) <= length (s_heap s3))%nat) by apply K3. apply (keeps_trans _ _ _ _ _ K4 K3 E).
Qed.
(* In content that follows the structure of a page (text shown inside BT ... ET, no q or Q there), also the position within
   the line is restored. *)
Theorem C37_position_partial l s s' : page_level l -> Forall (fun o => ~ among o ["_q"; "_w"]%string) l ->
  (t_lm (s_text s) < length (s_heap s))%nat -> steps s (OK "q" :: l ++ [OK "Q"]) = (s', None) -> line_pos s' = line_pos s.
Proof.
  intros P HA Hw H. destruct (q_block l s s' (page_level_balanced l P) H) as (s1 & E & ->). apply (page_level_keeps l P HA) in E as [K1 K2].
  unfold line_pos. cbn [s_heap s_text with_gstack with_ctm with_text] in *. apply K2. assumption.
Qed.
(* the hypothesis on the state holds of every state the interpreter reaches *)
Definition line_ok (s : istate) : Prop :=
  (t_lm (s_text s) < length (s_heap s))%nat /\ Forall (fun x => (t_lm (snd (fst x)) < length (s_heap s))%nat) (s_gstack s).
Theorem C37_reachable s o : line_ok s -> line_ok (fst (step s o)).
Proof.
  intros [H1 H2]. assert (K : forall s' , line_effect s s' -> s_gstack s' = s_gstack s -> line_ok s').
  { intros s' L G. unfold line_ok. rewrite G. assert (M : (length (s_heap s) <= length (s_heap s'))%nat /\ (t_lm (s_text s') < length (s_heap s'))%nat).
    { destruct L as [L1 L2|L1 L2|p L1 L2|p L1 L2]; rewrite L1, L2, ?hset_length, ?app_length; cbn [length]; lia. }
    split; [apply M|]. eapply Forall_impl; [|exact H2]. cbn. intros. lia. }
  destruct (step_cases getobj depth s o) as [(k & args & b & Hk & c & E1 & E2)|[(b & E1)|(b & k & Hk & E1)]].
  - rewrite E2. destruct (op_eq c o_q) as [->|Hq]; [|destruct (op_eq c o_Q) as [->|HQ]].
    + cbn [Interp_Model.exec]. destruct args; [|apply K; [apply le_same; reflexivity|reflexivity]]. cbn [ok fst].
      split; [exact H1|]. cbn [s_gstack with_gstack with_args]. apply Forall_app. split; [exact H2|]. constructor; [exact H1|constructor].
    + cbn [Interp_Model.exec]. destruct args; [|apply K; [apply le_same; reflexivity|reflexivity]]. cbn [s_gstack with_args].
      destruct (rev (s_gstack s)) as [|[[m t] g] r] eqn:Er; [apply K; [apply le_same; reflexivity|reflexivity]|].
      apply (f_equal (@rev _)) in Er. rewrite rev_involutive in Er. cbn [rev] in Er. rewrite Er in H2. apply Forall_app in H2 as [H2 H3].
      inversion H3; subst. cbn [fst ok]. split; [assumption|]. cbn [s_gstack with_gstack]. exact H2.
    + pose proof (exec_line getobj depth c args (with_args s b) HQ) as L. pose proof (exec_gstack getobj depth c args (with_args s b) Hq HQ) as G.
      apply K; [|exact G]. destruct L as [L1 L2|L1 L2|p L1 L2|p L1 L2]; [apply le_same|apply le_new|apply (le_write _ _ p)|apply (le_new_write _ _ p)]; assumption.
  - rewrite E1. apply K; [apply le_same; reflexivity|reflexivity].
  - rewrite E1. apply K; [apply le_same; reflexivity|reflexivity].
Qed.

(* ================= C38 ================= *)
Ltac at_op c := unfold Interp_Model.step, OK; change (command _) with (Some c); cbn [arity Nat.eqb].
Lemma num_not_kwd o v : N_ o v -> forall k, o <> OKwd k.
Proof. unfold N_. intros H k ->. discriminate. Qed.
(* the operands of an instruction, then its keyword *)
Lemma steps_instr n a c s args : command (bs n) = Some c -> arity c = a -> length args = a -> Forall (fun o => forall k, o <> OKwd k) args ->
  forall l, steps s (args ++ OK n :: l) = match exec c args s with (s1, None) => steps s1 l | x => x end.
Proof.
  intros H1 H2 H3 H4 l. rewrite steps_app, (steps_push args H4). cbn [Interp_Model.steps].
  rewrite (step_op n a c s (s_args s) args H1 H2 H3). replace (with_args s (s_args s)) with s by (destruct s; reflexivity). reflexivity.
Qed.
Ltac kw := repeat constructor; eapply num_not_kwd; eassumption.
Lemma line_pos_fresh s t : line_pos (fresh_lm s t) = (qz 0, qz 0).
Proof. unfold line_pos, fresh_lm. cbn [s_heap s_text with_heap with_text t_lm t_with_lm]. unfold hget. rewrite app_nth2, Nat.sub_diag by lia. reflexivity. Qed.

(* Tm replaces the text matrix and starts a line there *)
Theorem C38_Tm s oa ob oc od oe of_ a b c d e f : N_ oa a -> N_ ob b -> N_ oc c -> N_ od d -> N_ oe e -> N_ of_ f ->
  exists s', steps s [oa; ob; oc; od; oe; of_; OK "Tm"] = (s', None) /\
    s_text s' = t_with_lm (t_with_matrix (s_text s) (a, b, c, d, e, f)) (t_lm (s_text s')) /\ line_pos s' = (qz 0, qz 0).
Proof.
  intros H1 H2 H3 H4 H5 H6. eexists. split.
  - change [oa; ob; oc; od; oe; of_; OK "Tm"] with ([oa; ob; oc; od; oe; of_] ++ OK "Tm" :: []).
    rewrite (steps_instr "Tm" 6 o_Tm); try reflexivity; [|kw]. unfold N_ in *. cbn [Interp_Model.exec with_num nums]. unfold with_num. cbn [nums]. rewrite H1, H2, H3, H4, H5, H6. reflexivity.
  - split; [reflexivity|apply line_pos_fresh].
Qed.
(* Td: the new line starts at (tx, ty) in the text space of the current line, whatever was shown in it *)
Theorem C38_Td s ox oy tx ty : N_ ox tx -> N_ oy ty ->
  exists s', steps s [ox; oy; OK "Td"] = (s', None) /\
    s_text s' = t_with_lm (t_with_matrix (s_text s) (mult_matrix (qz 1, qz 0, qz 0, qz 1, tx, ty) (t_matrix (s_text s)))) (t_lm (s_text s')) /\
    line_pos s' = (qz 0, qz 0).
Proof.
  intros H1 H2. eexists. split.
  - change [ox; oy; OK "Td"] with ([ox; oy] ++ OK "Td" :: []).
    rewrite (steps_instr "Td" 2 o_Td); try reflexivity; [|kw]. unfold N_ in *. cbn [Interp_Model.exec]. unfold with_num. cbn [nums]. rewrite H1, H2. reflexivity.
  - split; [|apply line_pos_fresh]. cbn [s_text fresh_lm with_heap with_text]. unfold move_text. f_equal. f_equal.
    destruct (t_matrix (s_text s)) as [[[[[a b] c] d] e] f]. unfold translate_matrix, mult_matrix. change (qz 1) with 1%Qc. change (qz 0) with 0%Qc.
    repeat (apply (f_equal2 pair)); ring.
Qed.
(* TD is TL with the negated ty, then Td *)
Theorem C38_TD_is_TL_Td s ox oy on ty : N_ oy ty -> N_ on (- ty)%Qc -> (exists tx, N_ ox tx) ->
  steps s [ox; oy; OK "TD"] = steps s [on; OK "TL"; ox; oy; OK "Td"].
Proof.
  intros H1 H2 [tx H3].
  change [ox; oy; OK "TD"] with ([ox; oy] ++ OK "TD" :: []). change [on; OK "TL"; ox; oy; OK "Td"] with ([on] ++ OK "TL" :: [ox; oy] ++ OK "Td" :: []).
  rewrite (steps_instr "TD" 2 o_TD); try reflexivity; [|kw]. rewrite (steps_instr "TL" 1 o_TL); try reflexivity; [|kw].
  unfold N_ in *. cbn [Interp_Model.exec]. unfold with_num. cbn [nums]. rewrite H1, H2, H3. cbn [ok].
  rewrite (steps_instr "Td" 2 o_Td); try reflexivity; [|kw]. cbn [Interp_Model.exec]. unfold with_num. cbn [nums]. rewrite H1, H3. cbn [ok Interp_Model.steps].
  replace (- - ty)%Qc with ty by ring. reflexivity.
Qed.
(* T* is 0 -Tl Td, where Tl is the operand of the last TL (the state holds its negation) *)
Theorem C38_Tstar_is_Td s o0 ol : N_ o0 (qz 0) -> N_ ol (t_leading (s_text s)) -> steps s [OK "T*"] = steps s [o0; ol; OK "Td"].
Proof.
  intros H1 H2. change [o0; ol; OK "Td"] with ([o0; ol] ++ OK "Td" :: []). rewrite (steps_instr "Td" 2 o_Td); try reflexivity; [|kw].
  cbn [Interp_Model.steps]. at_op o_Tstar. unfold N_ in *. cbn [Interp_Model.exec]. unfold with_num. cbn [nums]. rewrite H1, H2. reflexivity.
Qed.
Theorem C38_TL_stored s o v : N_ o v -> exists s', steps s [o; OK "TL"] = (s', None) /\ t_leading (s_text s') = (- v)%Qc /\ t_matrix (s_text s') = t_matrix (s_text s).
Proof.
  intros H. eexists. split; [|split].
  - change [o; OK "TL"] with ([o] ++ OK "TL" :: []). rewrite (steps_instr "TL" 1 o_TL); try reflexivity; [|kw]. unfold N_ in H. cbn [Interp_Model.exec]. unfold with_num. cbn [nums]. rewrite H. reflexivity.
  - reflexivity.
  - reflexivity.
Qed.
(* the quote operator is T* then Tj *)
Theorem C38_quote s o : (forall k, o <> OKwd k) -> steps s [o; OK "'"] = steps s [OK "T*"; o; OK "Tj"].
Proof.
  intros H. change [o; OK "'"] with ([o] ++ OK "'" :: []). rewrite (steps_instr "'" 1 o_quote); try reflexivity; [|repeat constructor; assumption].
  change (steps s [OK "T*"; o; OK "Tj"]) with (steps (nextline s) ([o] ++ OK "Tj" :: [])). rewrite (steps_instr "Tj" 1 o_Tj); try reflexivity. repeat constructor; assumption.
Qed.
(* The double quote operator is Tw Tc Tj: it should be Tw Tc and the quote operator, but does not go to the next line. *)
Theorem C38_dquote_partial s ow oc o w c : N_ ow w -> N_ oc c -> (forall k, o <> OKwd k) ->
  steps s [ow; oc; o; OK """"] = steps s [ow; OK "Tw"; oc; OK "Tc"; o; OK "Tj"].
Proof.
  intros H1 H2 H3. change [ow; oc; o; OK """"] with ([ow; oc; o] ++ OK """" :: []).
  rewrite (steps_instr """" 3 o_dquote); try reflexivity; [|repeat constructor; try assumption; eapply num_not_kwd; eassumption].
  change [ow; OK "Tw"; oc; OK "Tc"; o; OK "Tj"] with ([ow] ++ OK "Tw" :: [oc] ++ OK "Tc" :: [o] ++ OK "Tj" :: []).
  rewrite (steps_instr "Tw" 1 o_Tw); try reflexivity; [|kw]. unfold N_ in *. cbn [Interp_Model.exec]. unfold with_num. cbn [nums]. rewrite H1, H2. cbn [ok].
  rewrite (steps_instr "Tc" 1 o_Tc); try reflexivity; [|kw]. cbn [Interp_Model.exec]. unfold with_num. cbn [nums]. rewrite H2. cbn [ok].
  rewrite (steps_instr "Tj" 1 o_Tj); try reflexivity. repeat constructor; assumption.
Qed.

(* Any history of line moves, shown text and other operators: the line starts where the moves add up to. *)
Lemma translate_mult tx ty m : translate_matrix m (tx, ty) = mult_matrix (qz 1, qz 0, qz 0, qz 1, tx, ty) m.
Proof. destruct m as [[[[[a b] c] d] e] f]. unfold translate_matrix, mult_matrix. change (qz 1) with 1%Qc. change (qz 0) with 0%Qc. repeat (apply (f_equal2 pair)); ring. Qed.
Lemma translate_translate m a b dx dy : translate_matrix (translate_matrix m (a, b)) (dx, dy) = translate_matrix m (a + dx, b + dy)%Qc.
Proof. destruct m as [[[[[m1 m2] m3] m4] m5] m6]. unfold translate_matrix. repeat (apply (f_equal2 pair)); ring. Qed.
Theorem C38_line_history L l d L' : Lines L l d L' -> forall s s', t_leading (s_text s) = (- L)%Qc -> steps s l = (s', None) ->
  t_matrix (s_text s') = mult_matrix (qz 1, qz 0, qz 0, qz 1, fst d, snd d) (t_matrix (s_text s)) /\ t_leading (s_text s') = (- L')%Qc.
Proof.
  induction 1 as [L|L o l d L' Ho _ IH|L x y a b l dx dy L' H1 H2 _ IH|L x y a b l dx dy L' H1 H2 _ IH|L x a l d L' H1 _ IH
                 |L l dx dy L' _ IH|L o l dx dy L' H1 _ IH]; intros s s' HL E; cbn [fst snd]; rewrite <- translate_mult.
  - injection E as <-. split; [|assumption]. destruct (t_matrix (s_text s)) as [[[[[m1 m2] m3] m4] m5] m6]. unfold translate_matrix. change (qz 0) with 0%Qc. repeat (apply (f_equal2 pair)); ring.
  - rewrite translate_mult. cbn [Interp_Model.steps] in E. destruct (step s o) as [s1 [e|]] eqn:E1; [discriminate|].
    assert (K : t_matrix (s_text s1) = t_matrix (s_text s) /\ t_leading (s_text s1) = t_leading (s_text s)).
    { destruct (step_cases getobj depth s o) as [(k & args & b & Hk & c & C1 & C2)|[(b & C1)|(b & k & Hk & C1)]].
      - rewrite C2 in E1. subst o. destruct (line_op c) eqn:El.
        + exfalso. apply Ho. apply (not_among_ops _ k c C1). destruct c; try discriminate; vm_compute; reflexivity.
        + pose proof (exec_noline getobj depth c args (with_args s b) El) as K. rewrite E1 in K. exact K.
      - rewrite C1 in E1. injection E1 as <-. split; reflexivity.
      - rewrite C1 in E1. discriminate. }
    destruct K as [K1 K2]. destruct (IH s1 s') as [A B]; [congruence|assumption|]. split; [|assumption]. rewrite A, K1. reflexivity.
  - change ([x; y; OK "Td"] ++ l) with ([x; y] ++ OK "Td" :: l) in E. rewrite (steps_instr "Td" 2 o_Td) in E; try reflexivity; [|kw].
    unfold N_ in *. cbn [Interp_Model.exec] in E. unfold with_num in E. cbn [nums] in E. rewrite H1, H2 in E. cbn [ok] in E.
    apply IH in E; [|exact HL]. destruct E as [A B]. split; [|assumption]. rewrite A. cbn [fst snd]. rewrite <- translate_mult.
    cbn [fresh_lm with_heap with_text s_text t_with_lm t_matrix]. unfold move_text. cbn [t_matrix t_with_matrix]. apply translate_translate.
  - change ([x; y; OK "TD"] ++ l) with ([x; y] ++ OK "TD" :: l) in E. rewrite (steps_instr "TD" 2 o_TD) in E; try reflexivity; [|kw].
    unfold N_ in *. cbn [Interp_Model.exec] in E. unfold with_num in E. cbn [nums] in E. rewrite H1, H2 in E. cbn [ok] in E.
    apply IH in E; [|cbn; ring]. destruct E as [A B]. split; [|assumption]. rewrite A. cbn [fst snd]. rewrite <- translate_mult.
    cbn [fresh_lm with_heap with_text s_text t_with_lm t_matrix]. unfold move_text. cbn [t_matrix t_with_matrix t_with_leading]. apply translate_translate.
  - change ([x; OK "TL"] ++ l) with ([x] ++ OK "TL" :: l) in E. rewrite (steps_instr "TL" 1 o_TL) in E; try reflexivity; [|kw].
    unfold N_ in *. cbn [Interp_Model.exec] in E. unfold with_num in E. cbn [nums] in E. rewrite H1 in E. cbn [ok] in E.
    apply IH in E; [|reflexivity]. destruct E as [A B]. split; [|assumption]. rewrite A. destruct d as [dx dy]. cbn [fst snd]. rewrite <- translate_mult. reflexivity.
  - cbn [Interp_Model.steps] in E. replace (step s (OK "T*")) with (nextline s, @None exn) in E by reflexivity.
    apply IH in E; [|exact HL]. destruct E as [A B]. split; [|assumption]. rewrite A. cbn [fst snd]. rewrite <- translate_mult.
    cbn [nextline fresh_lm with_heap with_text s_text t_with_lm t_matrix]. unfold move_text. cbn [t_matrix t_with_matrix]. rewrite translate_translate, HL.
    f_equal. f_equal. change (qz 0) with 0%Qc. ring.
  - change ([o; OK "'"] ++ l) with ([o] ++ OK "'" :: l) in E. rewrite (steps_instr "'" 1 o_quote) in E; try reflexivity; [|repeat constructor; assumption].
    cbn [Interp_Model.exec] in E. destruct (show (nextline s) [o]) as [s1 [e|]] eqn:Es; [discriminate|].
    destruct (show_frame (nextline s) [o]) as (lm & b & K). rewrite Es in K. cbn [fst] in K.
    assert (K1 : s_text s1 = s_text (nextline s)) by (destruct K as [->| ->]; reflexivity).
    apply IH in E; [|rewrite K1; exact HL]. destruct E as [A B]. split; [|assumption]. rewrite A, K1. cbn [fst snd]. rewrite <- translate_mult.
    cbn [nextline fresh_lm with_heap with_text s_text t_with_lm t_matrix]. unfold move_text. cbn [t_matrix t_with_matrix]. rewrite translate_translate, HL.
    f_equal. f_equal. change (qz 0) with 0%Qc. ring.
Qed.

(* ================= C39 ================= *)
Section painting.
Context (mkfont : obj -> res font) (nested : istate -> list obj -> gen item * istate).
Notation run := (run getobj depth mkfont nested).
Lemma with_done_nil s : s_done s = [] -> with_done s [] = s.
Proof. destruct s; cbn. intros ->. reflexivity. Qed.
Lemma gapp_nil {A} (g : gen A) : gapp gnil g = g.
Proof. destruct g; reflexivity. Qed.
Lemma run_quiet s o s1 l : step s o = (s1, None) -> s_done s1 = [] -> run s (o :: l) = run s1 l.
Proof.
  intros H1 H2. cbn [Interp_Model.run]. rewrite H1, H2. cbn [gflat gnil snd]. rewrite with_done_nil by assumption.
  destruct (run s1 l) as [g2 s2]. rewrite gapp_nil. reflexivity.
Qed.
Lemma run_push args : Forall (fun o => forall k, o <> OKwd k) args -> forall s l, s_done s = [] ->
  run s (args ++ l) = run (with_args s (s_args s ++ args)) l.
Proof.
  induction 1 as [|o args H1 _ IH]; intros s l Hd; cbn [app].
  - rewrite app_nil_r. replace (with_args s (s_args s)) with s by (destruct s; reflexivity). reflexivity.
  - rewrite (run_quiet s o _ _ (C36_operand_pushed s o H1)) by exact Hd. rewrite IH by exact Hd. cbn [s_args with_args]. rewrite <- app_assoc. reflexivity.
Qed.
Lemma run_instr n a c s s1 args l : command (bs n) = Some c -> arity c = a -> length args = a -> Forall (fun o => forall k, o <> OKwd k) args ->
  s_done s = [] -> exec c args s = (s1, None) -> s_done s1 = [] -> run s (args ++ OK n :: l) = run s1 l.
Proof.
  intros H1 H2 H3 H4 Hd He Hd1. rewrite (run_push args H4 s _ Hd). apply run_quiet; [|assumption].
  rewrite (step_op n a c s (s_args s) args H1 H2 H3). replace (with_args s (s_args s)) with s by (destruct s; reflexivity). exact He.
Qed.
Lemma run_item s o s1 i l : step s o = (s1, None) -> s_done s1 = [PItem i] -> run s (o :: l) =
  let '((items, e), s2) := run (with_done s1 []) l in ((i :: items, e), s2).
Proof.
  intros H1 H2. cbn [Interp_Model.run]. rewrite H1, H2. cbn [gflat finish gapp gnil snd fst app].
  destruct (run (with_done s1 []) l) as [[items e] s2]. reflexivity.
Qed.
Lemma make_curve_spec ctm g eo p : is_painted (make_curve ctm g eo p) (p, eo) \/ (make_curve ctm g eo p = INone /\ skew_quad ctm p).
Proof.
  unfold make_curve, is_painted. cbn [fst snd].
  assert (Q : forall k b, exists k' w b' st fi, ICurve k (g_width g) p b (g_scolor g) (g_ncolor g) eo = ICurve k' w p b' st fi eo) by (intros; repeat eexists).
  destruct p as [|[p0|p0|p01 p02 p03|p02 p03|p01 p03|] [|[p1|p1|p11 p12 p13|p12 p13|p11 p13|] [|[p2|p2|p21 p22 p23|p22 p23|p21 p23|] [|[p3|p3|p31 p32 p33|p32 p33|p31 p33|] [|[p4|p4|p41 p42 p43|p42 p43|p41 p43|] [|? ?]]]]]]; try (left; apply Q).
  - destruct (apply_matrix_pt ctm p0), (apply_matrix_pt ctm p1). left. apply Q.
  - destruct (apply_matrix_pt ctm p0) as [x0 y0] eqn:A0, (apply_matrix_pt ctm p1) as [x1 y1] eqn:A1, (apply_matrix_pt ctm p2) as [x2 y2] eqn:A2, (apply_matrix_pt ctm p3) as [x3 y3] eqn:A3.
    destruct (_ || _) eqn:E; [left; apply Q|right]. split; [reflexivity|]. exists p0, p1, p2, p3. split; [reflexivity|].
    cbv zeta. rewrite A0, A1, A2, A3. cbn [fst snd]. apply orb_false_iff in E as [E1 E2].
    split; intros (B1 & B2 & B3 & B4); subst.
    + rewrite !(proj2 (qeqb_iff _ _) eq_refl) in E1. discriminate.
    + rewrite !(proj2 (qeqb_iff _ _) eq_refl) in E2. discriminate.
Qed.

(* Every painting operator shows, in order, one item with the segments built since the last one (and its even-odd flag);
   re is m l l l h; n discards.  Missing: a closed quadrilateral that is not an axis-parallel rectangle is shown as None. *)
Theorem C39_painted_partial p l out p' : Paints p l out p' -> forall s items s', s_path s = p -> s_done s = [] ->
  run s l = ((items, None), s') ->
  s_path s' = p' /\ Forall2 (fun i o => is_painted i o \/ (i = INone /\ exists m, skew_quad m (fst o))) items out.
Proof.
  assert (PAINT : forall k c eo q s s2 l out p' items, command (bs k) = Some c -> arity c = 0%nat -> s_done s = [] ->
     exec c [] s = (paint s eo q, None) ->
     (forall s items s', s_path s = [] -> s_done s = [] -> run s l = ((items, None), s') ->
       s_path s' = p' /\ Forall2 (fun i o => is_painted i o \/ (i = INone /\ exists m, skew_quad m (fst o))) items out) ->
     run s (OK k :: l) = ((items, None), s2) ->
     s_path s2 = p' /\ Forall2 (fun i o => is_painted i o \/ (i = INone /\ exists m, skew_quad m (fst o))) items ((q, eo) :: out)).
  { intros k c eo q s s2 l0 out0 p'0 items Hc Ha Hd He IH E.
    assert (E1 : step s (OK k) = (paint s eo q, None)).
    { unfold Interp_Model.step, OK. rewrite Hc, Ha. exact He. }
    rewrite (run_item s (OK k) _ (make_curve (s_ctm s) (s_g s) eo q) l0 E1) in E.
    2:{ unfold paint. cbn [s_done with_path with_done]. rewrite Hd. reflexivity. }
    destruct (run (with_done (paint s eo q) []) l0) as [[items' e] s3] eqn:Er. injection E as <- -> ->.
    apply IH in Er; [|reflexivity|reflexivity]. destruct Er as [A B]. split; [assumption|]. constructor; [|assumption].
    destruct (make_curve_spec (s_ctm s) (s_g s) eo q) as [X|[X Y]]; [left; exact X|right; split; [exact X|exists (s_ctm s); exact Y]]. }
  induction 1 as [p|p o l out p' Ho _ IH|p x y a b l out p' H1 H2 _ IH|p x y a b l out p' H1 H2 _ IH
    |p x1 y1 x2 y2 x3 y3 a1 b1 a2 b2 a3 b3 l out p' H1 H2 H3 H4 H5 H6 _ IH|p x2 y2 x3 y3 a2 b2 a3 b3 l out p' H1 H2 H3 H4 _ IH
    |p x1 y1 x3 y3 a1 b1 a3 b3 l out p' H1 H2 H3 H4 _ IH|p l out p' _ IH|p x y w h a b c d l out p' H1 H2 H3 H4 _ IH
    |p k l out p' Hk _ IH|p k l out p' Hk _ IH|p k l out p' Hk _ IH|p l out p' _ IH|p l out p' _ IH]; intros s items s' HP HD E.
  - injection E as <- <-. split; [assumption|constructor].
  - destruct (step s o) as [s1 [e|]] eqn:E1; [cbn [Interp_Model.run] in E; rewrite E1 in E; discriminate|].
    assert (K : s_path s1 = s_path s /\ s_done s1 = s_done s).
    { destruct (step_cases getobj depth s o) as [(k & args & b & Hk & c & C1 & C2)|[(b & C1)|(b & k & Hk & C1)]].
      - rewrite C2 in E1. subst o. destruct (path_op c || item_op c) eqn:El.
        + exfalso. apply Ho. apply (not_among_ops _ k c C1). destruct c; try discriminate; vm_compute; reflexivity.
        + apply orb_false_iff in El as [El1 El2]. pose proof (exec_nopath getobj depth c args (with_args s b) El1) as K1. rewrite E1 in K1.
          pose proof (exec_noitem getobj depth c args (with_args s b) El2) as K2. rewrite E1 in K2. split; [exact K1|exact K2].
      - rewrite C1 in E1. injection E1 as <-. split; reflexivity.
      - rewrite C1 in E1. discriminate. }
    destruct K as [K1 K2]. rewrite (run_quiet s o s1 l E1) in E by congruence. apply (IH s1); [congruence|congruence|assumption].
  - change ([x; y; OK "m"] ++ l) with ([x; y] ++ OK "m" :: l) in E. unfold N_ in *.
    rewrite (run_instr "m" 2 o_m s (with_path s (s_path s ++ [SMove (a, b)])) [x; y] l) in E; try reflexivity; try assumption; [|kw|cbn [Interp_Model.exec]; unfold with_num; cbn [nums]; rewrite H1, H2; reflexivity].
    apply IH in E; [assumption|cbn; rewrite HP; reflexivity|assumption].
  - change ([x; y; OK "l"] ++ l) with ([x; y] ++ OK "l" :: l) in E. unfold N_ in *.
    rewrite (run_instr "l" 2 o_l s (with_path s (s_path s ++ [SLine (a, b)])) [x; y] l) in E; try reflexivity; try assumption; [|kw|cbn [Interp_Model.exec]; unfold with_num; cbn [nums]; rewrite H1, H2; reflexivity].
    apply IH in E; [assumption|cbn; rewrite HP; reflexivity|assumption].
  - change ([x1; y1; x2; y2; x3; y3; OK "c"] ++ l) with ([x1; y1; x2; y2; x3; y3] ++ OK "c" :: l) in E. unfold N_ in *.
    rewrite (run_instr "c" 6 o_c s (with_path s (s_path s ++ [SBoth (a1, b1) (a2, b2) (a3, b3)])) [x1; y1; x2; y2; x3; y3] l) in E; try reflexivity; try assumption; [|kw|cbn [Interp_Model.exec]; unfold with_num; cbn [nums]; rewrite H1, H2, H3, H4, H5, H6; reflexivity].
    apply IH in E; [assumption|cbn; rewrite HP; reflexivity|assumption].
  - change ([x2; y2; x3; y3; OK "v"] ++ l) with ([x2; y2; x3; y3] ++ OK "v" :: l) in E. unfold N_ in *.
    rewrite (run_instr "v" 4 o_v s (with_path s (s_path s ++ [SNext (a2, b2) (a3, b3)])) [x2; y2; x3; y3] l) in E; try reflexivity; try assumption; [|kw|cbn [Interp_Model.exec]; unfold with_num; cbn [nums]; rewrite H1, H2, H3, H4; reflexivity].
    apply IH in E; [assumption|cbn; rewrite HP; reflexivity|assumption].
  - change ([x1; y1; x3; y3; OK "y"] ++ l) with ([x1; y1; x3; y3] ++ OK "y" :: l) in E. unfold N_ in *.
    rewrite (run_instr "y" 4 o_y s (with_path s (s_path s ++ [SFirst (a1, b1) (a3, b3)])) [x1; y1; x3; y3] l) in E; try reflexivity; try assumption; [|kw|cbn [Interp_Model.exec]; unfold with_num; cbn [nums]; rewrite H1, H2, H3, H4; reflexivity].
    apply IH in E; [assumption|cbn; rewrite HP; reflexivity|assumption].
  - change (OK "h" :: l) with ([] ++ OK "h" :: l) in E.
    rewrite (run_instr "h" 0 o_h s (with_path s (s_path s ++ [SClose])) [] l) in E; try reflexivity; try assumption; [|constructor].
    apply IH in E; [assumption|cbn; rewrite HP; reflexivity|assumption].
  - change ([x; y; w; h; OK "re"] ++ l) with ([x; y; w; h] ++ OK "re" :: l) in E. unfold N_ in *.
    rewrite (run_instr "re" 4 o_re s (with_path s (s_path s ++ [SMove (a, b); SLine (a + c, b)%Qc; SLine (a + c, b + d)%Qc; SLine (a, b + d)%Qc; SClose])) [x; y; w; h] l) in E; try reflexivity; try assumption; [|kw|cbn [Interp_Model.exec]; unfold with_num; cbn [nums]; rewrite H1, H2, H3, H4; reflexivity].
    apply IH in E; [assumption|cbn; rewrite HP; reflexivity|assumption].
  - apply (PAINT k o_paint false p s s' l out p' items); try assumption; try reflexivity; [destruct Hk as [<-|[<-|[<-|[<-|[]]]]]; vm_compute; reflexivity|].
    cbn [Interp_Model.exec]. rewrite HP. reflexivity.
  - apply (PAINT k o_paint_eo true p s s' l out p' items); try assumption; try reflexivity; [destruct Hk as [<-|[<-|[]]]; vm_compute; reflexivity|].
    cbn [Interp_Model.exec]. rewrite HP. reflexivity.
  - apply (PAINT k o_close_paint false (p ++ [SClose]) s s' l out p' items); try assumption; try reflexivity; [destruct Hk as [<-|[<-|[]]]; vm_compute; reflexivity|].
    cbn [Interp_Model.exec]. rewrite HP. reflexivity.
  - apply (PAINT "b*"%string o_close_paint_eo true (p ++ [SClose]) s s' l out p' items); try assumption; try reflexivity.
    cbn [Interp_Model.exec]. rewrite HP. reflexivity.
  - rewrite (run_quiet s (OK "n") (with_path s [])) in E; [|reflexivity|exact HD]. apply IH in E; [assumption|reflexivity|exact HD].
Qed.
End painting.
(* The item of a line or rectangle carries the current line width and both colours, and its box is the smallest one holding
   the end points where the transformation matrix puts them. *)
Definition smallest_box (b : bbox) (pts : list point) : Prop :=
  (forall p, In p pts -> bx0 b <= fst p <= bx1 b /\ by0 b <= snd p <= by1 b)%Qc /\
  (exists p, In p pts /\ fst p = bx0 b) /\ (exists p, In p pts /\ fst p = bx1 b) /\
  (exists p, In p pts /\ snd p = by0 b) /\ (exists p, In p pts /\ snd p = by1 b).
Lemma minmax2 a b : (qmin a b <= a /\ qmin a b <= b /\ a <= qmax a b /\ b <= qmax a b)%Qc /\ (qmin a b = a \/ qmin a b = b) /\ (qmax a b = a \/ qmax a b = b).
Proof. repeat split; try apply qmin_l; try apply qmin_r; try apply qmax_l; try apply qmax_r; try apply qmin_cases; apply qmax_cases. Qed.
Lemma min4 a b c d : let m := qmin (qmin (qmin a b) c) d in (m <= a /\ m <= b /\ m <= c /\ m <= d)%Qc /\ (m = a \/ m = b \/ m = c \/ m = d).
Proof.
  cbv zeta. pose proof (qmin_l (qmin (qmin a b) c) d). pose proof (qmin_r (qmin (qmin a b) c) d). pose proof (qmin_l (qmin a b) c). pose proof (qmin_r (qmin a b) c).
  pose proof (qmin_l a b). pose proof (qmin_r a b). split; [repeat split; qc_lra|].
  destruct (qmin_cases (qmin (qmin a b) c) d) as [->| ->]; [|tauto]. destruct (qmin_cases (qmin a b) c) as [->| ->]; [|tauto]. destruct (qmin_cases a b) as [->| ->]; tauto.
Qed.
Lemma max4 a b c d : let m := qmax (qmax (qmax a b) c) d in (a <= m /\ b <= m /\ c <= m /\ d <= m)%Qc /\ (m = a \/ m = b \/ m = c \/ m = d).
Proof.
  cbv zeta. pose proof (qmax_l (qmax (qmax a b) c) d). pose proof (qmax_r (qmax (qmax a b) c) d). pose proof (qmax_l (qmax a b) c). pose proof (qmax_r (qmax a b) c).
  pose proof (qmax_l a b). pose proof (qmax_r a b). split; [repeat split; qc_lra|].
  destruct (qmax_cases (qmax (qmax a b) c) d) as [->| ->]; [|tauto]. destruct (qmax_cases (qmax a b) c) as [->| ->]; [|tauto]. destruct (qmax_cases a b) as [->| ->]; tauto.
Qed.
Lemma Bbox_ordered x0 y0 x1 y1 : (x0 <= x1)%Qc -> (y0 <= y1)%Qc -> Bbox x0 y0 x1 y1 = mkBox x0 y0 x1 y1.
Proof.
  intros H1 H2. unfold Bbox. assert (K : forall a b, (a <= b)%Qc -> qmin a b = a /\ qmax a b = b).
  { intros a b H. unfold qmin, qmax. destruct (qlt b a) eqn:E; [apply qlt_iff in E; exfalso; qc_lra|]. split; [reflexivity|].
    destruct (qlt a b) eqn:E2; [reflexivity|]. apply qlt_false in E2. apply qc_le_antisym; assumption. }
  destruct (K _ _ H1) as [-> ->], (K _ _ H2) as [-> ->]. reflexivity.
Qed.
Theorem C39_item_line ctm g eo p0 p1 : exists k box,
  make_curve ctm g eo [SMove p0; SLine p1] = ICurve k (g_width g) [SMove p0; SLine p1] box (g_scolor g) (g_ncolor g) eo /\
  smallest_box box [apply_matrix_pt ctm p0; apply_matrix_pt ctm p1] /\
  (k = CVert <-> fst (apply_matrix_pt ctm p0) = fst (apply_matrix_pt ctm p1)) /\
  (k = CHoriz <-> fst (apply_matrix_pt ctm p0) <> fst (apply_matrix_pt ctm p1) /\ snd (apply_matrix_pt ctm p0) = snd (apply_matrix_pt ctm p1)).
Proof.
  unfold make_curve. destruct (apply_matrix_pt ctm p0) as [x0 y0], (apply_matrix_pt ctm p1) as [x1 y1]. do 2 eexists. split; [reflexivity|]. split.
  - destruct (minmax2 x0 x1) as ((A1 & A2 & A3 & A4) & A5 & A6), (minmax2 y0 y1) as ((B1 & B2 & B3 & B4) & B5 & B6). unfold smallest_box, Bbox. cbn [bx0 bx1 by0 by1].
    split; [intros p [<-|[<-|[]]]; cbn [fst snd]; repeat split; assumption|].
    split; [destruct A5 as [E| E]; [exists (x0, y0)|exists (x1, y1)]; cbn [In fst snd]; rewrite E; tauto|].
    split; [destruct A6 as [E| E]; [exists (x0, y0)|exists (x1, y1)]; cbn [In fst snd]; rewrite E; tauto|].
    split; [destruct B5 as [E| E]; [exists (x0, y0)|exists (x1, y1)]; cbn [In fst snd]; rewrite E; tauto|].
    destruct B6 as [E| E]; [exists (x0, y0)|exists (x1, y1)]; cbn [In fst snd]; rewrite E; tauto.
  - cbn [fst snd]. destruct (qeqb x0 x1) eqn:E1.
    + apply qeqb_iff in E1. split; [tauto|]. split; [discriminate|tauto].
    + assert (x0 <> x1) by (intros ->; rewrite (proj2 (qeqb_iff _ _) eq_refl) in E1; discriminate).
      destruct (qeqb y0 y1) eqn:E2; (split; [split; [discriminate|tauto]|]).
      * apply qeqb_iff in E2. tauto.
      * assert (y0 <> y1) by (intros ->; rewrite (proj2 (qeqb_iff _ _) eq_refl) in E2; discriminate). split; [discriminate|tauto].
Qed.
Theorem C39_item_rect ctm g eo p0 p1 p2 p3 : ~ skew_quad ctm [SMove p0; SLine p1; SLine p2; SLine p3; SClose] -> exists box,
  make_curve ctm g eo [SMove p0; SLine p1; SLine p2; SLine p3; SClose] =
    ICurve CRect (g_width g) [SMove p0; SLine p1; SLine p2; SLine p3; SClose] box (g_scolor g) (g_ncolor g) eo /\
  smallest_box box (map (apply_matrix_pt ctm) [p0; p1; p2; p3]).
Proof.
  intros H. destruct (make_curve_spec ctm g eo [SMove p0; SLine p1; SLine p2; SLine p3; SClose]) as [_|[_ X]]; [|contradiction].
  unfold make_curve. cbn [map].
  destruct (apply_matrix_pt ctm p0) as [x0 y0] eqn:A0, (apply_matrix_pt ctm p1) as [x1 y1] eqn:A1, (apply_matrix_pt ctm p2) as [x2 y2] eqn:A2, (apply_matrix_pt ctm p3) as [x3 y3] eqn:A3.
  destruct (_ || _) eqn:E.
  - eexists. split; [reflexivity|].
    destruct (min4 x0 x1 x2 x3) as [(L1 & L2 & L3 & L4) L5], (max4 x0 x1 x2 x3) as [(U1 & U2 & U3 & U4) U5], (min4 y0 y1 y2 y3) as [(M1 & M2 & M3 & M4) M5], (max4 y0 y1 y2 y3) as [(V1 & V2 & V3 & V4) V5].
    rewrite Bbox_ordered by qc_lra. unfold smallest_box. cbn [bx0 bx1 by0 by1 In].
    split; [intros p [<-|[<-|[<-|[<-|[]]]]]; cbn [fst snd]; repeat split; assumption|].
    split; [destruct L5 as [K|[K|[K|K]]]; rewrite K; [exists (x0, y0)|exists (x1, y1)|exists (x2, y2)|exists (x3, y3)]; cbn; tauto|].
    split; [destruct U5 as [K|[K|[K|K]]]; rewrite K; [exists (x0, y0)|exists (x1, y1)|exists (x2, y2)|exists (x3, y3)]; cbn; tauto|].
    split; [destruct M5 as [K|[K|[K|K]]]; rewrite K; [exists (x0, y0)|exists (x1, y1)|exists (x2, y2)|exists (x3, y3)]; cbn; tauto|].
    destruct V5 as [K|[K|[K|K]]]; rewrite K; [exists (x0, y0)|exists (x1, y1)|exists (x2, y2)|exists (x3, y3)]; cbn; tauto.
  - exfalso. apply H. exists p0, p1, p2, p3. split; [reflexivity|]. cbv zeta. rewrite A0, A1, A2, A3. cbn [fst snd]. apply orb_false_iff in E as [E1 E2].
    split; intros (B1 & B2 & B3 & B4); subst.
    + rewrite !(proj2 (qeqb_iff _ _) eq_refl) in E1. discriminate.
    + rewrite !(proj2 (qeqb_iff _ _) eq_refl) in E2. discriminate.
Qed.
(* Stroking and filling leave no trace: S, f, F and B do the same, so do f* and B*, and s and b. *)
Theorem C39_stroke_or_fill_lost s : step s (OK "S") = step s (OK "f") /\ step s (OK "S") = step s (OK "B") /\ step s (OK "S") = step s (OK "F") /\
  step s (OK "f*") = step s (OK "B*") /\ step s (OK "s") = step s (OK "b").
Proof. repeat split. Qed.

(* ================= C40 ================= *)
(* no resource redefines the device colour spaces *)
Definition device_spaces (s : istate) : Prop :=
  forall n k, In (n, k) [("DeviceGray"%string, 1); ("DeviceRGB"%string, 3); ("DeviceCMYK"%string, 4)] ->
  assoc_get (s_cs s) (ON n) = Some (Some (mkCs (ON n) (OInt k))).
Definition stroke_set (s s' : istate) (n : string) (k : Z) (vals : list obj) : Prop :=
  s' = with_g s (s_g s') /\ g_scolor (s_g s') = mkColor (Some (mkCs (ON n) (OInt k))) vals /\ g_ncolor (s_g s') = g_ncolor (s_g s).
Definition nonstroke_set (s s' : istate) (n : string) (k : Z) (vals : list obj) : Prop :=
  s' = with_g s (s_g s') /\ g_ncolor (s_g s') = mkColor (Some (mkCs (ON n) (OInt k))) vals /\ g_scolor (s_g s') = g_scolor (s_g s).
Theorem C40_gray s o : device_spaces s -> (forall k, o <> OKwd k) ->
  (exists s', steps s [o; OK "G"] = (s', None) /\ stroke_set s s' "DeviceGray" 1 [o]) /\
  (exists s', steps s [o; OK "g"] = (s', None) /\ nonstroke_set s s' "DeviceGray" 1 [o]).
Proof.
  intros D H. assert (E : assoc_get (s_cs s) (ON "DeviceGray") = _) by (apply D; left; reflexivity).
  split; eexists; split.
  - change [o; OK "G"] with ([o] ++ OK "G" :: []). rewrite (steps_instr "G" 1 o_G); try reflexivity; [|repeat constructor; assumption].
    cbn [Interp_Model.exec]. unfold device. rewrite E. reflexivity.
  - split; [reflexivity|split; reflexivity].
  - change [o; OK "g"] with ([o] ++ OK "g" :: []). rewrite (steps_instr "g" 1 o_g); try reflexivity; [|repeat constructor; assumption].
    cbn [Interp_Model.exec]. unfold device. rewrite E. reflexivity.
  - split; [reflexivity|split; reflexivity].
Qed.
(* components of RGB colours are held as integers of 0..255 *)
Theorem C40_rgb s x y z r g b : device_spaces s -> N_ x r -> N_ y g -> N_ z b ->
  let v := map (fun c => OInt (qround (c * qz 255)%Qc)) [r; g; b] in
  (exists s', steps s [x; y; z; OK "RG"] = (s', None) /\ stroke_set s s' "DeviceRGB" 3 v) /\
  (exists s', steps s [x; y; z; OK "rg"] = (s', None) /\ nonstroke_set s s' "DeviceRGB" 3 v).
Proof.
  intros D H1 H2 H3 v. assert (E : assoc_get (s_cs s) (ON "DeviceRGB") = _) by (apply D; right; left; reflexivity).
  split; eexists; split.
  - change [x; y; z; OK "RG"] with ([x; y; z] ++ OK "RG" :: []). rewrite (steps_instr "RG" 3 o_RG); try reflexivity; [|kw]. unfold N_ in *.
    cbn [Interp_Model.exec nums]. rewrite H1, H2, H3. unfold device. rewrite E. reflexivity.
  - split; [reflexivity|split; reflexivity].
  - change [x; y; z; OK "rg"] with ([x; y; z] ++ OK "rg" :: []). rewrite (steps_instr "rg" 3 o_rg); try reflexivity; [|kw]. unfold N_ in *.
    cbn [Interp_Model.exec nums]. rewrite H1, H2, H3. unfold device. rewrite E. reflexivity.
  - split; [reflexivity|split; reflexivity].
Qed.
Theorem C40_cmyk_stroke_partial s a b c d : device_spaces s -> Forall (fun o => forall k, o <> OKwd k) [a; b; c; d] ->
  exists s', steps s [a; b; c; d; OK "K"] = (s', None) /\ stroke_set s s' "DeviceCMYK" 4 [a; b; c; d].
Proof.
  intros D H. assert (E : assoc_get (s_cs s) (ON "DeviceCMYK") = _) by (apply D; right; right; left; reflexivity).
  eexists; split.
  - change [a; b; c; d; OK "K"] with ([a; b; c; d] ++ OK "K" :: []). rewrite (steps_instr "K" 4 o_K); try reflexivity; [|assumption].
  cbn [Interp_Model.exec]. unfold device. rewrite E. reflexivity.
  - split; [reflexivity|split; reflexivity].
Qed.
(* k, which should set the non-stroking colour, sets the stroking one: it is the same as K. *)
Theorem C40_k_is_K s a b c d : Forall (fun o => forall k, o <> OKwd k) [a; b; c; d] -> steps s [a; b; c; d; OK "k"] = steps s [a; b; c; d; OK "K"].
Proof.
  intros H. change [a; b; c; d; OK "K"] with ([a; b; c; d] ++ OK "K" :: []). change [a; b; c; d; OK "k"] with ([a; b; c; d] ++ OK "k" :: []).
  rewrite (steps_instr "K" 4 o_K), (steps_instr "k" 4 o_k); try reflexivity; assumption.
Qed.
(* only colour operators change colours *)
Definition color_words : list string := ["G"; "g"; "RG"; "rg"; "K"; "k"; "SC"; "SCN"; "sc"; "scn"]%string.
Theorem C40_others_keep_colours l s s' : Forall (fun o => ~ among o color_words) l -> steps s l = (s', None) ->
  g_scolor (s_g s') = g_scolor (s_g s) /\ g_ncolor (s_g s') = g_ncolor (s_g s).
Proof.
  intros H. revert s. induction H as [|o l Ho _ IH]; intros s E; cbn [Interp_Model.steps] in E.
  - injection E as <-. split; reflexivity.
  - destruct (step s o) as [s1 [e|]] eqn:E1; [discriminate|]. apply IH in E as [A B]. rewrite A, B.
    destruct (step_cases getobj depth s o) as [(k & args & b & Hk & c & C1 & C2)|[(b & C1)|(b & k & Hk & C1)]].
    + rewrite C2 in E1. subst o. destruct (color_op c) eqn:El.
      * exfalso. apply Ho. apply (not_among_ops _ k c C1). destruct c; try discriminate; vm_compute; reflexivity.
      * pose proof (exec_nocolor getobj depth c args (with_args s b) El) as K. rewrite E1 in K. exact K.
    + rewrite C1 in E1. injection E1 as <-. split; reflexivity.
    + rewrite C1 in E1. discriminate.
Qed.

(* ================= C41 ================= *)
Definition has_chr (l : list tj) : Prop := exists c, In (Chr c) l.
(* Tw applies to single-byte codes only *)
Definition eff_tw (f : font) (t : tstate) : num := if f_multibyte f then qz 0 else t_wordspace t.
Definition th (t : tstate) : num := (t_scaling t * centi)%Qc.
Lemma places_chars w sz tc tw h l : forall x, map fst (spec_places w sz tc tw h x l) = flat_map (fun t => match t with Chr c => [c] | _ => [] end) l.
Proof. induction l as [|[v|c] l IH]; intros x; cbn [spec_places flat_map]; [reflexivity|apply IH|]. cbn [map fst app]. f_equal. apply IH. Qed.
Lemma show_spec s f b seq l : t_font (s_text s) = Some f -> s_block s = Some b -> tj_seq (f_decode f) seq l ->
  (t_ignore (s_text s) = true \/ forall c, In (Chr c) l -> f_unichr f c <> None) ->
  let t := s_text s in
  let tc := t_charspace t in
  let ts := decode_ts f t (s_ctm s) in
  let places := spec_places (f_width f) (t_size t) tc (eff_tw f t) (th t) (if starts_chr l then qz 0 else (tc * th t)%Qc) l in
  let total := (spec_total (f_width f) (t_size t) tc (eff_tw f t) (th t) l - (if starts_chr l then tc * th t else qz 0))%Qc in
  render_seq f ts (dxscale_of ts) (hget (s_heap s) (t_lm ts)) false seq =
    (advance (f_vertical f) (line_pos s) total, map (shown f ts (line_pos s)) places, None).
Proof.
  intros Hf Hb Hs Hr t tc ts places total.
  change (hget (s_heap s) (t_lm ts)) with (line_pos s). rewrite <- (advance_0 (f_vertical f) (line_pos s)) at 1.
  rewrite (render_seq_code f ts (dxscale_of ts) seq l Hs).
  - assert (V : t_wordspace ts = (eff_tw f t * th t)%Qc).
    { unfold ts, decode_ts, eff_tw, th. cbn [t_wordspace]. fold t. destruct (f_multibyte f); [change (qz 0) with 0%Qc; ring|reflexivity]. }
    destruct (code_start f ts tc (eff_tw f t) (th t) eq_refl V eq_refl l (qz 0)) as [A B].
    change (t_size ts) with (t_size t) in A, B.
    replace (dxscale_of ts) with (milli * t_size t * th t)%Qc by reflexivity. rewrite A, B. unfold places, total.
    assert (Z1 : forall x : num, (qz 0 + x)%Qc = x) by (intros; change (qz 0) with 0%Qc; ring).
    rewrite !Z1. reflexivity.
  - rewrite Forall_forall. intros [v|c] Hin; [exact I|]. destruct Hr as [Hr|Hr]; [left; exact Hr|right; apply Hr; exact Hin].
Qed.
Lemma glyph_corner f t ctm pos c : f_vertical f = false ->
  box_of (snd (char_box f (decode_ts f t ctm) (translate_matrix (mult_matrix (t_matrix t) ctm) pos) c)) =
  corner_box (text_rendering_matrix (t_size t) (th t) (t_rise t) pos (t_matrix t) ctm) (qz 0, f_descent f) (f_width f c, f_descent f + f_height f)%Qc.
Proof.
  intros Hv. rewrite box_of_char, Hv. cbv beta iota zeta. unfold corner_box, text_rendering_matrix, glyph_adv. cbn [t_size decode_ts t_rise t_scaling].
  fold (th t). destruct (mult_matrix (t_matrix t) ctm) as [[[[[a b] c'] d] e] g]. destruct pos as [x y].
  unfold translate_matrix, mult_matrix, apply_matrix_pt. cbn [fst snd]. change (qz 0) with 0%Qc. change (qz 1) with 1%Qc. f_equal; ring.
Qed.
(* TJ with a horizontal font: one character block with the characters in order.  Character by character the displacement is
   that of the specification, except that the whole block is moved by Tc*Th when the array starts with an adjustment, and that
   the final position lacks Tc*Th when it does not. *)
Theorem C41_show_partial s f b seq l : t_font (s_text s) = Some f -> f_vertical f = false -> s_block s = Some b -> tj_seq (f_decode f) seq l ->
  has_chr l -> (t_ignore (s_text s) = true \/ forall c, In (Chr c) l -> f_unichr f c <> None) -> (t_lm (s_text s) < length (s_heap s))%nat ->
  let t := s_text s in
  let start := if starts_chr l then qz 0 else (t_charspace t * th t)%Qc in
  let lack := if starts_chr l then (t_charspace t * th t)%Qc else qz 0 in
  exists s' b' cb, steps s [OArr seq; OK "TJ"] = (s', None) /\ s_block s' = Some b' /\ tb_blocks b' = tb_blocks b ++ [cb] /\
    cb_color cb = g_ncolor (s_g s) /\ t_size (cb_text cb) = t_size t /\ t_font (cb_text cb) = Some f /\
    cb_chars cb = map (fun p => (match f_unichr f (fst p) with Some u => u | None => [] end,
         corner_box (text_rendering_matrix (t_size t) (th t) (t_rise t) (fst (line_pos s) + snd p, snd (line_pos s))%Qc (t_matrix t) (s_ctm s))
           (qz 0, f_descent f) (f_width f (fst p), f_descent f + f_height f)%Qc))
       (spec_places (f_width f) (t_size t) (t_charspace t) (eff_tw f t) (th t) start l) /\
    line_pos s' = (fst (line_pos s) + (spec_total (f_width f) (t_size t) (t_charspace t) (eff_tw f t) (th t) l - lack), snd (line_pos s))%Qc /\
    t_matrix (s_text s') = t_matrix t /\ s_ctm s' = s_ctm s /\ s_g s' = s_g s.
Proof.
  intros Hf Hv Hb Hs [c0 Hc] Hr Hl t start lack. pose proof (show_spec s f b seq l Hf Hb Hs Hr) as R. cbv zeta in R. fold t in R.
  fold start in R. set (places := spec_places (f_width f) (t_size t) (t_charspace t) (eff_tw f t) (th t) start l) in *.
  assert (P : places <> []).
  { intros E. pose proof (places_chars (f_width f) (t_size t) (t_charspace t) (eff_tw f t) (th t) l start) as K. fold places in K. rewrite E in K. cbn in K.
    clear -K Hc. induction l as [|[v|c] l IH]; [destruct Hc|destruct Hc as [X|Hc]; [discriminate|apply IH; assumption]|discriminate]. }
  change [OArr seq; OK "TJ"] with ([OArr seq] ++ OK "TJ" :: []). rewrite (steps_instr "TJ" 1 o_TJ); try reflexivity; [|repeat constructor; discriminate].
  cbn [Interp_Model.exec]. unfold show. rewrite Hf, Hb. fold t. rewrite R.
  destruct (char_block (map (shown f (decode_ts f t (s_ctm s)) (line_pos s)) places) (decode_ts f t (s_ctm s)) (g_ncolor (s_g s))) as [cb|e] eqn:Ecb.
  2:{ exfalso. destruct places as [|[c1 x1] pl]; [congruence|]. cbn [map] in Ecb. unfold shown at 1 in Ecb. cbn [char_block fst snd] in Ecb.
      destruct (char_box _ _ _ c1) as [adv [[? ?] [? ?]]]. cbn [snd] in Ecb. destruct (cb_union _ _ _ _ _) as [[[? ?] ?] ?]. discriminate. }
  assert (C : cb_chars cb = map (fun q => (fst q, box_of (snd q))) (map (shown f (decode_ts f t (s_ctm s)) (line_pos s)) places) /\
              cb_color cb = g_ncolor (s_g s) /\ cb_text cb = decode_ts f t (s_ctm s)).
  { destruct places as [|[c1 x1] pl]; [congruence|]. cbn [map] in Ecb |- *. unfold char_block in Ecb. unfold shown at 1 in Ecb. cbn [fst snd] in Ecb. unfold shown at 1.
    cbn [fst snd]. destruct (char_box _ _ _ c1) as [adv [[? ?] [? ?]]]. cbn [snd] in Ecb |- *. destruct (cb_union _ _ _ _ _) as [[[? ?] ?] ?]. injection Ecb as <-. repeat split. }
  destruct C as (C1 & C2 & C3). eexists. exists (block_add b cb), cb. cbn [ok Interp_Model.steps].
  split; [reflexivity|]. split; [reflexivity|]. split; [reflexivity|]. split; [assumption|]. rewrite C3. split; [reflexivity|]. split; [exact Hf|].
  split; [|split; [|split; [reflexivity|split; reflexivity]]].
  - rewrite C1, map_map. apply map_ext. intros [c x]. cbn [fst snd shown]. unfold shown. cbn [fst snd]. f_equal.
    change (t_matrix (decode_ts f t (s_ctm s))) with (mult_matrix (t_matrix t) (s_ctm s)). rewrite (glyph_corner f t (s_ctm s) _ c Hv). rewrite Hv.
    destruct (line_pos s) as [px py]. reflexivity.
  - unfold line_pos at 1. cbn [s_heap s_text with_block with_heap]. rewrite hget_hset_same by exact Hl. rewrite Hv.
    destruct (line_pos s) as [px py]. reflexivity.
Qed.
(* with no character spacing all is exact *)
Corollary C41_show_exact_without_Tc_partial s f b seq l : t_charspace (s_text s) = qz 0 ->
  t_font (s_text s) = Some f -> f_vertical f = false -> s_block s = Some b -> tj_seq (f_decode f) seq l ->
  has_chr l -> (t_ignore (s_text s) = true \/ forall c, In (Chr c) l -> f_unichr f c <> None) -> (t_lm (s_text s) < length (s_heap s))%nat ->
  let t := s_text s in
  exists s' b' cb, steps s [OArr seq; OK "TJ"] = (s', None) /\ s_block s' = Some b' /\ tb_blocks b' = tb_blocks b ++ [cb] /\
    cb_chars cb = map (fun p => (match f_unichr f (fst p) with Some u => u | None => [] end,
         corner_box (text_rendering_matrix (t_size t) (th t) (t_rise t) (fst (line_pos s) + snd p, snd (line_pos s))%Qc (t_matrix t) (s_ctm s))
           (qz 0, f_descent f) (f_width f (fst p), f_descent f + f_height f)%Qc))
       (spec_places (f_width f) (t_size t) (qz 0) (eff_tw f t) (th t) (qz 0) l) /\
    line_pos s' = (fst (line_pos s) + spec_total (f_width f) (t_size t) (qz 0) (eff_tw f t) (th t) l, snd (line_pos s))%Qc.
Proof.
  intros H0 H1 H2 H3 H4 H5 H6 H7 t. destruct (C41_show_partial s f b seq l H1 H2 H3 H4 H5 H6 H7) as (s' & b' & cb & A1 & A2 & A3 & _ & _ & _ & A4 & A5 & _).
  rewrite H0 in A4, A5. exists s', b', cb. split; [assumption|]. split; [assumption|]. split; [assumption|].
  assert (Z1 : forall x : num, (qz 0 * x)%Qc = qz 0) by (intros; change (qz 0) with 0%Qc; ring).
  rewrite Z1 in A4, A5. fold t in A4, A5. split.
  - rewrite A4. destruct (starts_chr l); reflexivity.
  - rewrite A5. assert (Z2 : forall x : num, (x - qz 0)%Qc = x) by (intros; change (qz 0) with 0%Qc; ring). destruct (starts_chr l); rewrite Z2; reflexivity.
Qed.
(* vertical fonts: the displacement, along y (the specification has Th = 1 there; the code applies Th) *)
Theorem C41_vertical_partial s f b seq l : t_font (s_text s) = Some f -> f_vertical f = true -> s_block s = Some b -> tj_seq (f_decode f) seq l ->
  has_chr l -> (t_ignore (s_text s) = true \/ forall c, In (Chr c) l -> f_unichr f c <> None) -> (t_lm (s_text s) < length (s_heap s))%nat ->
  let t := s_text s in
  let lack := if starts_chr l then (t_charspace t * th t)%Qc else qz 0 in
  exists s', steps s [OArr seq; OK "TJ"] = (s', None) /\
    line_pos s' = (fst (line_pos s), snd (line_pos s) + (spec_total (f_width f) (t_size t) (t_charspace t) (eff_tw f t) (th t) l - lack))%Qc.
Proof.
  intros Hf Hv Hb Hs [c0 Hc] Hr Hl t lack. pose proof (show_spec s f b seq l Hf Hb Hs Hr) as R. cbv zeta in R. fold t in R.
  set (places := spec_places (f_width f) (t_size t) (t_charspace t) (eff_tw f t) (th t) _ l) in *.
  assert (P : places <> []).
  { intros E. pose proof (places_chars (f_width f) (t_size t) (t_charspace t) (eff_tw f t) (th t) l (if starts_chr l then qz 0 else (t_charspace t * th t)%Qc)) as K. fold places in K. rewrite E in K. cbn in K.
    clear -K Hc. induction l as [|[v|c] l IH]; [destruct Hc|destruct Hc as [X|Hc]; [discriminate|apply IH; assumption]|discriminate]. }
  change [OArr seq; OK "TJ"] with ([OArr seq] ++ OK "TJ" :: []). rewrite (steps_instr "TJ" 1 o_TJ); try reflexivity; [|repeat constructor; discriminate].
  cbn [Interp_Model.exec]. unfold show. rewrite Hf, Hb. fold t. rewrite R.
  destruct (char_block _ _ _) as [cb|e] eqn:Ecb.
  2:{ exfalso. destruct places as [|[c1 x1] pl]; [congruence|]. cbn [map] in Ecb. unfold shown at 1 in Ecb. cbn [char_block fst snd] in Ecb.
      destruct (char_box _ _ _ c1) as [adv [[? ?] [? ?]]]. cbn [snd] in Ecb. destruct (cb_union _ _ _ _ _) as [[[? ?] ?] ?]. discriminate. }
  eexists. split; [reflexivity|]. unfold line_pos at 1. cbn [s_heap s_text with_block with_heap]. rewrite hget_hset_same by exact Hl. rewrite Hv.
  destruct (line_pos s) as [px py]. reflexivity.
Qed.
(* showing nothing is an error *)
Theorem C41_empty_string_raises s f b seq l : t_font (s_text s) = Some f -> s_block s = Some b -> tj_seq (f_decode f) seq l -> ~ has_chr l ->
  snd (steps s [OArr seq; OK "TJ"]) = Some IndexError.
Proof.
  intros Hf Hb Hs Hn. assert (Hr : t_ignore (s_text s) = true \/ forall c, In (Chr c) l -> f_unichr f c <> None).
  { right. intros c Hc. exfalso. apply Hn. exists c. assumption. }
  pose proof (show_spec s f b seq l Hf Hb Hs Hr) as R. cbv zeta in R.
  match type of R with _ = (_, map _ ?p, _) => assert (P : p = []) end.
  { destruct (spec_places _ _ _ _ _ _ l) as [|[c x] pl] eqn:E; [reflexivity|]. exfalso. apply Hn. exists c.
    apply (f_equal (map fst)) in E. rewrite places_chars in E. cbn [map fst] in E.
    assert (K : In c (flat_map (fun t => match t with Chr c => [c] | _ => [] end) l)) by (rewrite E; left; reflexivity).
    apply in_flat_map in K as ([v|c'] & K1 & K2); [destruct K2|]. destruct K2 as [->|[]]. assumption. }
  rewrite P in R. change [OArr seq; OK "TJ"] with ([OArr seq] ++ OK "TJ" :: []). rewrite (steps_instr "TJ" 1 o_TJ); try reflexivity; [|repeat constructor; discriminate].
  cbn [Interp_Model.exec]. unfold show. rewrite Hf, Hb, R. reflexivity.
Qed.
(* Tj is TJ with a one-element array *)
Theorem C41_Tj_is_TJ s o : (forall k, o <> OKwd k) -> steps s [o; OK "Tj"] = steps s [OArr [o]; OK "TJ"].
Proof.
  intros H. change [o; OK "Tj"] with ([o] ++ OK "Tj" :: []). change [OArr [o]; OK "TJ"] with ([OArr [o]] ++ OK "TJ" :: []).
  rewrite (steps_instr "Tj" 1 o_Tj), (steps_instr "TJ" 1 o_TJ); try reflexivity; repeat constructor; try assumption. discriminate.
Qed.

End props.
