(* C75: every parameter has the value its latest operator gave it. *)
From Coq Require Import String ZifyBool ZifyNat.
From Verif Require Import Base Obj Stream_Model Num Geom_Model Page_Model Interp_Model Interp_Spec Interp_Proofs Text_Proofs Geom_Props Interp_Props Interp_Witness State_Spec.
From Coq Require Import Qcanon.
Open Scope Z_scope.
Import ListNotations.

Section props.
Context (getobj : Z -> option obj) (depth : nat).
Notation step := (step getobj depth).
Notation steps := (steps getobj depth).
Notation exec := (exec getobj depth).

Definition same_pars (t t' : tstate) : Prop :=
  t_font t' = t_font t /\ t_size t' = t_size t /\ t_charspace t' = t_charspace t /\ t_wordspace t' = t_wordspace t /\ t_scaling t' = t_scaling t /\
  t_leading t' = t_leading t /\ t_render t' = t_render t /\ t_rise t' = t_rise t.
Definition param_op (c : op) : bool :=
  match c with o_q | o_Q | o_cm | o_Tc | o_Tw | o_Tz | o_TL | o_Tf | o_Tr | o_Ts | o_TD | o_dquote => true | _ => false end.
Definition kept (s s1 : istate) : Prop := same_pars (s_text s) (s_text s1) /\ s_ctm s1 = s_ctm s /\ s_gstack s1 = s_gstack s /\ s_fonts s1 = s_fonts s.
Ltac kw := repeat constructor; eapply num_not_kwd; eassumption.
Ltac kp := cbn; repeat split.
Ltac shw s q := destruct (show_frame s q) as (?lm & ?b & [->| ->]); kp.
Lemma exec_kept c args s : param_op c = false -> kept s (fst (exec c args s)).
Proof.
  intros H. destruct c; try discriminate; unfold Interp_Model.exec, with_num, device, paint, nextline, fresh_lm, move_text, add_item, ok, fail;
    try (destruct args as [|? [|? [|? [|]]]]; try (solve [kp]));
    try solve [brk; kp]; try solve [match goal with |- context [show ?s ?q] => shw s q end].
  all: try solve [destruct (nums _) as [v|]; [|kp]; brk; kp].
  - brk; try (solve [kp]); pose proof (pop_other s z) as P; rewrite Heqp in P; destruct P as (k & -> & _); kp.
  - brk; try (solve [kp]); pose proof (pop_other s z) as P; rewrite Heqp in P; destruct P as (k & -> & _); kp.
  - destruct o; try (match goal with |- context [show ?s ?q] => shw s q end); brk; kp.
Qed.
Lemma step_kept s o s1 : ~ among o param_words -> step s o = (s1, None) -> kept s s1.
Proof.
  intros Ho E. destruct (step_cases getobj depth s o) as [(k & args & b & Hk & c & C1 & C2)|[(b & C1)|(b & k & Hk & C1)]].
  - rewrite C2 in E. subst o. destruct (param_op c) eqn:Es.
    + exfalso. apply Ho. apply (not_among_ops _ k c C1). destruct c; try discriminate; vm_compute; reflexivity.
    + pose proof (exec_kept c args (with_args s b) Es) as K. rewrite E in K. exact K.
  - rewrite C1 in E. injection E as <-. kp.
  - rewrite C1 in E. discriminate.
Qed.
(* the state s has these parameters; the leading is kept with the opposite sign *)
Definition is_trans (m : matrix) (base : num * num -> num * num) (T : list coefs) : Prop := forall p, apply_matrix_pt m p = base (through T p).
Definition is_pars (t : tstate) (P : tpar) : Prop :=
  t_charspace t = p_char P /\ t_wordspace t = p_word P /\ t_scaling t = p_scale P /\ t_leading t = (- p_lead P)%Qc /\ t_rise t = p_rise P /\
  t_size t = p_size P /\ t_font t = p_font P /\ t_render t = p_mode P.
Definition is_saved (base : num * num -> num * num) (st : list (matrix * tstate * gstate)) (S : list (list coefs * tpar)) : Prop :=
  Forall2 (fun x y => is_trans (fst (fst x)) base (fst y) /\ is_pars (snd (fst x)) (snd y)) (rev st) S.
Lemma same_is t t' P : same_pars t t' -> is_pars t P -> is_pars t' P.
Proof. unfold same_pars, is_pars. intuition congruence. Qed.
Lemma forall2_nums xs vs : Forall2 N_ xs vs -> nums xs = Some vs /\ Forall (fun o => forall k, o <> OKwd k) xs /\ length xs = length vs.
Proof.
  induction 1 as [|x v xs vs H _ (I1 & I2 & I3)]; [repeat split; constructor|]. cbn [nums]. unfold N_ in H. rewrite H, I1. repeat split; [|cbn; congruence].
  constructor; [|exact I2]. intros k ->. discriminate.
Qed.
Lemma trans_cm m base T a b c d e f : is_trans m base T -> is_trans (mult_matrix (a, b, c, d, e, f) m) base ((a, b, c, d, e, f) :: T).
Proof.
  intros H p. rewrite C33_compose, H. unfold through. cbn [fold_left]. destruct p as [x y]. reflexivity.
Qed.
Ltac is_p := unfold is_pars in *; cbn in *; intuition congruence.
Theorem C75_state fonts base T P S l T' P' S' : Params fonts T P S l T' P' S' -> forall s s', (forall n, assoc_get (s_fonts s) (OName n) = fonts n) ->
  is_trans (s_ctm s) base T -> is_pars (s_text s) P -> is_saved base (s_gstack s) S -> steps s l = (s', None) ->
  is_trans (s_ctm s') base T' /\ is_pars (s_text s') P' /\ is_saved base (s_gstack s') S'.
Proof.
  induction 1 as [T P S|T P S o l T' P' S' Ho _ IH|T P S xs a b c d e f l T' P' S' Hx _ IH|T P S l T' P' S' _ IH|T P T1 P1 S l T' P' S' _ IH
    |T P S x v l T' P' S' Hx _ IH|T P S x v l T' P' S' Hx _ IH|T P S x v l T' P' S' Hx _ IH|T P S x v l T' P' S' Hx _ IH|T P S x v l T' P' S' Hx _ IH
    |T P S x l T' P' S' Hx _ IH|T P S n f x v l T' P' S' Hf Hx _ IH|T P S x y v w l T' P' S' Hx Hy _ IH|T P S x y z v w l T' P' S' Hx Hy Hz _ IH];
    intros s s' HF HT HP HS E.
  - injection E as <-. splits; assumption.
  - cbn [Interp_Model.steps] in E. destruct (step s o) as [s1 [e|]] eqn:E1; [discriminate|].
    destruct (step_kept s o s1 Ho E1) as (K1 & K2 & K3 & K4). apply IH in E; [exact E|rewrite K4; exact HF|rewrite K2; exact HT|eapply same_is; eassumption|rewrite K3; exact HS].
  - destruct (forall2_nums _ _ Hx) as (N1 & N2 & N3). rewrite (steps_instr getobj depth "cm" 6 o_cm) in E; try reflexivity; try assumption.
    cbn [Interp_Model.exec with_num] in E. unfold with_num in E. rewrite N1 in E. cbn [ok] in E. apply IH in E; try assumption. apply trans_cm. exact HT.
  - cbn [Interp_Model.steps] in E. rewrite step_q in E. apply IH in E; try assumption. unfold is_saved. cbn [s_gstack with_gstack]. rewrite rev_app_distr. cbn [rev app]. constructor; [split; assumption|exact HS].
  - unfold is_saved in HS. destruct (s_gstack s) as [|[[m t] g] st _] eqn:Eg using rev_ind; [inversion HS|]. rewrite rev_app_distr in HS. cbn [rev app] in HS.
    inversion HS as [|? ? ? ? [S1 S2] S3]; subst. cbn [Interp_Model.steps] in E. rewrite (step_Q getobj depth s st m t g Eg) in E. apply IH in E; try assumption.
  - change (x :: OK "Tc" :: l) with ([x] ++ OK "Tc" :: l) in E. rewrite (steps_instr getobj depth "Tc" 1 o_Tc) in E; try reflexivity; [|kw].
    cbn [Interp_Model.exec] in E. unfold with_num in E. cbn [nums] in E. unfold N_ in Hx. rewrite Hx in E. apply IH in E; try assumption. is_p.
  - change (x :: OK "Tw" :: l) with ([x] ++ OK "Tw" :: l) in E. rewrite (steps_instr getobj depth "Tw" 1 o_Tw) in E; try reflexivity; [|kw].
    cbn [Interp_Model.exec] in E. unfold with_num in E. cbn [nums] in E. unfold N_ in Hx. rewrite Hx in E. apply IH in E; try assumption. is_p.
  - change (x :: OK "Tz" :: l) with ([x] ++ OK "Tz" :: l) in E. rewrite (steps_instr getobj depth "Tz" 1 o_Tz) in E; try reflexivity; [|kw].
    cbn [Interp_Model.exec] in E. unfold with_num in E. cbn [nums] in E. unfold N_ in Hx. rewrite Hx in E. apply IH in E; try assumption. is_p.
  - change (x :: OK "TL" :: l) with ([x] ++ OK "TL" :: l) in E. rewrite (steps_instr getobj depth "TL" 1 o_TL) in E; try reflexivity; [|kw].
    cbn [Interp_Model.exec] in E. unfold with_num in E. cbn [nums] in E. unfold N_ in Hx. rewrite Hx in E. apply IH in E; try assumption. is_p.
  - change (x :: OK "Ts" :: l) with ([x] ++ OK "Ts" :: l) in E. rewrite (steps_instr getobj depth "Ts" 1 o_Ts) in E; try reflexivity; [|kw].
    cbn [Interp_Model.exec] in E. unfold with_num in E. cbn [nums] in E. unfold N_ in Hx. rewrite Hx in E. apply IH in E; try assumption. is_p.
  - change (x :: OK "Tr" :: l) with ([x] ++ OK "Tr" :: l) in E. rewrite (steps_instr getobj depth "Tr" 1 o_Tr) in E; try reflexivity; [|repeat constructor; exact Hx].
    cbn [Interp_Model.exec] in E. apply IH in E; try assumption. is_p.
  - change (OName n :: x :: OK "Tf" :: l) with ([OName n; x] ++ OK "Tf" :: l) in E. rewrite (steps_instr getobj depth "Tf" 2 o_Tf) in E; try reflexivity;
      [|constructor; [discriminate|kw]].
    cbn [Interp_Model.exec] in E. unfold N_ in Hx. rewrite Hx in E. cbn [hashable negb] in E. rewrite HF, Hf in E. apply IH in E; try assumption. is_p.
  - change (x :: y :: OK "TD" :: l) with ([x; y] ++ OK "TD" :: l) in E. rewrite (steps_instr getobj depth "TD" 2 o_TD) in E; try reflexivity; [|kw].
    cbn [Interp_Model.exec] in E. unfold with_num in E. cbn [nums] in E. unfold N_ in Hx, Hy. rewrite Hx, Hy in E. apply IH in E; try assumption.
    unfold is_pars in *. cbn in *. intuition try congruence. ring.
  - change (x :: y :: z :: OK """" :: l) with ([x; y; z] ++ OK """" :: l) in E. rewrite (steps_instr getobj depth """" 3 o_dquote) in E; try reflexivity;
      [|constructor; [eapply num_not_kwd; eassumption|constructor; [eapply num_not_kwd; eassumption|constructor; [exact Hz|constructor]]]].
    cbn [Interp_Model.exec] in E. unfold N_ in Hx, Hy. rewrite Hx, Hy in E. set (s1 := with_text s (t_with_charspace (t_with_wordspace (s_text s) v) w)) in *.
    destruct (show s1 [z]) as [s2 [er|]] eqn:Es; [discriminate|]. destruct (show_frame s1 [z]) as (lm & bl & [K|K]); rewrite Es in K; cbn [fst] in K; subst s2.
    all: apply IH in E; try assumption; is_p.
Qed.
(* the graphics parameters that are kept as operands: the value is that of the latest operator.  q and Q make no
   difference (C37_graphics_not_restored): in the PDF Reference Q brings back the value saved by q. *)
Definition g_value (n : string) (g : gstate) : list obj :=
  if String.eqb n "w" then [g_width g] else if String.eqb n "J" then [g_cap g] else if String.eqb n "j" then [g_join g]
  else if String.eqb n "M" then [g_miter g] else if String.eqb n "ri" then [g_intent g] else if String.eqb n "i" then [g_flat g]
  else match g_dash g with Some (a, b) => [a; b] | None => [] end.
Definition g_ops : list (string * nat) := [("w", 1); ("J", 1); ("j", 1); ("M", 1); ("ri", 1); ("i", 1); ("d", 2)]%nat%string.
Definition g_op (n : string) : op :=
  if String.eqb n "w" then o_w else if String.eqb n "J" then o_J else if String.eqb n "j" then o_j
  else if String.eqb n "M" then o_M else if String.eqb n "ri" then o_ri else if String.eqb n "i" then o_i else o_d.
Lemma exec_g n k c args s : In (n, k) g_ops -> c <> g_op n -> g_value n (s_g (fst (exec c args s))) = g_value n (s_g s).
Proof.
  intros Hn H.
  assert (A : forall s q, s_g (fst (show s q)) = s_g s) by (intros s1 q; destruct (show_frame s1 q) as (?lm & ?b & [->| ->]); reflexivity).
  destruct c; unfold Interp_Model.exec, with_num, device, paint, nextline, fresh_lm, move_text, add_item, ok, fail;
    try (destruct args as [|? [|? [|? [|]]]]; try reflexivity);
    try solve [brk; reflexivity]; try solve [rewrite A; reflexivity].
  all: try solve [destruct (nums _) as [v|]; [|reflexivity]; brk; reflexivity].
  all: try solve [repeat (destruct Hn as [[= <- <-]|Hn]; [first [reflexivity|exfalso; apply H; reflexivity]|]); destruct Hn].
  all: try solve [brk; repeat (destruct Hn as [[= <- <-]|Hn]; [reflexivity|]); destruct Hn].
  all: try solve [destruct (nums _) as [v|]; [|reflexivity]; brk; repeat (destruct Hn as [[= <- <-]|Hn]; [reflexivity|]); destruct Hn].
  - destruct o; try (rewrite A; reflexivity); brk; reflexivity.
  - brk; try (rewrite A; reflexivity); reflexivity.
Qed.
Theorem C75_graphics_partial n k v l v' : In (n, k) g_ops -> Latest n k v l v' -> forall s s', g_value n (s_g s) = v -> steps s l = (s', None) -> g_value n (s_g s') = v'.
Proof.
  intros Hn. induction 1 as [v|v o l v' Ho _ IH|v xs l v' Hk Hx _ IH]; intros s s' Hv E.
  - injection E as <-. exact Hv.
  - cbn [Interp_Model.steps] in E. destruct (step s o) as [s1 [e|]] eqn:E1; [discriminate|]. apply (IH s1); [|exact E]. rewrite <- Hv.
    destruct (step_cases getobj depth s o) as [(w & args & b & Hw & c & C1 & C2)|[(b & C1)|(b & w & Hw & C1)]].
    + rewrite C2 in E1. pose proof (exec_g n k c args (with_args s b) Hn) as K. rewrite E1 in K. cbn [fst] in K. apply K. intros ->. apply Ho. subst o.
      assert (A : among (OKwd w) [n]). { apply (not_among_ops _ w (g_op n) C1). repeat (destruct Hn as [[= <- <-]|Hn]; [vm_compute; reflexivity|]). destruct Hn. }
      destruct A as (n' & [<-|[]] & ->). reflexivity.
    + rewrite C1 in E1. injection E1 as <-. reflexivity.
    + rewrite C1 in E1. discriminate.
  - assert (C : command (bs n) = Some (g_op n) /\ arity (g_op n) = k) by (repeat (destruct Hn as [[= <- <-]|Hn]; [split; reflexivity|]); destruct Hn).
    destruct C as [C1 C2]. rewrite (steps_instr getobj depth n k (g_op n) s xs C1 C2 Hk Hx) in E.
    destruct (exec (g_op n) xs s) as [s1 [e|]] eqn:E1; [discriminate|]. apply (IH s1); [|exact E].
    repeat (destruct Hn as [[= <- <-]|Hn]; [destruct xs as [|? [|? [|]]]; try discriminate; cbn in E1; injection E1 as <-; reflexivity|]). destruct Hn.
Qed.
End props.

(* ---- witness: 2 0 0 2 10 20 cm q 5 Tc 1 0 0 1 3 4 cm 7 TL Q 3 w ---- *)
Lemma C75_witness : exists s', go s_f [I 2; I 0; I 0; I 2; I 10; I 20; OK "cm"; OK "q"; I 5; OK "Tc"; I 1; I 0; I 0; I 1; I 3; I 4; OK "cm"; I 7; OK "TL"; I 3; OK "w"] = (s', None) /\
  Params (fun _ => None) [] (mkPar (qz 0) (qz 0) (qz 100) (qz 0) (qz 0) (qz 0) None (OInt 0)) []
    [I 2; I 0; I 0; I 2; I 10; I 20; OK "cm"; OK "q"; I 5; OK "Tc"; I 1; I 0; I 0; I 1; I 3; I 4; OK "cm"; I 7; OK "TL"; I 3; OK "w"]
    [(qz 1, qz 0, qz 0, qz 1, qz 3, qz 4); (qz 2, qz 0, qz 0, qz 2, qz 10, qz 20)] (mkPar (qz 5) (qz 0) (qz 100) (qz 7) (qz 0) (qz 0) None (OInt 0))
    [([(qz 2, qz 0, qz 0, qz 2, qz 10, qz 20)], mkPar (qz 0) (qz 0) (qz 100) (qz 0) (qz 0) (qz 0) None (OInt 0))] /\
  through [(qz 1, qz 0, qz 0, qz 1, qz 3, qz 4); (qz 2, qz 0, qz 0, qz 2, qz 10, qz 20)] (qz 1, qz 1) = (qz 18, qz 30) /\
  is_pars (s_text s0) (mkPar (qz 0) (qz 0) (qz 100) (qz 0) (qz 0) (qz 0) None (OInt 0)).
Proof.
  eexists. split; [apply runs; vm|]. split.
  { eapply (pr_cm _ _ _ _ [I 2; I 0; I 0; I 2; I 10; I 20]); [repeat constructor|]. apply pr_q. eapply pr_Tc; [reflexivity|].
    eapply (pr_cm _ _ _ _ [I 1; I 0; I 0; I 1; I 3; I 4]); [repeat constructor|]. eapply pr_TL; [reflexivity|].
    apply pr_tok; [notin|]. apply pr_tok; [notin|]. apply pr_nil. }
  split; [ptv|]. unfold is_pars. cbn. repeat split; reflexivity.
Qed.
