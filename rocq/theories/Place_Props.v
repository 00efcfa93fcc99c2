(* C94: the characters of a page stand where the text state, the text matrix and the transformations put them. *)
From Coq Require Import String ZifyBool ZifyNat.
From Verif Require Import Base Obj Stream_Model Num Geom_Model Page_Model Interp_Model Interp_Spec Interp_Proofs Text_Proofs Geom_Props Interp_Props Forms_Props State_Spec State_Props Place_Spec Boxes_Props.
From Coq Require Import Qcanon.
Open Scope Z_scope.
Import ListNotations.

Lemma places_shift w sz tc tw h l : forall x y, spec_places w sz tc tw h (x + y)%Qc l = map (fun p => (fst p, (x + snd p)%Qc)) (spec_places w sz tc tw h y l).
Proof.
  induction l as [|[v|c] l IH]; intros x y; cbn [spec_places map fst snd]; [reflexivity| |].
  - rewrite <- IH. f_equal. ring.
  - f_equal. rewrite <- IH. f_equal. ring.
Qed.
Lemma Bbox_rect p q : Bbox (fst p) (snd p) (fst q) (snd q) = rect p q.
Proof. reflexivity. Qed.

Section props.
Context (getobj : Z -> option obj) (depth : nat) (mkfont : obj -> res font) (nested : istate -> list obj -> gen item * istate).
Notation step := (step getobj depth).
Notation exec := (exec getobj depth).
Notation run := (run getobj depth mkfont nested).

(* ---------- operators that have nothing to do with text or the transformation ---------- *)
Definition not_text (p : pending) : Prop := match p with PItem (IText _) => False | _ => True end.
Definition place_op (c : op) : bool :=
  match c with
  | o_q | o_Q | o_cm | o_Tc | o_Tw | o_Tz | o_TL | o_Tf | o_Tr | o_Ts | o_Td | o_TD | o_Tm | o_Tstar | o_BT | o_ET | o_TJ | o_Tj | o_quote | o_dquote => true
  | _ => false
  end.
Definition untouched (s s1 : istate) : Prop :=
  s_text s1 = s_text s /\ s_ctm s1 = s_ctm s /\ s_gstack s1 = s_gstack s /\ s_fonts s1 = s_fonts s /\ s_block s1 = s_block s /\ s_heap s1 = s_heap s /\
  exists extra, s_done s1 = s_done s ++ extra /\ Forall not_text extra.
Lemma untouched_same s s1 : s_text s1 = s_text s -> s_ctm s1 = s_ctm s -> s_gstack s1 = s_gstack s -> s_fonts s1 = s_fonts s -> s_block s1 = s_block s -> s_heap s1 = s_heap s ->
  s_done s1 = s_done s -> untouched s s1.
Proof. intros. unfold untouched. splits; try assumption. exists []. rewrite app_nil_r. split; [assumption|constructor]. Qed.
Ltac un := apply untouched_same; reflexivity.
Lemma untouched_done s p : not_text p -> untouched s (with_done s (s_done s ++ [p])).
Proof. intros H. unfold untouched. splits; try reflexivity. exists [p]. split; [reflexivity|constructor; [exact H|constructor]]. Qed.
Lemma curve_not_text ctm g eo p : not_text (PItem (make_curve ctm g eo p)).
Proof. destruct (make_curve_spec ctm g eo p) as [(k & w & b & c1 & c2 & ->)|[-> _]]; exact Logic.I. Qed.
Lemma untouched_paint s eo p : untouched s (paint s eo p).
Proof. unfold untouched, paint. splits; try reflexivity. eexists. split; [reflexivity|constructor; [apply curve_not_text|constructor]]. Qed.
Lemma EI_not_text ctm o p : item_EI ctm o = Ok (Some p) -> not_text p.
Proof. unfold item_EI. destruct o; try discriminate; destruct (dget _ _); try discriminate; destruct (dget _ _); try discriminate. intros [= <-]. exact Logic.I. Qed.
Lemma Do_not_text xs ctm pg o p : item_Do getobj depth xs ctm pg o = Ok (Some p) -> not_text p.
Proof.
  unfold item_Do. destruct (negb (hashable o)); [discriminate|]. destruct (assoc_get xs o) as [x|]; [|discriminate]. destruct (validated_stream getobj depth x) as [st|]; [|discriminate]. cbn [bind].
  assert (K : forall b (w h : option obj), (match b, w, h with true, Some _, Some _ => Ok (Some (PItem (make_image st ctm))) | _, _, _ => Ok None end) = Ok (Some p) -> not_text p).
  { intros [|] [?|] [?|]; try discriminate. intros [= <-]. exact Logic.I. }
  set (sub := match dget (sattrs st) "Subtype" with Some (OName s) => list_eqb s (bs "Form") | _ => false end). destruct sub; [|apply K].
  destruct (dget (sattrs st) "BBox") as [bb|]; [|apply K]. clear K.
  destruct (list_value getobj depth bb) as [l|]; [|discriminate]. cbn [bind]. destruct (form_matrix getobj depth _) as [m|]; [|discriminate]. cbn [bind].
  destruct (form_resources getobj depth pg _) as [r|]; [|discriminate]. cbn [bind]. destruct (nums l) as [v|]; [|discriminate].
  unfold make_xobject. destruct v as [|? [|? [|? [|? [|]]]]]; try discriminate. cbn [bind]. intros [= <-]. exact Logic.I.
Qed.
Lemma untouched_add s r : (forall p, r = Ok (Some p) -> not_text p) -> untouched s (fst (add_item s r)).
Proof. intros Hr. destruct r as [[p|]|e]; [|un|un]. apply untouched_done, Hr. reflexivity. Qed.
Lemma exec_untouched c args s : place_op c = false -> untouched s (fst (exec c args s)).
Proof.
  intros H. destruct c; try discriminate; unfold Interp_Model.exec, with_num, device, ok, fail;
    try (destruct args as [|? [|? [|? [|]]]]; try (solve [un]));
    try solve [brk; un];
    try solve [destruct (nums _) as [v|]; [|un]; brk; un].
  all: try solve [apply untouched_paint].
  - brk; try (solve [un]); pose proof (pop_other s z) as P; rewrite Heqp in P; destruct P as (k & -> & _); un.
  - brk; try (solve [un]); pose proof (pop_other s z) as P; rewrite Heqp in P; destruct P as (k & -> & _); un.
  - apply untouched_add, EI_not_text.
  - apply untouched_add. intros p. apply Do_not_text.
Qed.
Lemma step_untouched s o s1 : ~ among o place_words -> step s o = (s1, None) -> untouched s s1.
Proof.
  intros Ho E. destruct (step_cases getobj depth s o) as [(k & args & b & Hk & c & C1 & C2)|[(b & C1)|(b & k & Hk & C1)]].
  - rewrite C2 in E. subst o. destruct (place_op c) eqn:Es.
    + exfalso. apply Ho. apply (not_among_ops _ k c C1). destruct c; try discriminate; vm_compute; reflexivity.
    + pose proof (exec_untouched c args (with_args s b) Es) as K. rewrite E in K. exact K.
  - rewrite C1 in E. injection E as <-. un.
  - rewrite C1 in E. discriminate.
Qed.
Lemma finish_no_text g p i : not_text p -> finish getobj depth mkfont nested g p = (i, None) -> text_items i = [].
Proof.
  destruct p as [it|strm box r ctm]; cbn [finish not_text]; [destruct it; intros H; [injection 1 as <-..]; try reflexivity; destruct H|].
  intros _. destruct (prep_state _ _ _ _ _ _); [|discriminate]. destruct (nested _ _) as [[kids [e|]] s']; [discriminate|]. injection 1 as <-. reflexivity.
Qed.
Lemma text_items_app a b : text_items (a ++ b) = text_items a ++ text_items b.
Proof. unfold text_items. apply flat_map_app. Qed.
Lemma gflat_no_text g l i : Forall not_text l -> gflat (finish getobj depth mkfont nested g) l = (i, None) -> text_items i = [].
Proof.
  intros H. revert i. induction H as [|p l Hp _ IH]; intros i; cbn [gflat]; [injection 1 as <-; reflexivity|].
  destruct (finish _ _ _ _ _ p) as [i1 [e|]] eqn:E; [discriminate|]. cbn [gapp snd fst]. destruct (gflat _ l) as [i2 e2]. cbn [fst snd] in *. intros [= <- ->].
  rewrite text_items_app, (finish_no_text _ _ _ Hp E), (IH i2 eq_refl). reflexivity.
Qed.
(* one token of a run that ends well *)
Lemma run_cons s o l items s' : run s (o :: l) = ((items, None), s') -> exists s1 i1 i2, step s o = (s1, None) /\
  gflat (finish getobj depth mkfont nested (s_g s1)) (s_done s1) = (i1, None) /\ run (with_done s1 []) l = ((i2, None), s') /\ items = i1 ++ i2.
Proof.
  cbn [Interp_Model.run]. destruct (step s o) as [s1 [e|]]; [discriminate|]. destruct (gflat _ (s_done s1)) as [i1 [e|]] eqn:E; [cbn [snd]; discriminate|]. cbn [snd].
  destruct (run (with_done s1 []) l) as [[i2 e2] s2] eqn:E2. cbn [gapp fst snd]. intros [= <- -> <-]. exists s1, i1, i2. splits; reflexivity || assumption.
Qed.
Lemma run_instr_inv n a c s args l items s' : command (bs n) = Some c -> arity c = a -> length args = a -> Forall (fun o => forall k, o <> OKwd k) args ->
  s_done s = [] -> run s (args ++ OK n :: l) = ((items, None), s') ->
  exists s1, exec c args s = (s1, None) /\ (s_done s1 = [] -> run s1 l = ((items, None), s')).
Proof.
  intros H1 H2 H3 H4 Hd R. rewrite (run_push getobj depth mkfont nested args H4 s _ Hd) in R. apply run_cons in R as (s1 & i1 & i2 & E1 & E2 & E3 & ->).
  rewrite (step_op getobj depth n a c s (s_args s) args H1 H2 H3) in E1. replace (with_args s (s_args s)) with s in E1 by (destruct s; reflexivity).
  exists s1. split; [exact E1|]. intros D. rewrite D in E2. injection E2 as <-. rewrite <- (with_done_nil s1 D). exact E3.
Qed.

(* ---------- showing ---------- *)
Section main.
Context (lenient : bool) (fonts : list Z -> option font) (base : num * num -> num * num).
Definition open_at (s : istate) (X : option open_text) : Prop :=
  match X with
  | None => s_block s = None
  | Some (M, x, ss) => t_matrix (s_text s) = M /\ line_pos s = (x, qz 0) /\ (t_lm (s_text s) < length (s_heap s))%nat /\
      exists b, s_block s = Some b /\ map cb_chars (tb_blocks b) = ss
  end.
Record At (s : istate) (T : list coefs) (P : tpar) (S : list (list coefs * tpar)) (X : option open_text) : Prop := mkAt {
  at_fonts : forall n f, fonts n = Some f -> assoc_get (s_fonts s) (OName n) = Some f;
  at_T : is_trans (s_ctm s) base T;
  at_P : is_pars (s_text s) P;
  at_S : is_saved base (s_gstack s) S;
  at_i : t_ignore (s_text s) = lenient /\ Forall (fun x : matrix * tstate * gstate => t_ignore (snd (fst x)) = lenient) (s_gstack s);
  at_d : s_done s = [];
  at_X : open_at s X }.
Lemma show_said s T P S M x ss seq l cs x' s1 : At s T P S (Some (M, x, ss)) -> codes P seq l -> Said lenient base T M P x l cs x' -> show s seq = (s1, None) ->
  At s1 T P S (Some (M, x', ss ++ [cs])).
Proof.
  intros [A1 A2 A3 A4 A5 A6 (B1 & B2 & B3 & b & B4 & B5)] (f0 & F0 & Hseq) (f & F & Hv & Hc & Hch & Hu & -> & ->) E.
  assert (f0 = f) as -> by congruence. destruct A3 as (P1 & P2 & P3 & P4 & P5 & P6 & P7 & P8).
  assert (Hf : t_font (s_text s) = Some f) by congruence.
  destruct (C41_show_partial getobj depth s f b seq l Hf Hv B4 Hseq Hch) as (s' & b' & cb & E1 & E2 & E3 & _ & _ & _ & E4 & E5 & E6 & E7 & _).
  { rewrite (proj1 A5). exact Hu. }
  { exact B3. }
  assert (ES : s' = s1).
  { change [OArr seq; OK "TJ"] with ([OArr seq] ++ OK "TJ" :: []) in E1. rewrite (steps_instr getobj depth "TJ" 1 o_TJ) in E1; try reflexivity; [|repeat constructor; discriminate].
    cbn [Interp_Model.exec] in E1. rewrite E in E1. cbn [Interp_Model.steps] in E1. injection E1 as <-. reflexivity. }
  subst s'. clear E1.
  assert (FR : exists lm bl, s1 = with_block (with_heap s (hset (s_heap s) (t_lm (s_text s)) lm)) bl).
  { destruct (show_frame s seq) as (lm & bl & [K|K]); rewrite E in K; cbn [fst] in K; subst s1; [eexists _, _; reflexivity|].
    exfalso. rewrite B4 in E2. injection E2 as <-. assert (X : length (tb_blocks b) = length (tb_blocks b ++ [cb])) by (rewrite <- E3; reflexivity). rewrite app_length in X. cbn in X. lia. }
  destruct FR as (lm & bl & ->).
  assert (Z0 : forall v : num, (qz 0 * v)%Qc = qz 0) by (intros; change (qz 0) with 0%Qc; ring).
  rewrite P1, Hc, !Z0 in E4, E5. unfold eff_tw, th in E4, E5. rewrite P2, P3, P5, P6, B1, B2 in E4. rewrite P2, P3, P6, B2 in E5. cbn [fst snd] in E4, E5.
  assert (Est : (if starts_chr l then qz 0 else qz 0) = qz 0) by (destruct (starts_chr l); reflexivity). rewrite Est in E4, E5.
  constructor; try assumption; [unfold is_pars; splits; assumption|].
  unfold open_at. splits.
  - exact B1.
  - rewrite E5. unfold word_space. f_equal. change (qz 0) with 0%Qc. ring.
  - cbn [s_text s_heap with_block with_heap]. rewrite hset_length. exact B3.
  - exists b'. split; [exact E2|]. rewrite E3, map_app, B5. cbn [map]. rewrite E4.
    assert (XX : (x + qz 0)%Qc = x) by (change (qz 0) with 0%Qc; ring). pose proof (places_shift (f_width f) (p_size P) (qz 0) (word_space f P) (p_scale P * centi)%Qc l x (qz 0)) as SH. rewrite XX in SH. rewrite SH, map_map. unfold word_space.
    match goal with |- ss ++ [?a] = ss ++ [?b] => enough (K : a = b) by (rewrite K; reflexivity) end. apply map_ext. intros [c d]. cbn [fst snd]. f_equal. unfold corner_box, glyph_box. rewrite Bbox_rect.
    assert (PT : forall gx gy, apply_matrix_pt (text_rendering_matrix (p_size P) (p_scale P * centi) (p_rise P) ((x + d)%Qc, qz 0) M (s_ctm s)) (gx, gy) =
      base (through T (act M (x + d + gx * p_size P * (p_scale P * centi), gy * p_size P + p_rise P)%Qc))).
    { intros gx gy. rewrite <- (A2 (act M _)). destruct M as [[[[[ma mb] mc] md] me] mf]. destruct (s_ctm s) as [[[[[ca cb'] cc] cd] ce] cf].
      unfold text_rendering_matrix, mult_matrix, apply_matrix_pt, act. cbn [fst snd]. change (qz 0) with 0%Qc. change (qz 1) with 1%Qc. f_equal; ring. }
    rewrite !PT. reflexivity.
Qed.
Lemma moved_translate a b M : translate_matrix M (a, b) = moved a b M.
Proof. destruct M as [[[[[? ?] ?] ?] ?] ?]. unfold translate_matrix, moved. repeat (apply (f_equal2 pair)); try reflexivity; ring. Qed.
Lemma fresh_at s t T P S M x ss P' : At s T P S (Some (M, x, ss)) -> is_pars t P' -> t_ignore t = t_ignore (s_text s) ->
  At (fresh_lm s t) T P' S (Some (t_matrix t, qz 0, ss)).
Proof.
  intros [A1 A2 A3 A4 [A5 A7] A6 (B1 & B2 & B3 & b & B4 & B5)] Hp Hi. constructor; try assumption.
  - split; [|assumption]. change (t_ignore t = lenient). congruence.
  - unfold open_at. splits.
    + reflexivity.
    + apply line_pos_fresh.
    + cbn [s_heap s_text fresh_lm with_heap with_text t_lm t_with_lm]. rewrite app_length. cbn. lia.
    + exists b. split; assumption.
Qed.
Lemma text_at s t T P S X P' : At s T P S X -> is_pars t P' -> t_ignore t = t_ignore (s_text s) -> t_matrix t = t_matrix (s_text s) -> t_lm t = t_lm (s_text s) ->
  At (with_text s t) T P' S X.
Proof.
  intros [A1 A2 A3 A4 [A5 A7] A6 A8] Hp Hi Hm Hl. constructor; try assumption.
  - split; [|assumption]. change (t_ignore t = lenient). congruence.
  - destruct X as [[[M x] ss]|]; [|exact A8]. destruct A8 as (B1 & B2 & B3 & B4). unfold open_at. splits; try assumption.
    + change (t_matrix t = M). congruence.
    + unfold line_pos in *. cbn [s_heap s_text with_text]. rewrite Hl. exact B2.
    + cbn [s_heap s_text with_text]. rewrite Hl. exact B3.
Qed.
Ltac kw := repeat constructor; eapply num_not_kwd; eassumption.
Ltac par A := let Q := fresh in pose proof (at_P _ _ _ _ _ A) as Q; unfold is_pars in *; cbn in *; intuition congruence.
Ltac setter A := eapply text_at; [exact A|par A|reflexivity..].
Lemma next_at s T P S M x ss : At s T P S (Some (M, x, ss)) -> At (nextline s) T P S (Some (moved (qz 0) (- p_lead P)%Qc M, qz 0, ss)).
Proof.
  intros A. assert (B1 := proj1 (at_X _ _ _ _ _ A)). assert (L : t_leading (s_text s) = (- p_lead P)%Qc).
  { pose proof (at_P _ _ _ _ _ A) as Q. unfold is_pars in Q. cbn in Q. intuition. }
  rewrite <- L, <- B1, <- moved_translate. unfold nextline. refine (fresh_at s _ T P S M x ss P A _ _); [par A|reflexivity].
Qed.
Theorem C94_run T P S X l out : Places lenient fonts base T P S X l out -> forall s items s', At s T P S X -> run s l = ((items, None), s') -> text_items items = out.
Proof.
  induction 1 as [T P S|T P S X o l out Ho _ IH|T P S xs a b c d e f l out Hx _ IH|T P S l out _ IH|T P T1 P1 S l out _ IH
    |T P S X x v l out Hx _ IH|T P S X x v l out Hx _ IH|T P S X x v l out Hx _ IH|T P S X x v l out Hx _ IH|T P S X x v l out Hx _ IH
    |T P S X x l out Hx _ IH|T P S X n f x v l out Hf Hx _ IH|T P S l out _ IH|T P S M x ss l out _ IH|T P S M x ss xs a b c d e f l out Hx _ IH
    |T P S M x ss u v a b l out Hu Hv _ IH|T P S M x ss u v a b l out Hu Hv _ IH|T P S M x ss l out _ IH
    |T P S M x ss seq tjs cs x' l out Hc Hs _ IH|T P S M x ss str tjs cs x' l out Hc Hs _ IH|T P S M x ss str tjs cs x' l out Hc M' Hs _ IH]; intros s items s' A R.
  - cbn [Interp_Model.run] in R. injection R as <- <-. reflexivity.
  - apply run_cons in R as (s1 & i1 & i2 & E1 & E2 & E3 & ->).
    destruct (step_untouched s o s1 Ho E1) as (U1 & U2 & U3 & U4 & U5 & U6 & extra & U7 & U8). rewrite (at_d _ _ _ _ _ A) in U7. cbn [app] in U7. rewrite U7 in E2.
    rewrite text_items_app, (gflat_no_text _ _ _ U8 E2). cbn [app]. eapply IH; [|exact E3]. destruct A as [A1 A2 A3 A4 A5 A6 A7].
    constructor; cbn [s_fonts s_ctm s_text s_gstack s_done with_done]; rewrite ?U1, ?U2, ?U3, ?U4; try assumption; try reflexivity.
    destruct X as [[[M x] ss]|]; unfold open_at, line_pos in *; cbn [s_text s_heap s_block with_done]; rewrite ?U1, ?U5, ?U6; exact A7.
  - destruct (forall2_nums _ _ Hx) as (N1 & N2 & N3). apply (run_instr_inv "cm" 6 o_cm) in R as (s1 & E1 & E2); try reflexivity; try assumption; [|exact (at_d _ _ _ _ _ A)].
    cbn [Interp_Model.exec] in E1. unfold with_num in E1. rewrite N1 in E1. injection E1 as <-. eapply IH; [|exact (E2 (at_d _ _ _ _ _ A))].
    destruct A as [A1 A2 A3 A4 A5 A6 A7]. constructor; try assumption. apply trans_cm. exact A2.
  - apply (run_instr_inv "q" 0 o_q s []) in R as (s1 & E1 & E2); try reflexivity; try constructor; [|exact (at_d _ _ _ _ _ A)].
    injection E1 as <-. eapply IH; [|exact (E2 (at_d _ _ _ _ _ A))]. destruct A as [A1 A2 A3 A4 [A5 A7'] A6 A7]. constructor; try assumption.
    + unfold is_saved. cbn [s_gstack with_gstack]. rewrite rev_app_distr. cbn [rev app]. constructor; [split; assumption|exact A4].
    + split; [exact A5|]. cbn [s_gstack with_gstack]. apply Forall_app. split; [exact A7'|]. constructor; [exact A5|constructor].
  - apply (run_instr_inv "Q" 0 o_Q s []) in R as (s1 & E1 & E2); try reflexivity; try constructor; [|exact (at_d _ _ _ _ _ A)].
    destruct A as [A1 A2 A3 A4 [A5 A7'] A6 A7]. unfold is_saved in A4. cbn [Interp_Model.exec] in E1.
    destruct (rev (s_gstack s)) as [|[[m t] g] st] eqn:Eg; [inversion A4|]. inversion A4 as [|? ? ? ? [S1 S2] S3]; subst. injection E1 as <-.
    assert (Eg' : s_gstack s = rev st ++ [(m, t, g)]) by (rewrite <- (rev_involutive (s_gstack s)), Eg; reflexivity). rewrite Eg' in A7'. apply Forall_app in A7' as [G1 G2].
    eapply IH; [|exact (E2 A6)]. constructor; try assumption.
    + unfold is_saved. cbn [s_gstack with_gstack with_ctm with_text]. rewrite rev_involutive. exact S3.
    + split; [inversion G2; assumption|exact G1].
  - apply (run_instr_inv "Tc" 1 o_Tc s [x]) in R as (s1 & E1 & E2); try reflexivity; [|kw|exact (at_d _ _ _ _ _ A)].
    cbn [Interp_Model.exec] in E1. unfold with_num in E1. cbn [nums] in E1. unfold N_ in Hx. rewrite Hx in E1. injection E1 as <-. eapply IH; [|exact (E2 (at_d _ _ _ _ _ A))]. setter A.
  - apply (run_instr_inv "Tw" 1 o_Tw s [x]) in R as (s1 & E1 & E2); try reflexivity; [|kw|exact (at_d _ _ _ _ _ A)].
    cbn [Interp_Model.exec] in E1. unfold with_num in E1. cbn [nums] in E1. unfold N_ in Hx. rewrite Hx in E1. injection E1 as <-. eapply IH; [|exact (E2 (at_d _ _ _ _ _ A))]. setter A.
  - apply (run_instr_inv "Tz" 1 o_Tz s [x]) in R as (s1 & E1 & E2); try reflexivity; [|kw|exact (at_d _ _ _ _ _ A)].
    cbn [Interp_Model.exec] in E1. unfold with_num in E1. cbn [nums] in E1. unfold N_ in Hx. rewrite Hx in E1. injection E1 as <-. eapply IH; [|exact (E2 (at_d _ _ _ _ _ A))]. setter A.
  - apply (run_instr_inv "TL" 1 o_TL s [x]) in R as (s1 & E1 & E2); try reflexivity; [|kw|exact (at_d _ _ _ _ _ A)].
    cbn [Interp_Model.exec] in E1. unfold with_num in E1. cbn [nums] in E1. unfold N_ in Hx. rewrite Hx in E1. injection E1 as <-. eapply IH; [|exact (E2 (at_d _ _ _ _ _ A))]. setter A.
  - apply (run_instr_inv "Ts" 1 o_Ts s [x]) in R as (s1 & E1 & E2); try reflexivity; [|kw|exact (at_d _ _ _ _ _ A)].
    cbn [Interp_Model.exec] in E1. unfold with_num in E1. cbn [nums] in E1. unfold N_ in Hx. rewrite Hx in E1. injection E1 as <-. eapply IH; [|exact (E2 (at_d _ _ _ _ _ A))]. setter A.
  - apply (run_instr_inv "Tr" 1 o_Tr s [x]) in R as (s1 & E1 & E2); try reflexivity; [|repeat constructor; exact Hx|exact (at_d _ _ _ _ _ A)].
    injection E1 as <-. eapply IH; [|exact (E2 (at_d _ _ _ _ _ A))]. setter A.
  - apply (run_instr_inv "Tf" 2 o_Tf s [OName n; x]) in R as (s1 & E1 & E2); try reflexivity; [|constructor; [discriminate|kw]|exact (at_d _ _ _ _ _ A)].
    cbn [Interp_Model.exec] in E1. unfold N_ in Hx. rewrite Hx in E1. cbn [hashable negb] in E1. rewrite (at_fonts _ _ _ _ _ A n f Hf) in E1. injection E1 as <-.
    eapply IH; [|exact (E2 (at_d _ _ _ _ _ A))]. match goal with |- At (with_text (with_text s _) ?t) _ _ _ _ => change (At (with_text s t) T (mkPar (p_char P) (p_word P) (p_scale P) (p_lead P) (p_rise P) v (Some f) (p_mode P)) S X) end. setter A.
  - apply (run_instr_inv "BT" 0 o_BT s []) in R as (s1 & E1 & E2); try reflexivity; try constructor; [|exact (at_d _ _ _ _ _ A)].
    cbn [Interp_Model.exec] in E1. rewrite (at_X _ _ _ _ _ A : s_block s = None) in E1. injection E1 as <-. eapply IH; [|exact (E2 (at_d _ _ _ _ _ A))].
    destruct A as [A1 A2 A3 A4 A5 A6 A7]. constructor; try assumption. unfold open_at. splits.
    + reflexivity.
    + apply line_pos_fresh.
    + cbn [s_heap s_text fresh_lm with_heap with_text with_block t_lm t_with_lm]. rewrite app_length. cbn. lia.
    + eexists. split; reflexivity.
  - apply run_cons in R as (s1 & i1 & i2 & E1 & E2 & E3 & ->). destruct A as [A1 A2 A3 A4 A5 A6 (B1 & B2 & B3 & b & B4 & B5)].
    change (step s (OK "ET")) with (exec o_ET [] s) in E1. cbn [Interp_Model.exec] in E1. rewrite B4, A6 in E1. injection E1 as <-. cbn [s_done with_done with_block app gflat finish gapp fst snd] in E2. injection E2 as <-.
    change (map cb_chars (tb_blocks b) :: text_items i2 = ss :: out). assert (K : text_items i2 = out); [|rewrite B5, K; reflexivity]. eapply IH; [|exact E3]. constructor; try assumption; reflexivity.
  - destruct (forall2_nums _ _ Hx) as (N1 & N2 & N3). apply (run_instr_inv "Tm" 6 o_Tm) in R as (s1 & E1 & E2); try reflexivity; try assumption; [|exact (at_d _ _ _ _ _ A)].
    cbn [Interp_Model.exec] in E1. unfold with_num in E1. rewrite N1 in E1. injection E1 as <-. eapply IH; [|exact (E2 (at_d _ _ _ _ _ A))].
    refine (fresh_at s _ T P S M x ss P A _ _); [par A|reflexivity].
  - apply (run_instr_inv "Td" 2 o_Td s [u; v]) in R as (s1 & E1 & E2); try reflexivity; [|kw|exact (at_d _ _ _ _ _ A)].
    cbn [Interp_Model.exec] in E1. unfold with_num in E1. cbn [nums] in E1. unfold N_ in Hu, Hv. rewrite Hu, Hv in E1. injection E1 as <-. eapply IH; [|exact (E2 (at_d _ _ _ _ _ A))].
    assert (B1 := proj1 (at_X _ _ _ _ _ A)). rewrite <- B1, <- moved_translate. refine (fresh_at s _ T P S M x ss P A _ _); [par A|reflexivity].
  - apply (run_instr_inv "TD" 2 o_TD s [u; v]) in R as (s1 & E1 & E2); try reflexivity; [|kw|exact (at_d _ _ _ _ _ A)].
    cbn [Interp_Model.exec] in E1. unfold with_num in E1. cbn [nums] in E1. unfold N_ in Hu, Hv. rewrite Hu, Hv in E1. injection E1 as <-. eapply IH; [|exact (E2 (at_d _ _ _ _ _ A))].
    assert (B1 := proj1 (at_X _ _ _ _ _ A)). rewrite <- B1, <- moved_translate. refine (fresh_at s (t_with_leading (move_text (s_text s) a b) b) T P S M x ss _ A _ _); [|reflexivity].
    pose proof (at_P _ _ _ _ _ A) as Q. unfold is_pars in *. cbn in *. intuition try congruence. ring.
  - apply (run_instr_inv "T*" 0 o_Tstar s []) in R as (s1 & E1 & E2); try reflexivity; try constructor; [|exact (at_d _ _ _ _ _ A)].
    injection E1 as <-. eapply IH; [|exact (E2 (at_d _ _ _ _ _ A))]. apply next_at with (x := x). exact A.
  - apply (run_instr_inv "TJ" 1 o_TJ s [OArr seq]) in R as (s1 & E1 & E2); try reflexivity; [|repeat constructor; discriminate|exact (at_d _ _ _ _ _ A)].
    cbn [Interp_Model.exec] in E1. pose proof (show_said _ _ _ _ _ _ _ _ _ _ _ _ A Hc Hs E1) as A'. eapply IH; [exact A'|exact (E2 (at_d _ _ _ _ _ A'))].
  - apply (run_instr_inv "Tj" 1 o_Tj s [OStr str]) in R as (s1 & E1 & E2); try reflexivity; [|repeat constructor; discriminate|exact (at_d _ _ _ _ _ A)].
    cbn [Interp_Model.exec] in E1. pose proof (show_said _ _ _ _ _ _ _ _ _ _ _ _ A Hc Hs E1) as A'. eapply IH; [exact A'|exact (E2 (at_d _ _ _ _ _ A'))].
  - apply (run_instr_inv "'" 1 o_quote s [OStr str]) in R as (s1 & E1 & E2); try reflexivity; [|repeat constructor; discriminate|exact (at_d _ _ _ _ _ A)].
    cbn [Interp_Model.exec] in E1. apply next_at in A. pose proof (show_said _ _ _ _ _ _ _ _ _ _ _ _ A Hc Hs E1) as A'. eapply IH; [exact A'|exact (E2 (at_d _ _ _ _ _ A'))].
Qed.
End main.
End props.
