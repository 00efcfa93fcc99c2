(* C95: the boxes of text. *)
From Coq Require Import String ZifyBool ZifyNat.
From Verif Require Import Base Obj Stream_Model Num Geom_Model Page_Model Interp_Model Interp_Spec Interp_Proofs Text_Proofs Interp_Props Forms_Props State_Spec Place_Spec.
From Coq Require Import Qcanon.
Open Scope Z_scope.
Import ListNotations.

Definition ordered (p : point * point) : Prop := (fst (fst p) <= fst (snd p) /\ snd (fst p) <= snd (snd p))%Qc.
Lemma char_box_ordered f ts m c : ordered (snd (char_box f ts m c)).
Proof.
  unfold char_box, ordered. destruct (if f_vertical f then _ else _) as [bll bur].
  destruct (apply_matrix_pt m bll) as [x0 y0]. destruct (apply_matrix_pt m bur) as [x1 y1].
  destruct (qlt x1 x0) eqn:E1; destruct (qlt y1 y0) eqn:E2; cbn [fst snd];
    repeat match goal with H : qlt _ _ = true |- _ => apply qlt_iff in H | H : qlt _ _ = false |- _ => apply qlt_false in H end; split; qc_lra.
Qed.
Lemma render_cids_ordered f ts cids : forall lm need lm' cs n e, render_cids f ts lm need cids = (lm', cs, n, e) -> Forall (fun c => ordered (snd c)) cs.
Proof.
  induction cids as [|c cids IH]; intros lm need lm' cs n e; cbn [render_cids]; [intros [= <- <- <- <-]; constructor|].
  destruct (ts_unichr f ts c); [|intros [= <- <- <- <-]; constructor].
  pose proof (char_box_ordered f ts (translate_matrix (t_matrix ts) (if need then advance (f_vertical f) lm (t_charspace ts) else lm)) c) as O.
  destruct (char_box _ _ _ c) as [adv box]. cbn [snd] in O.
  destruct (render_cids _ _ _ true cids) as [[[lm4 cs4] n4] e4] eqn:E. intros [= <- <- <- <-]. constructor; [exact O|eapply IH; exact E].
Qed.
Lemma render_seq_ordered f ts dx seq : forall lm need lm' cs e, render_seq f ts dx lm need seq = (lm', cs, e) -> Forall (fun c => ordered (snd c)) cs.
Proof.
  induction seq as [|o seq IH]; intros lm need lm' cs e; cbn [render_seq]; [intros [= <- <- <-]; constructor|].
  destruct (num_of o); [apply IH|]. destruct (match o with OStr b => _ | _ => _ end) as [cids|]; [|intros [= <- <- <-]; constructor].
  destruct (render_cids f ts lm need cids) as [[[lm1 cs1] n1] [e1|]] eqn:E1; [intros [= <- <- <-]; eapply render_cids_ordered; exact E1|].
  destruct (render_seq f ts dx lm1 n1 seq) as [[lm2 cs2] e2] eqn:E2. intros [= <- <- <-]. apply Forall_app. split; [eapply render_cids_ordered; exact E1|eapply IH; exact E2].
Qed.

(* ---------- boxes around boxes ---------- *)
Lemma least_join side a L c v : least side a L -> v = qmin a (side c) -> least side v (L ++ [c]).
Proof.
  intros (H1 & x & H2 & H3) ->. split.
  - intros y Hy. apply in_app_or in Hy as [Hy|[<-|[]]]; [|apply qmin_r]. eapply Qcle_trans; [apply qmin_l|apply H1, Hy].
  - destruct (qmin_cases a (side c)) as [->| ->]; [exists x; split; [apply in_or_app; left; assumption|assumption]|exists c; split; [apply in_or_app; right; left; reflexivity|reflexivity]].
Qed.
Lemma greatest_join side a L c v : greatest side a L -> v = qmax a (side c) -> greatest side v (L ++ [c]).
Proof.
  intros (H1 & x & H2 & H3) ->. split.
  - intros y Hy. apply in_app_or in Hy as [Hy|[<-|[]]]; [|apply qmax_r]. eapply Qcle_trans; [apply H1, Hy|apply qmax_l].
  - destruct (qmax_cases a (side c)) as [->| ->]; [exists x; split; [apply in_or_app; left; assumption|assumption]|exists c; split; [apply in_or_app; right; left; reflexivity|reflexivity]].
Qed.
Lemma around_one b : Around b [b].
Proof. repeat split; try (exists b; split; [left; reflexivity|reflexivity]); intros c [<-|[]]; apply Qcle_refl. Qed.
Lemma around_join b L c : Around b L -> Around (mkBox (qmin (bx0 b) (bx0 c)) (qmin (by0 b) (by0 c)) (qmax (bx1 b) (bx1 c)) (qmax (by1 b) (by1 c))) (L ++ [c]).
Proof.
  intros (H1 & H2 & H3 & H4). unfold Around. cbn [bx0 by0 bx1 by1].
  split; [eapply least_join; [exact H1|reflexivity]|split; [eapply least_join; [exact H2|reflexivity]|split; [eapply greatest_join; [exact H3|reflexivity]|eapply greatest_join; [exact H4|reflexivity]]]].
Qed.
Lemma qmin_le a b : (a <= b)%Qc -> qmin a b = a.
Proof. intros H. unfold qmin. destruct (qlt b a) eqn:E; [|reflexivity]. apply qlt_iff in E. exfalso. qc_lra. Qed.
Lemma qmax_le a b : (a <= b)%Qc -> qmax a b = b.
Proof. intros H. unfold qmax. destruct (qlt a b) eqn:E; [reflexivity|]. apply qlt_false in E. apply Qcle_antisym; assumption. Qed.
Lemma qmin_comm a b : qmin a b = qmin b a.
Proof. apply Qcle_antisym; apply qmin_glb; try apply qmin_l; apply qmin_r. Qed.
Lemma qmax_comm a b : qmax a b = qmax b a.
Proof. apply Qcle_antisym; apply qmax_lub; try apply qmax_l; apply qmax_r. Qed.
Lemma qmin_mid a b c : (b <= c)%Qc -> qmin (qmin a b) c = qmin a b.
Proof. intros H. apply qmin_le. eapply Qcle_trans; [apply qmin_r|exact H]. Qed.
Lemma qmax_mid a b c : (b <= c)%Qc -> qmax (qmax a b) c = qmax a c.
Proof.
  intros H. apply Qcle_antisym.
  - apply qmax_lub; [apply qmax_lub; [apply qmax_l|eapply Qcle_trans; [exact H|apply qmax_r]]|apply qmax_r].
  - apply qmax_lub; [eapply Qcle_trans; [apply qmax_l|apply qmax_l]|apply qmax_r].
Qed.
Lemma box_ordered p : ordered p -> box_of p = mkBox (fst (fst p)) (snd (fst p)) (fst (snd p)) (snd (snd p)).
Proof. destruct p as [[x0 y0] [x1 y1]]. intros [H1 H2]. apply Bbox_ordered; assumption. Qed.
Lemma union_around cs : Forall (fun c : list Z * (point * point) => ordered (snd c)) cs -> forall x0 y0 x1 y1 L, (x0 <= x1)%Qc -> (y0 <= y1)%Qc -> Around (mkBox x0 y0 x1 y1) L ->
  let '(a, b, c, d) := cb_union x0 y0 x1 y1 cs in (a <= c)%Qc /\ (b <= d)%Qc /\ Around (mkBox a b c d) (L ++ map (fun q => box_of (snd q)) cs).
Proof.
  induction 1 as [|[t p] cs Ho _ IH]; intros x0 y0 x1 y1 L Hx Hy HA; cbn [cb_union map].
  - rewrite app_nil_r. splits; assumption.
  - cbn [snd] in *. rewrite (box_ordered _ Ho). destruct p as [[nx0 ny0] [nx1 ny1]]. destruct Ho as [Ho1 Ho2]. cbn [fst snd] in *.
    rewrite (qmin_le x0 x1 Hx), (qmin_mid x0 nx0 nx1 Ho1).
    assert (E1 : qmax (qmax (qmax (qmin x0 nx0) x1) nx0) nx1 = qmax x1 nx1).
    { rewrite (qmax_le (qmin x0 nx0) x1) by (eapply Qcle_trans; [apply qmin_l|exact Hx]). apply qmax_mid, Ho1. }
    assert (E2 : qmax (qmax (qmax y0 y1) ny0) ny1 = qmax y1 ny1) by (rewrite (qmax_le y0 y1 Hy); apply qmax_mid, Ho2).
    assert (E3 : qmin (qmin (qmin y0 (qmax y1 ny1)) ny0) ny1 = qmin y0 ny0).
    { rewrite (qmin_le y0) by (eapply Qcle_trans; [exact Hy|apply qmax_l]). apply qmin_mid, Ho2. }
    rewrite E1, E2, E3.
    specialize (IH (qmin x0 nx0) (qmin y0 ny0) (qmax x1 nx1) (qmax y1 ny1) (L ++ [mkBox nx0 ny0 nx1 ny1])).
    rewrite <- app_assoc in IH. apply IH.
    + eapply Qcle_trans; [apply qmin_l|]. eapply Qcle_trans; [exact Hx|apply qmax_l].
    + eapply Qcle_trans; [apply qmin_l|]. eapply Qcle_trans; [exact Hy|apply qmax_l].
    + exact (around_join _ _ (mkBox nx0 ny0 nx1 ny1) HA).
Qed.
Definition block_boxed (cb : charblock) : Prop :=
  cb_chars cb <> [] /\ Forall (fun c => bx0 (snd c) <= bx1 (snd c) /\ by0 (snd c) <= by1 (snd c))%Qc (cb_chars cb) /\ Around (cb_box cb) (map snd (cb_chars cb)).
Lemma char_block_boxed cs ts c cb : Forall (fun c => ordered (snd c)) cs -> char_block cs ts c = Ok cb -> block_boxed cb.
Proof.
  intros HO H. destruct cs as [|[t [[x0 y0] [x1 y1]]] cs]; [discriminate|]. unfold char_block in H. inversion HO as [|? ? Ho HO']; subst.
  pose proof (union_around cs HO' x0 y0 x1 y1 [mkBox x0 y0 x1 y1] (proj1 Ho) (proj2 Ho) (around_one _)) as U. destruct (cb_union x0 y0 x1 y1 cs) as [[[a b] c'] d] eqn:E. injection H as <-.
  destruct U as (U1 & U2 & U3). unfold block_boxed. cbn [cb_chars cb_box]. split; [discriminate|]. split.
  - change ((t, Bbox x0 y0 x1 y1) :: map (fun q => (fst q, box_of (snd q))) cs) with (map (fun q => (fst q, box_of (snd q))) ((t, ((x0, y0), (x1, y1))) :: cs)).
    apply Forall_map. eapply Forall_impl; [|exact HO]. intros q Hq. cbn [fst snd]. rewrite (box_ordered _ Hq). exact Hq.
  - rewrite (Bbox_ordered _ _ _ _ U1 U2). cbn [map fst snd]. rewrite map_map. cbn [snd]. change (box_of (x0, y0, (x1, y1))) with (Bbox x0 y0 x1 y1). rewrite (Bbox_ordered x0 y0 x1 y1 (proj1 Ho) (proj2 Ho)). exact U3.
Qed.
Lemma block_add_boxed b cb : text_boxed b -> block_boxed cb -> text_boxed (block_add b cb).
Proof.
  intros [H1 H2] H. unfold text_boxed, block_add. cbn [tb_blocks tb_box]. split.
  - intros x Hx. apply in_app_or in Hx as [Hx|[<-|[]]]; [apply H1, Hx|exact H].
  - rewrite map_app. destruct (tb_box b) as [x|]; [apply (around_join x (map cb_box (tb_blocks b)) (cb_box cb) H2)|rewrite H2; apply around_one].
Qed.

(* ---------- the interpreter ---------- *)
Section props.
Context (getobj : Z -> option obj) (depth : nat).
Notation step := (step getobj depth).
Notation exec := (exec getobj depth).
Definition pending_boxed (p : pending) : Prop := match p with PItem i => boxed i | PXObj _ _ _ _ => True end.
Definition state_boxed (s : istate) : Prop := match s_block s with Some b => text_boxed b | None => True end /\ Forall pending_boxed (s_done s).
Lemma show_boxed s seq : state_boxed s -> state_boxed (fst (show s seq)).
Proof.
  intros [H1 H2]. unfold show. destruct (t_font (s_text s)) as [f|]; [|split; assumption]. destruct (s_block s) as [b|] eqn:Eb; [|split; [cbn; rewrite Eb; exact H1|exact H2]].
  destruct (render_seq _ _ _ _ _ seq) as [[lm cs] e] eqn:E. destruct e; [split; [cbn; rewrite Eb; exact H1|exact H2]|].
  destruct (char_block cs _ _) as [cb|] eqn:C; [|split; [cbn; rewrite Eb; exact H1|exact H2]]. split; [|exact H2]. cbn [fst ok s_block with_block].
  apply block_add_boxed; [exact H1|]. eapply char_block_boxed; [eapply render_seq_ordered; exact E|exact C].
Qed.
Lemma make_curve_boxed ctm g eo p : boxed (make_curve ctm g eo p).
Proof. destruct (make_curve_spec ctm g eo p) as [(k & w & b & c1 & c2 & ->)|[-> _]]; constructor. Qed.
Lemma with_g_boxed s g : state_boxed s -> state_boxed (with_g s g). Proof. intros H. exact H. Qed.
Lemma done_boxed s p : state_boxed s -> pending_boxed p -> state_boxed (with_done s (s_done s ++ [p])).
Proof. intros [H1 H2] Hp. split; [exact H1|]. cbn. apply Forall_app. split; [exact H2|]. constructor; [exact Hp|constructor]. Qed.
Lemma add_boxed s r : state_boxed s -> (forall p, r = Ok (Some p) -> pending_boxed p) -> state_boxed (fst (add_item s r)).
Proof. intros H Hr. destruct r as [[p|]|e]; [|exact H|exact H]. apply done_boxed; [exact H|apply Hr; reflexivity]. Qed.
Lemma item_EI_boxed ctm o p : item_EI ctm o = Ok (Some p) -> pending_boxed p.
Proof. unfold item_EI. destruct o; try discriminate; destruct (dget _ _); try discriminate; destruct (dget _ _); try discriminate. intros [= <-]. constructor. Qed.
Lemma item_Do_boxed xs ctm pg o p : item_Do getobj depth xs ctm pg o = Ok (Some p) -> pending_boxed p.
Proof.
  unfold item_Do. destruct (negb (hashable o)); [discriminate|]. destruct (assoc_get xs o) as [x|]; [|discriminate]. destruct (validated_stream getobj depth x) as [st|]; [|discriminate]. cbn [bind].
  assert (K : forall b (w h : option obj), (match b, w, h with true, Some _, Some _ => Ok (Some (PItem (make_image st ctm))) | _, _, _ => Ok None end) = Ok (Some p) -> pending_boxed p).
  { intros [|] [?|] [?|]; try discriminate. intros [= <-]. constructor. }
  set (sub := match dget (sattrs st) "Subtype" with Some (OName s) => list_eqb s (bs "Form") | _ => false end). destruct sub; [|apply K].
  destruct (dget (sattrs st) "BBox") as [bb|]; [|apply K]. clear K.
  destruct (list_value getobj depth bb) as [l|]; [|discriminate]. cbn [bind]. destruct (form_matrix getobj depth _) as [m|]; [|discriminate]. cbn [bind].
  destruct (form_resources getobj depth pg _) as [r|]; [|discriminate]. cbn [bind]. destruct (nums l) as [v|]; [|discriminate].
  unfold make_xobject. destruct v as [|? [|? [|? [|? [|]]]]]; try discriminate. cbn [bind]. intros [= <-]. exact Logic.I.
Qed.
Lemma exec_boxed c args s : state_boxed s -> state_boxed (fst (exec c args s)).
Proof.
  intros H. destruct c; unfold Interp_Model.exec, with_num, device, nextline, fresh_lm, move_text, ok, fail;
    try (destruct args as [|? [|? [|? [|]]]]; try exact H);
    try solve [brk; exact H];
    try solve [destruct (nums _) as [v|]; [|exact H]; brk; exact H];
    try solve [apply show_boxed; exact H];
    try solve [apply done_boxed; [exact H|apply make_curve_boxed]].
  - brk; try exact H; pose proof (pop_other s z) as P; rewrite Heqp in P; destruct P as (k & -> & _); exact H.
  - brk; try exact H; pose proof (pop_other s z) as P; rewrite Heqp in P; destruct P as (k & -> & _); exact H.
  - destruct (s_block s) eqn:E; [|split; [|exact (proj2 H)]; cbn; split; [intros ? []|reflexivity]].
    split; [|exact (proj2 H)]. cbn. rewrite E. destruct H as [H _]. rewrite E in H. exact H.
  - split; [exact Logic.I|]. cbn. apply Forall_app. split; [exact (proj2 H)|]. constructor; [|constructor]. destruct H as [H _]. destruct (s_block s); constructor. exact H.
  - destruct o; try (apply show_boxed; exact H); brk; exact H.
  - brk; try exact H. apply show_boxed. exact H.
  - apply add_boxed; [exact H|apply item_EI_boxed].
  - apply add_boxed; [exact H|apply item_Do_boxed].
Qed.
Lemma step_boxed s o : state_boxed s -> state_boxed (fst (step s o)).
Proof.
  intros H. destruct (step_cases getobj depth s o) as [(k & args & b & Hk & c & C1 & C2)|[(b & C1)|(b & k & Hk & C1)]]; rewrite ?C2, ?C1; try exact H. apply exec_boxed. exact H.
Qed.
Context (mkfont : obj -> res font).
Lemma finish_boxed nested g p : (forall s l, s_block s = None -> s_done s = [] -> Forall boxed (fst (fst (nested s l)))) -> pending_boxed p ->
  Forall boxed (fst (finish getobj depth mkfont nested g p)).
Proof.
  intros HN Hp. destruct p as [i|strm box r ctm]; [constructor; [exact Hp|constructor]|]. cbn [finish].
  destruct (prep_state getobj depth mkfont ctm r false) as [xs|] eqn:E; [|constructor].
  destruct (C66_form_start getobj depth mkfont ctm r false xs E) as (P1 & P2 & P3 & P4 & P5 & P6 & P7 & P8 & P9).
  specialize (HN (with_g xs g) [strm] P7). destruct (nested (with_g xs g) [strm]) as [[kids e] s'].
  destruct e; [constructor|]. constructor; [|constructor]. constructor. apply HN. assumption.
Qed.
Lemma gflat_boxed (f : pending -> gen item) l : Forall (fun p => Forall boxed (fst (f p))) l -> Forall boxed (fst (gflat f l)).
Proof.
  induction 1 as [|p l Hp _ IH]; [constructor|]. cbn [gflat]. destruct (f p) as [i [e|]] eqn:E; cbn [fst gapp snd] in *; [assumption|].
  destruct (gflat f l) as [i2 e2]. cbn [fst] in *. apply Forall_app. split; assumption.
Qed.
Lemma run_boxed nested l : (forall s l, s_block s = None -> s_done s = [] -> Forall boxed (fst (fst (nested s l)))) -> forall s, state_boxed s ->
  Forall boxed (fst (fst (run getobj depth mkfont nested s l))).
Proof.
  intros HN. induction l as [|o l IH]; intros s H; [constructor|]. cbn [Interp_Model.run]. pose proof (step_boxed s o H) as H1. destruct (step s o) as [s1 [e|]]; [constructor|]. cbn [fst] in H1.
  assert (G : Forall boxed (fst (gflat (finish getobj depth mkfont nested (s_g s1)) (s_done s1)))).
  { apply gflat_boxed. eapply Forall_impl; [|exact (proj2 H1)]. intros p Hp. apply finish_boxed; assumption. }
  destruct (gflat _ (s_done s1)) as [i1 [e|]]; [exact G|]. cbn [snd].
  specialize (IH (with_done s1 [])). destruct (run _ _ _ _ (with_done s1 []) l) as [[i2 e2] s2]. cbn [fst gapp snd] in *. apply Forall_app. split; [exact G|].
  apply IH. split; [exact (proj1 H1)|constructor].
Qed.
Context (parse : list obj -> gen obj).
(* C95.  Whatever the content of a page, up to where an exception may end it: every text item it gives, at the top or inside forms,
   has the smallest box around the boxes of its strings, each of which has the smallest box around its characters. *)
Theorem C95_text_boxes fuel : forall s streams, s_block s = None -> s_done s = [] -> Forall boxed (fst (fst (process getobj depth mkfont parse fuel s streams))).
Proof.
  induction fuel as [|fuel IH]; intros s streams H1 H2; [constructor|]. cbn [Interp_Model.process]. destruct (parse streams) as [objs e].
  pose proof (run_boxed (process getobj depth mkfont parse fuel) objs IH s) as R. destruct (run _ _ _ _ s objs) as [[items e1] s1]. cbn [fst] in *. apply R.
  split; [rewrite H1; exact Logic.I|rewrite H2; constructor].
Qed.
Theorem C95_page ctm r lenient s fuel streams : prep_state getobj depth mkfont ctm r lenient = Ok s -> Forall boxed (fst (fst (process getobj depth mkfont parse fuel s streams))).
Proof.
  intros E. destruct (C66_form_start getobj depth mkfont ctm r lenient s E) as (P1 & P2 & P3 & P4 & P5 & P6 & P7 & P8 & P9). apply C95_text_boxes; assumption.
Qed.
End props.
