(* C101: the colours of items. *)
From Coq Require Import String ZifyBool ZifyNat.
From Verif Require Import Base Obj Stream_Model Num Geom_Model Page_Model Interp_Model Interp_Spec Interp_Proofs Text_Proofs Interp_Props Forms_Props State_Spec Colour_Spec.
From Coq Require Import Qcanon.
Open Scope Z_scope.
Import ListNotations.

Lemma known_none : Known None. Proof. intros cs H. discriminate H. Qed.
Lemma known_name n k : In n families -> Known (Some (mkCs (ON n) k)).
Proof. intros H cs E. injection E as <-. exists n. split; [exact H|reflexivity]. Qed.
Lemma known_get l x c : Forall (fun e => Known (snd e)) l -> assoc_get l x = Some c -> Known c.
Proof. induction 1 as [|(k, v) l H _ IH]; [discriminate|]. cbn [assoc_get]. destruct (key_eqb k x); [intros [= <-]; exact H|exact IH]. Qed.
Lemma known_set l x c : Forall (fun e => Known (snd e)) l -> Known c -> Forall (fun e => Known (snd e)) (assoc_set l x c).
Proof.
  intros H Hc. induction H as [|(k, v) l H H' IH]; cbn [assoc_set]; [constructor; [exact Hc|constructor]|].
  destruct (key_eqb k x); constructor; try assumption. 
Qed.
Lemma known_predefined : Forall (fun e => Known (snd e)) predefined_cs.
Proof. unfold predefined_cs. cbn [map]. repeat (constructor; [cbn [snd]; apply (known_name _ _); cbn; tauto|]). constructor. Qed.
Lemma nums_ints {A} (V : obj -> Prop) (f : A -> Z) v : (forall z, V (OInt z)) -> Forall V (map (fun x => OInt (f x)) v).
Proof. intros H. apply Forall_map. apply Forall_forall. intros x _. apply H. Qed.

Section props.
Context (getobj : Z -> option obj) (depth : nat) (V : obj -> Prop) (VI : forall z, V (OInt z)).
Notation step := (step getobj depth).
Notation exec := (exec getobj depth).
Notation color_ok := (color_ok V).
Notation coloured := (coloured V).
Lemma known_space o c : get_colorspace getobj depth o = Ok c -> Known c.
Proof.
  assert (P : forall name, (if hashable name then Ok (match assoc_get predefined_cs name with Some c => c | None => None end) else Err TypeError) = Ok c -> Known c).
  { intros name. destruct (hashable name); [|discriminate]. destruct (assoc_get predefined_cs name) as [c'|] eqn:E; intros H; injection H as <-; [exact (known_get _ _ _ known_predefined E)|apply known_none]. }
  unfold get_colorspace. destruct o; cbn [bind]; try (apply P).
  match goal with l : list obj |- _ => destruct l as [|name [|x l']]; cbn [bind]; [discriminate|apply P|] end.
  destruct name; try (apply P).
  match goal with |- context [list_eqb ?n _] => destruct (list_eqb n (bs "ICCBased")) eqn:E1; [|destruct (list_eqb n (bs "DeviceN")) eqn:E2; [|apply P]] end.
  - apply list_eqb_eq in E1. subst. destruct (validated_stream getobj depth x); [|discriminate]. cbn [bind]. destruct (dget _ "N"); [|discriminate]. intros [= <-]. apply (known_name "ICCBased"). cbn; tauto.
  - apply list_eqb_eq in E2. subst. destruct (list_value getobj depth x); [|discriminate]. cbn [bind]. intros [= <-]. apply (known_name "DeviceN"). cbn; tauto.
Qed.
Definition gok (g : gstate) : Prop := color_ok (g_scolor g) /\ color_ok (g_ncolor g) /\ Known (g_scs g) /\ Known (g_ncs g).
Definition pending_ok (p : pending) : Prop := match p with PItem i => coloured i | PXObj _ _ _ _ => True end.
Definition sok (s : istate) : Prop := gok (s_g s) /\ Forall (fun e => Known (snd e)) (s_cs s) /\ Forall V (s_args s) /\
  match s_block s with Some b => Forall (fun cb => color_ok (cb_color cb)) (tb_blocks b) | None => True end /\ Forall pending_ok (s_done s).
Lemma set_stroke g c v : gok g -> Known c -> Forall V v -> gok (set_stroke_color g c v).
Proof. intros (H1 & H2 & H3 & H4) Hc Hv. unfold gok. cbn. splits; try assumption. split; [|exact Hv]. cbn. destruct c; assumption. Qed.
Lemma set_nostroke g c v : gok g -> Known c -> Forall V v -> gok (set_nostroke_color g c v).
Proof. intros (H1 & H2 & H3 & H4) Hc Hv. unfold gok. cbn. splits; try assumption. split; [|exact Hv]. cbn. destruct c; assumption. Qed.
Lemma sok_g s g : sok s -> gok g -> sok (with_g s g).
Proof. intros (_ & H) Hg. split; [exact Hg|exact H]. Qed.
Lemma make_curve_ok ctm g eo p : gok g -> coloured (make_curve ctm g eo p).
Proof.
  intros (H1 & H2 & _). unfold make_curve.
  assert (C : forall k b, coloured (ICurve k (g_width g) p b (g_scolor g) (g_ncolor g) eo)) by (intros; constructor; assumption).
  repeat match goal with |- coloured (match ?x with _ => _ end) => destruct x | |- coloured (if ?x then _ else _) => destruct x | |- coloured (let '_ := ?x in _) => destruct x end; try apply C; constructor.
Qed.
Lemma done_ok s p : sok s -> pending_ok p -> sok (with_done s (s_done s ++ [p])).
Proof. intros (H1 & H2 & H3 & H4 & H5) Hp. unfold sok. cbn. splits; try assumption. apply Forall_app. split; [exact H5|]. constructor; [exact Hp|constructor]. Qed.
Lemma show_ok s seq : sok s -> sok (fst (show s seq)).
Proof.
  intros H. pose proof H as (H1 & H2 & H3 & H4 & H5). unfold show. destruct (t_font (s_text s)) as [f|]; [|exact H]. destruct (s_block s) as [b|] eqn:Eb; [|exact H].
  destruct (render_seq _ _ _ _ _ seq) as [[lm cs] e] eqn:E. destruct e; [unfold sok; cbn; rewrite Eb; splits; assumption|].
  destruct (char_block cs _ _) as [cb|] eqn:C; [|unfold sok; cbn; rewrite Eb; splits; assumption]. unfold sok. cbn. splits; try assumption.
  apply Forall_app. split; [exact H4|]. constructor; [|constructor]. unfold char_block in C. destruct cs as [|[t [[x0 y0] [x1 y1]]] cs]; [discriminate|].
  destruct (cb_union _ _ _ _ _) as [[[? ?] ?] ?]. injection C as <-. exact (proj1 (proj2 H1)).
Qed.
Lemma add_ok s r : sok s -> (forall p, r = Ok (Some p) -> pending_ok p) -> sok (fst (add_item s r)).
Proof. intros H Hr. destruct r as [[p|]|e]; [|exact H|exact H]. apply done_ok; [exact H|apply Hr; reflexivity]. Qed.
Lemma item_EI_ok ctm o p : item_EI ctm o = Ok (Some p) -> pending_ok p.
Proof. unfold item_EI. destruct o; try discriminate; destruct (dget _ _); try discriminate; destruct (dget _ _); try discriminate. intros [= <-]. constructor. Qed.
Lemma item_Do_ok xs ctm pg o p : item_Do getobj depth xs ctm pg o = Ok (Some p) -> pending_ok p.
Proof.
  unfold item_Do. destruct (negb (hashable o)); [discriminate|]. destruct (assoc_get xs o) as [x|]; [|discriminate]. destruct (validated_stream getobj depth x) as [st|]; [|discriminate]. cbn [bind].
  assert (K : forall b (w h : option obj), (match b, w, h with true, Some _, Some _ => Ok (Some (PItem (make_image st ctm))) | _, _, _ => Ok None end) = Ok (Some p) -> pending_ok p).
  { intros [|] [?|] [?|]; try discriminate. intros [= <-]. constructor. }
  set (sub := match dget (sattrs st) "Subtype" with Some (OName s) => list_eqb s (bs "Form") | _ => false end). destruct sub; [|apply K].
  destruct (dget (sattrs st) "BBox") as [bb|]; [|apply K]. clear K.
  destruct (list_value getobj depth bb) as [l|]; [|discriminate]. cbn [bind]. destruct (form_matrix getobj depth _) as [m|]; [|discriminate]. cbn [bind].
  destruct (form_resources getobj depth pg _) as [r|]; [|discriminate]. cbn [bind]. destruct (nums l) as [v|]; [|discriminate].
  unfold make_xobject. destruct v as [|? [|? [|? [|? [|]]]]]; try discriminate. cbn [bind]. intros [= <-]. exact Logic.I.
Qed.
Lemma forall_skipn {A} (P : A -> Prop) l : forall k, Forall P l -> Forall P (skipn k l).
Proof. induction l as [|x l IH]; intros [|k] H; cbn; try assumption. inversion H. apply IH. assumption. Qed.
Lemma forall_firstn {A} (P : A -> Prop) l : forall k, Forall P l -> Forall P (firstn k l).
Proof. induction l as [|x l IH]; intros [|k] H; cbn; try constructor; inversion H; [assumption|]. apply IH. assumption. Qed.
Lemma pop_ok s n v s1 : sok s -> pop s n = (v, s1) -> sok s1 /\ s_g s1 = s_g s /\ Forall V v.
Proof.
  intros (H1 & H2 & H3 & H4 & H5). unfold pop. destruct (n =? 0); intros [= <- <-].
  - splits; [unfold sok; splits; assumption|reflexivity|constructor].
  - splits; [unfold sok; cbn; splits; try assumption; apply forall_firstn; exact H3|reflexivity|apply forall_skipn; exact H3].
Qed.
Lemma device_ok s n f : sok s -> (forall c, Known c -> gok (f c)) -> sok (fst (device s n f)).
Proof.
  intros H Hf. unfold device. destruct (assoc_get (s_cs s) (ON n)) as [c|] eqn:E; [|exact H]. apply sok_g; [exact H|]. apply Hf. exact (known_get _ _ _ (proj1 (proj2 H)) E).
Qed.
Lemma exec_ok c args s : sok s -> Forall V args -> sok (fst (exec c args s)).
Proof.
  intros H HA. pose proof (proj1 H) as HG.
  assert (G : forall g, g_scolor g = g_scolor (s_g s) -> g_ncolor g = g_ncolor (s_g s) -> g_scs g = g_scs (s_g s) -> g_ncs g = g_ncs (s_g s) -> sok (with_g s g)).
  { intros g E1 E2 E3 E4. apply sok_g; [exact H|]. destruct HG as (K1 & K2 & K3 & K4). unfold gok. rewrite E1, E2, E3, E4. splits; assumption. }
  destruct c; unfold Interp_Model.exec, with_num, nextline, fresh_lm, move_text, ok, fail;
    try (destruct args as [|? [|? [|? [|]]]]; try exact H);
    try solve [apply G; reflexivity];
    try solve [apply show_ok; exact H];
    try solve [apply device_ok; [exact H|]; intros c Hc; first [apply set_stroke|apply set_nostroke]; first [assumption|constructor; [inversion HA; assumption|constructor]]];
    try solve [destruct (nums _) as [v|]; [|exact H]; apply device_ok; [exact H|]; intros c Hc; first [apply set_stroke|apply set_nostroke]; first [assumption|apply nums_ints; exact VI]];
    try solve [brk; exact H];
    try solve [destruct (nums _) as [v|]; [|exact H]; brk; exact H];
    try solve [apply (done_ok s); [exact H|apply make_curve_ok; exact HG]].
  - destruct (negb (hashable o)); [exact H|]. destruct (assoc_get (s_cs s) o) as [cs|] eqn:E; [|exact H]. apply sok_g; [exact H|].
    destruct HG as (K1 & K2 & K3 & K4). unfold gok. cbn. splits; try assumption. exact (known_get _ _ _ (proj1 (proj2 H)) E).
  - destruct (negb (hashable o)); [exact H|]. destruct (assoc_get (s_cs s) o) as [cs|] eqn:E; [|exact H]. apply sok_g; [exact H|].
    destruct HG as (K1 & K2 & K3 & K4). unfold gok. cbn. splits; try assumption. exact (known_get _ _ _ (proj1 (proj2 H)) E).
  - destruct (g_scs (s_g s)) as [cs|] eqn:E; [|exact H]. destruct (cs_n cs); try exact H. destruct (pop s z) as [v s1] eqn:P. destruct (pop_ok s z v s1 H P) as (P1 & P2 & P3).
    apply sok_g; [exact P1|]. apply set_stroke; [exact HG| |exact P3]. rewrite <- E. exact (proj1 (proj2 (proj2 HG))).
  - destruct (g_ncs (s_g s)) as [cs|] eqn:E; [|exact H]. destruct (cs_n cs); try exact H. destruct (pop s z) as [v s1] eqn:P. destruct (pop_ok s z v s1 H P) as (P1 & P2 & P3).
    apply sok_g; [exact P1|]. apply set_nostroke; [exact HG| |exact P3]. rewrite <- E. exact (proj2 (proj2 (proj2 HG))).
  - destruct H as (H1 & H2 & H3 & H4 & H5). destruct (s_block s) eqn:E; unfold sok; cbn; rewrite ?E; splits; try assumption. constructor.
  - destruct H as (H1 & H2 & H3 & H4 & H5). unfold sok. cbn. splits; try assumption; [exact Logic.I|]. apply Forall_app. split; [exact H5|]. constructor; [|constructor]. destruct (s_block s); constructor. exact H4.
  - destruct o; try (apply show_ok; exact H); brk; exact H.
  - brk; try exact H. apply show_ok. exact H.
  - apply add_ok; [exact H|apply item_EI_ok].
  - apply add_ok; [exact H|apply item_Do_ok].
Qed.
Lemma step_ok s o : sok s -> V o -> sok (fst (step s o)).
Proof.
  intros H Ho. destruct o; try solve [unfold Interp_Model.step, ok; destruct H as (H1 & H2 & H3 & H4 & H5); unfold sok; cbn; splits; try assumption; apply Forall_app; split; [exact H3|]; constructor; [exact Ho|constructor]].
  unfold Interp_Model.step. destruct (command k) as [c|]; [|exact H]. destruct (Nat.eqb (arity c) 0); [apply exec_ok; [exact H|constructor]|].
  destruct (pop s _) as [v s1] eqn:P. destruct (pop_ok s _ v s1 H P) as (P1 & P2 & P3). destruct (Nat.eqb (length v) (arity c)); [|exact P1]. apply exec_ok; assumption.
Qed.
Context (mkfont : obj -> res font).
Lemma prep_ok ctm r ig xs : prep_state getobj depth mkfont ctm r ig = Ok xs -> sok xs.
Proof.
  unfold prep_state, init_resources. cbv zeta. destruct (dict_value getobj depth _) as [d|] eqn:E; cbn [bind]; [|discriminate].
  intros H. refine (fold_res_keeps sok _ d _ _ _ _ H).
  - intros s [k v] s' Hs. cbn [fst snd].
    set (b1 := match k with OName m => list_eqb m (bs "Font") | _ => false end). set (b2 := match k with OName m => list_eqb m (bs "ColorSpace") | _ => false end).
    set (b3 := match k with OName m => list_eqb m (bs "ProcSet") | _ => false end). set (b4 := match k with OName m => list_eqb m (bs "XObject") | _ => false end).
    destruct b1; [|destruct b2; [|destruct b3; [|destruct b4; [|intros [= <-]; exact Hs]]]].
    + destruct (dict_value getobj depth v) as [fs|]; cbn [bind]; [|discriminate]. intros X. refine (fold_res_keeps sok _ fs _ _ _ Hs X).
      intros a e a' Ha Hx. destruct (mkfont (snd e)); cbn [bind] in Hx; [|discriminate]. injection Hx as <-. exact Ha.
    + destruct (dict_value getobj depth v) as [fs|]; cbn [bind]; [|discriminate]. intros X. refine (fold_res_keeps sok _ fs _ _ _ Hs X).
      intros a e a' Ha Hx. destruct (resolved getobj depth (snd e)) as [a0|]; cbn [bind] in Hx; [|discriminate].
      destruct (get_colorspace getobj depth a0) as [c|] eqn:EC; cbn [bind] in Hx; [|discriminate]. injection Hx as <-. destruct Ha as (A1 & A2 & A3).
      split; [exact A1|]. split; [|exact A3]. apply known_set; [exact A2|exact (known_space _ _ EC)].
    + destruct (list_value getobj depth v) as [fs|]; cbn [bind]; [|discriminate]. intros [= <-]. exact Hs.
    + destruct (dict_value getobj depth v) as [fs|]; cbn [bind]; [|discriminate]. intros X. refine (fold_res_keeps sok _ fs _ _ _ Hs X).
      intros a e a' Ha Hx. injection Hx as <-. exact Ha.
  - assert (C0 : color_ok (mkColor None [])) by (split; [apply known_none|constructor]).
    assert (K : Known (Some (mkCs (ON "DeviceGray") (OInt 1)))) by (apply (known_name "DeviceGray"); cbn; tauto).
    split; [exact (conj C0 (conj C0 (conj K K)))|]. split; [exact known_predefined|]. split; [constructor|]. split; [exact Logic.I|constructor].
Qed.
Lemma finish_ok nested g p : (forall s l, sok s -> Forall coloured (fst (fst (nested s l)))) -> gok g -> pending_ok p ->
  Forall coloured (fst (finish getobj depth mkfont nested g p)).
Proof.
  intros HN Hg Hp. destruct p as [i|strm box r ctm]; [constructor; [exact Hp|constructor]|]. cbn [finish].
  destruct (prep_state getobj depth mkfont ctm r false) as [xs|] eqn:E; [|constructor]. apply prep_ok in E.
  specialize (HN (with_g xs g) [strm] (sok_g _ _ E Hg)). destruct (nested (with_g xs g) [strm]) as [[kids e] s'].
  destruct e; [constructor|]. constructor; [|constructor]. constructor. exact HN.
Qed.
Lemma gflat_ok (f : pending -> gen item) l : Forall (fun p => Forall coloured (fst (f p))) l -> Forall coloured (fst (gflat f l)).
Proof.
  induction 1 as [|p l Hp _ IH]; [constructor|]. cbn [gflat]. destruct (f p) as [i [e|]] eqn:E; cbn [fst gapp snd] in *; [assumption|].
  destruct (gflat f l) as [i2 e2]. cbn [fst] in *. apply Forall_app. split; assumption.
Qed.
Lemma run_ok nested l : (forall s l, sok s -> Forall coloured (fst (fst (nested s l)))) -> Forall V l -> forall s, sok s ->
  Forall coloured (fst (fst (run getobj depth mkfont nested s l))).
Proof.
  intros HN HV. induction HV as [|o l Ho _ IH]; intros s H; [constructor|]. cbn [Interp_Model.run]. pose proof (step_ok s o H Ho) as H1. destruct (step s o) as [s1 [e|]]; [constructor|]. cbn [fst] in H1.
  pose proof H1 as (K1 & K2 & K3 & K4 & K5).
  assert (G : Forall coloured (fst (gflat (finish getobj depth mkfont nested (s_g s1)) (s_done s1)))).
  { apply gflat_ok. eapply Forall_impl; [|exact K5]. intros p Hp. apply finish_ok; assumption. }
  destruct (gflat _ (s_done s1)) as [i1 [e|]]; [exact G|]. cbn [snd].
  specialize (IH (with_done s1 [])). destruct (run _ _ _ _ (with_done s1 []) l) as [[i2 e2] s2]. cbn [fst gapp snd] in *. apply Forall_app. split; [exact G|].
  apply IH. unfold sok. cbn. splits; try assumption. constructor.
Qed.
Context (parse : list obj -> gen obj) (HP : forall streams, Forall V (fst (parse streams))).
Lemma process_ok fuel : forall s streams, sok s -> Forall coloured (fst (fst (process getobj depth mkfont parse fuel s streams))).
Proof.
  induction fuel as [|fuel IH]; intros s streams H; [constructor|]. cbn [Interp_Model.process]. pose proof (HP streams) as HS. destruct (parse streams) as [objs e].
  pose proof (run_ok (process getobj depth mkfont parse fuel) objs IH HS s H) as R. destruct (run _ _ _ _ s objs) as [[items e1] s1]. exact R.
Qed.
(* Whatever the content and the resources of a page, up to where an exception may end it: every colour of an item, at the top or
   inside forms, has no space or one of the eleven families, and its values are integers or objects that stand in the content. *)
Lemma page_colours ctm r lenient s fuel streams : prep_state getobj depth mkfont ctm r lenient = Ok s ->
  Forall coloured (fst (fst (process getobj depth mkfont parse fuel s streams))).
Proof. intros E. apply process_ok. exact (prep_ok _ _ _ _ E). Qed.
End props.
(* C101.  Whatever the content and the resources of a page, up to where an exception may end it: every colour of an item, at the top or
   inside forms, has no space or one of the eleven families, and each of its values is an integer or an object that stands in the
   content, of the page or of a form. *)
Theorem C101_page_colours getobj depth mkfont parse ctm r lenient s fuel streams : prep_state getobj depth mkfont ctm r lenient = Ok s ->
  Forall (coloured (fun o => (exists z, o = OInt z) \/ exists content, In o (fst (parse content)))) (fst (fst (process getobj depth mkfont parse fuel s streams))).
Proof.
  intros E. apply page_colours with (ctm := ctm) (r := r) (lenient := lenient); [intros z; left; exists z; reflexivity| |exact E].
  intros st. apply Forall_forall. intros o Ho. right. exists st. exact Ho.
Qed.
(* a case: a rectangle filled with 1 0 0 rg *)
Definition red_content : list obj := [OInt 1; OInt 0; OInt 0; OK "rg"; OInt 1; OInt 2; OInt 3; OInt 4; OK "re"; OK "f"].
Example C101_case :
  match prep_state (fun _ => None) 3 (fun _ => Err TypeError) (qz 1, qz 0, qz 0, qz 1, qz 0, qz 0)%Qc (ODict []) false with
  | Ok s => map (fun i => match i with ICurve CRect _ _ _ _ fill _ => Some fill | _ => None end)
              (fst (fst (process (fun _ => None) 3 (fun _ => Err TypeError) (fun _ => (red_content, None)) 1 s [ONull])))
  | Err _ => []
  end = [Some (mkColor (Some (mkCs (ON "DeviceRGB") (OInt 3))) [OInt 255; OInt 0; OInt 0])].
Proof. vm_compute. reflexivity. Qed.
