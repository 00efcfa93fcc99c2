(* C65: undefined characters with ignore_bad_chars; C66: form XObjects. *)
From Coq Require Import String ZifyBool ZifyNat.
From Verif Require Import Base Obj Stream_Model Num Geom_Model Page_Model Interp_Model Interp_Spec Interp_Proofs Text_Proofs Interp_Props Interp_Witness.
From Coq Require Import Qcanon.
Open Scope Z_scope.

Section props.
Context (getobj : Z -> option obj) (depth : nat).
Notation step := (step getobj depth).
Notation steps := (steps getobj depth).
Notation exec := (exec getobj depth).

(* the decoder of a font reports its own errors, not undefined characters *)
Definition font_ok (f : font) : Prop := forall b, f_decode f b <> Err UnicodeNotDefined.
Definition text_ok (t : tstate) : Prop := t_ignore t = true /\ forall f, t_font t = Some f -> font_ok f.
(* a state with ignore_bad_chars set, now and in the saved states *)
Definition ignoring (s : istate) : Prop :=
  text_ok (s_text s) /\ Forall (fun x => text_ok (snd (fst x))) (s_gstack s) /\ Forall (fun e => font_ok (snd e)) (s_fonts s).

Lemma render_cids_ign f ts cids : t_ignore ts = true -> forall lm need lm' cs n e, render_cids f ts lm need cids = (lm', cs, n, e) -> e = None.
Proof.
  intros Hi. induction cids as [|c r IH]; cbn [render_cids]; intros lm need lm' cs n e H; [congruence|].
  unfold ts_unichr in H. rewrite Hi in H.
  destruct (f_unichr f c) as [u|]; (destruct (char_box f ts _ c) as [adv box]; destruct (render_cids f ts _ true r) as [[[a b] d] e'] eqn:E; apply IH in E; congruence).
Qed.
Lemma render_seq_ign f ts dx seq : t_ignore ts = true -> font_ok f -> forall lm need, snd (render_seq f ts dx lm need seq) <> Some UnicodeNotDefined.
Proof.
  intros Hi Hf. induction seq as [|o r IH]; cbn [render_seq]; intros lm need; [discriminate|].
  destruct (num_of o); [apply IH|].
  destruct (match o with OStr b => f_decode f b | _ => Err TypeError end) as [cids|e] eqn:Ed.
  - destruct (render_cids f ts lm need cids) as [[[lm1 cs] n] [e|]] eqn:Ec.
    + apply render_cids_ign in Ec; [discriminate|assumption].
    + pose proof (IH lm1 n) as K. destruct (render_seq f ts dx lm1 n r) as [[lm2 cs2] e2]. exact K.
  - cbn. intros [= ->]. destruct o; try discriminate Ed. exact (Hf _ Ed).
Qed.
Lemma show_ign s seq : ignoring s -> snd (show s seq) <> Some UnicodeNotDefined.
Proof.
  intros [[Hi Hf] _]. unfold show. destruct (t_font (s_text s)) as [f|]; [|discriminate]. destruct (s_block s); [|discriminate].
  pose proof (render_seq_ign f (decode_ts f (s_text s) (s_ctm s)) (dxscale_of (decode_ts f (s_text s) (s_ctm s))) seq Hi (Hf f eq_refl)
     (hget (s_heap s) (t_lm (decode_ts f (s_text s) (s_ctm s)))) false) as K.
  destruct (render_seq _ _ _ _ _ _) as [[lm cs] [e|]]; [exact K|]. destruct (char_block _ _ _) as [cb|e] eqn:E; [discriminate|].
  unfold char_block in E. destruct cs as [|[? [[? ?] [? ?]]] cs]; [injection E as <-; discriminate|]. destruct (cb_union _ _ _ _ _) as [[[? ?] ?] ?]. discriminate.
Qed.
Lemma show_keeps s seq : ignoring s -> ignoring (fst (show s seq)).
Proof. intros H. destruct (show_frame s seq) as (lm & b & [->| ->]); exact H. Qed.

Lemma resolved_err o e : resolved getobj depth o = Err e -> e = OutOfFuel.
Proof. unfold resolved. destruct (resolve1 _ _ _ _); congruence. Qed.
Lemma list_value_err o e : list_value getobj depth o = Err e -> e = OutOfFuel.
Proof. unfold list_value. destruct (resolved getobj depth o) eqn:E; cbn; [discriminate|]. intros [= <-]. exact (resolved_err _ _ E). Qed.
Lemma dict_value_err o e : dict_value getobj depth o = Err e -> e = OutOfFuel.
Proof. unfold dict_value. destruct (resolved getobj depth o) eqn:E; cbn; [discriminate|]. intros [= <-]. exact (resolved_err _ _ E). Qed.
Lemma item_Do_err xo ctm page o : item_Do getobj depth xo ctm page o <> Err UnicodeNotDefined.
Proof.
  unfold item_Do. destruct (hashable o); [cbn [negb]|discriminate]. destruct (assoc_get xo o); [|discriminate].
  unfold validated_stream. destruct (resolved getobj depth o0) eqn:E; cbn [bind]; [|apply resolved_err in E; subst; discriminate].
  set (st := match a with OStream _ _ => a | _ => _ end). clearbody st.
  destruct (match dget (sattrs st) "Subtype" with Some (OName st0) => list_eqb st0 (bs "Form") | _ => false end).
  - destruct (dget (sattrs st) "BBox").
    + destruct (list_value getobj depth o1) eqn:E1; cbn [bind]; [|apply list_value_err in E1; subst; discriminate].
      unfold form_matrix. destruct (dget (sattrs st) "Matrix") as [mo|]; cbn [bind].
      * destruct (list_value getobj depth mo) eqn:E2; cbn [bind]; [|apply list_value_err in E2; subst; discriminate].
        destruct (nums a1) as [[|? [|? [|? [|? [|? [|? [|? ?]]]]]]]|]; cbn [bind]; try discriminate.
        unfold form_resources. destruct (dget (sattrs st) "Resources"); [destruct (truthy o2)|]; cbn [bind].
        -- destruct (dict_value getobj depth o2) eqn:E3; cbn [bind]; [|apply dict_value_err in E3; subst; discriminate].
           destruct (nums a0) as [[|? [|? [|? [|? [|? ?]]]]]|]; cbn; discriminate.
        -- destruct (nums a0) as [[|? [|? [|? [|? [|? ?]]]]]|]; cbn; discriminate.
        -- destruct (nums a0) as [[|? [|? [|? [|? [|? ?]]]]]|]; cbn; discriminate.
      * unfold form_resources. destruct (dget (sattrs st) "Resources"); [destruct (truthy o2)|]; cbn [bind].
        -- destruct (dict_value getobj depth o2) eqn:E3; cbn [bind]; [|apply dict_value_err in E3; subst; discriminate].
           destruct (nums a0) as [[|? [|? [|? [|? [|? ?]]]]]|]; cbn; discriminate.
        -- destruct (nums a0) as [[|? [|? [|? [|? [|? ?]]]]]|]; cbn; discriminate.
        -- destruct (nums a0) as [[|? [|? [|? [|? [|? ?]]]]]|]; cbn; discriminate.
    + destruct (match dget (sattrs st) "Subtype" with Some (OName st0) => list_eqb st0 (bs "Image") | _ => false end), (dget (sattrs st) "Width"), (dget (sattrs st) "Height"); discriminate.
  - destruct (match dget (sattrs st) "Subtype" with Some (OName st0) => list_eqb st0 (bs "Image") | _ => false end), (dget (sattrs st) "Width"), (dget (sattrs st) "Height"); discriminate.
Qed.
Lemma item_EI_err ctm o : item_EI ctm o <> Err UnicodeNotDefined.
Proof. unfold item_EI. destruct o; try discriminate; destruct (dget d "W"), (dget d "H"); discriminate. Qed.

Lemma assoc_get_Forall {A} (P : A -> Prop) d k v : Forall (fun e : obj * A => P (snd e)) d -> assoc_get d k = Some v -> P v.
Proof. induction 1 as [|[k' v'] d H _ IH]; cbn [assoc_get]; [discriminate|]. destruct (key_eqb k' k); [intros [= <-]; exact H|exact IH]. Qed.

Lemma pop_ign s n : ignoring s -> ignoring (snd (pop s n)).
Proof. intros H. pose proof (pop_other s n) as P. destruct (pop s n) as [a s1]. destruct P as (k & -> & _). exact H. Qed.
Lemma exec_ign c args s : ignoring s -> ignoring (fst (exec c args s)) /\ snd (exec c args s) <> Some UnicodeNotDefined.
Proof.
  intros H. pose proof H as ((Hi & Hf) & Hg & Hfo).
  assert (NUM : forall f, (forall v s', f v = Some s' -> ignoring s') -> ignoring (fst (with_num s args f)) /\ snd (with_num s args f) <> Some UnicodeNotDefined).
  { intros f Hs. unfold with_num. destruct (nums args) as [v|]; [|split; [exact H|discriminate]]. destruct (f v) eqn:E; [split; [exact (Hs _ _ E)|discriminate]|split; [exact H|discriminate]]. }
  assert (DEV : forall n f, ignoring (fst (device s n f)) /\ snd (device s n f) <> Some UnicodeNotDefined).
  { intros n f. unfold device. destruct (assoc_get _ _); (split; [exact H|discriminate]). }
  assert (SHOW : forall s' seq, ignoring s' -> ignoring (fst (show s' seq)) /\ snd (show s' seq) <> Some UnicodeNotDefined).
  { intros s' seq H'. split; [apply show_keeps; assumption|apply show_ign; assumption]. }
  assert (T : forall t, t_ignore t = true -> (forall f, t_font t = Some f -> font_ok f) -> ignoring (with_text s t)).
  { intros t A B. split; [split; assumption|split; assumption]. }
  assert (TF : forall t, t_ignore t = true -> (forall f, t_font t = Some f -> font_ok f) -> ignoring (fresh_lm s t)).
  { intros t A B. split; [split; assumption|split; assumption]. }
  destruct c; unfold Interp_Model.exec;
    try (apply NUM; intros v s' E; repeat (destruct v as [|? v]; try discriminate E); injection E as <-; first [exact H|apply T; assumption|apply TF; assumption]);
    try (destruct args as [|x [|y [|z [|? args]]]]; try solve [split; [exact H|discriminate]]; try apply DEV; try (apply SHOW; exact H)).
  all: try solve [destruct (nums _); [apply DEV|split; [exact H|discriminate]]].
  all: try solve [split; [exact H|destruct (hashable _); cbn; try destruct (assoc_get _ _); discriminate]].
  all: try solve [destruct (hashable x); cbn [negb]; [destruct (assoc_get _ _)|]; (split; [exact H|discriminate])].
  - split; [|discriminate]. split; [split; assumption|]. split; [|assumption]. apply Forall_app. split; [assumption|]. constructor; [split; assumption|constructor].
  - destruct (rev (s_gstack s)) as [|[[m t] g] r] eqn:E; [split; [exact H|discriminate]|]. split; [|discriminate].
    assert (K : Forall (fun x => text_ok (snd (fst x))) (rev (s_gstack s))) by (apply Forall_rev; assumption). rewrite E in K. inversion K; subst.
    split; [assumption|]. split; [apply Forall_rev; assumption|assumption].
  - destruct (g_scs (s_g s)) as [cs|]; [|split; [exact H|discriminate]]. destruct (cs_n cs); try (split; [exact H|discriminate]).
    pose proof (pop_ign s z H) as P. destruct (pop s z) as [v s1]. split; [exact P|discriminate].
  - destruct (g_ncs (s_g s)) as [cs|]; [|split; [exact H|discriminate]]. destruct (cs_n cs); try (split; [exact H|discriminate]).
    pose proof (pop_ign s z H) as P. destruct (pop s z) as [v s1]. split; [exact P|discriminate].
  - destruct (s_block s); (split; [apply TF; assumption|discriminate]).
  - destruct (num_of y) as [size|]; [|split; [exact H|discriminate]]. destruct (hashable x); cbn [negb]; [|split; [apply T; assumption|discriminate]].
    destruct (assoc_get (s_fonts s) x) as [f|] eqn:E; [|split; [apply T; assumption|discriminate]]. split; [|discriminate]. apply T; [assumption|].
    cbn. intros f' [= <-]. exact (assoc_get_Forall _ _ _ _ Hfo E).
  - destruct x; try (apply SHOW; exact H); destruct (t_font (s_text s)), (s_block s); (split; [exact H|discriminate]).
  - destruct (num_of x), (num_of y); try (split; [exact H|discriminate]). apply SHOW. apply T; assumption.
  - unfold add_item. pose proof (item_EI_err (s_ctm s) x) as K. destruct (item_EI (s_ctm s) x) as [[p|]|e]; (split; [exact H|]); try discriminate. cbn. congruence.
  - unfold add_item. pose proof (item_Do_err (s_xobjs s) (s_ctm s) (s_resources s) x) as K.
    destruct (item_Do getobj depth (s_xobjs s) (s_ctm s) (s_resources s) x) as [[p|]|e]; (split; [exact H|]); try discriminate. cbn. congruence.
Qed.
Lemma step_ign s o : ignoring s -> ignoring (fst (step s o)) /\ snd (step s o) <> Some UnicodeNotDefined.
Proof.
  intros H. unfold Interp_Model.step. destruct o; try (split; [exact H|discriminate]).
  destruct (command k); [|split; [exact H|discriminate]]. destruct (Nat.eqb (arity o) 0); [apply exec_ign; assumption|].
  pose proof (pop_ign s (Z.of_nat (arity o)) H) as P. destruct (pop s _) as [a s1]. destruct (Nat.eqb _ _); [apply exec_ign; assumption|].
  split; [exact P|discriminate].
Qed.

(* With ignore_bad_chars, whatever the page's own content shows, no undefined character is reported.  Missing: the content
   of form XObjects (C65_form_not_ignored). *)
Theorem C65_page_partial l : forall s, ignoring s -> snd (steps s l) <> Some UnicodeNotDefined.
Proof.
  induction l as [|o l IH]; intros s H; cbn [Interp_Model.steps]; [discriminate|].
  destruct (step_ign s o H) as [A B]. destruct (step s o) as [s1 [e|]]; [exact B|apply IH; exact A].
Qed.
(* (the characters it cannot map are shown as empty texts at their places: C41_show_partial) *)
(* without it, the first undefined character raises *)
Theorem C65_reported s f b seq c : t_font (s_text s) = Some f -> s_block s = Some b -> t_ignore (s_text s) = false ->
  f_decode f seq = Ok [c] -> f_unichr f c = None -> snd (steps s [OStr seq; OK "Tj"]) = Some UnicodeNotDefined.
Proof.
  intros Hf Hb Hi Hd Hu. change [OStr seq; OK "Tj"] with ([OStr seq] ++ OK "Tj" :: []).
  rewrite (steps_instr getobj depth "Tj" 1 o_Tj); try reflexivity; [|repeat constructor; discriminate].
  cbn [Interp_Model.exec]. unfold show. rewrite Hf, Hb. cbn [render_seq num_of]. rewrite Hd. cbn [render_cids]. unfold ts_unichr. rewrite Hu.
  cbn [decode_ts t_ignore]. rewrite Hi. reflexivity.
Qed.

(* ================= C66 ================= *)
Context (mkfont : obj -> res font) (parse : list obj -> gen obj).
Notation run := (run getobj depth mkfont).
Notation process := (process getobj depth mkfont parse).
(* form n o d b m r: the name n stands in s for the form XObject o with dictionary d, BBox operands b, Matrix m and
   resources r *)
Definition is_form (s : istate) (n : list Z) (o : obj) (b : list num) (m : matrix) (r : obj) : Prop :=
  exists x d data bb mo, assoc_get (s_xobjs s) (OName n) = Some x /\ resolved getobj depth x = Ok o /\ o = OStream d data /\
    dget d "Subtype" = Some (ON "Form") /\ dget d "BBox" = Some (OArr bb) /\ nums bb = Some b /\
    ((dget d "Matrix" = None /\ m = matrix_identity) \/
     (exists ms a b' c d' e f, dget d "Matrix" = Some (OArr ms) /\ mo = ms /\ nums ms = Some [a; b'; c; d'; e; f] /\ m = (a, b', c, d', e, f))) /\
    ((dget d "Resources" = None /\ r = s_resources s) \/ (exists kv rest, dget d "Resources" = Some (ODict (kv :: rest)) /\ r = ODict (kv :: rest))).
Lemma step_Do s n o x y w h m r : is_form s n o [x; y; w; h] m r -> depth <> 0%nat ->
  steps s [OName n; OK "Do"] =
    (with_done s (s_done s ++ [PXObj o (from_points (map (apply_matrix_pt m) [(x, y); (x + w, y)%Qc; (x, y + h)%Qc; (x + w, y + h)%Qc])) r (s_ctm s)]), None).
Proof.
  intros (x0 & d & data & bb & mo & E1 & E2 & -> & E3 & E4 & E5 & E6 & E7) Hd. change [OName n; OK "Do"] with ([OName n] ++ OK "Do" :: []).
  rewrite (steps_instr getobj depth "Do" 1 o_Do); try reflexivity; [|repeat constructor; discriminate].
  assert (LV : forall l, list_value getobj depth (OArr l) = Ok l) by (intros; unfold list_value, resolved; destruct depth; [congruence|reflexivity]).
  assert (DV : forall l, dict_value getobj depth (ODict l) = Ok l) by (intros; unfold dict_value, resolved; destruct depth; [congruence|reflexivity]).
  cbn [Interp_Model.exec]. unfold item_Do. cbn [hashable negb]. rewrite E1. unfold validated_stream. rewrite E2. cbn [bind sattrs]. rewrite E3.
  change (ON "Form") with (OName (bs "Form")). cbv iota beta. rewrite (proj2 (list_eqb_eq (bs "Form") (bs "Form")) eq_refl). rewrite E4, LV. cbn [bind].
  assert (M : form_matrix getobj depth (dget d "Matrix") = Ok m).
  { destruct E6 as [[-> ->]|(ms & a & b' & c & d' & e & f & -> & _ & E6 & ->)]; [reflexivity|]. cbn [form_matrix]. rewrite LV. cbn [bind]. rewrite E6. reflexivity. }
  rewrite M. cbn [bind]. assert (R : form_resources getobj depth (s_resources s) (dget d "Resources") = Ok r).
  { destruct E7 as [[-> ->]|(kv & rest & -> & ->)]; [reflexivity|]. cbn [form_resources truthy]. rewrite DV. reflexivity. }
  rewrite R. cbn [bind]. rewrite E5. cbn [make_xobject bind add_item ok Interp_Model.steps]. reflexivity.
Qed.
(* Do on a form yields one item that holds the items of the form's content, and the page goes on in the state it had: the
   form can change neither the graphics state nor the text state nor the path nor the operands of the page.  The form starts
   with the page's transformation matrix and graphics parameters. *)
Theorem C66_form_isolated fuel s n o x y w h m r l xs kids xs' : is_form s n o [x; y; w; h] m r -> depth <> 0%nat -> s_done s = [] ->
  prep_state getobj depth mkfont (s_ctm s) r false = Ok xs ->
  process fuel (with_g xs (s_g s)) [o] = ((kids, None), xs') ->
  run (process fuel) s ([OName n; OK "Do"] ++ l) =
    let '((items, e), s') := run (process fuel) s l in
    ((IXObj o (from_points (map (apply_matrix_pt m) [(x, y); (x + w, y)%Qc; (x, y + h)%Qc; (x + w, y + h)%Qc])) kids :: items, e), s').
Proof.
  intros Hf Hd H0 Hp Hk. pose proof (step_Do s n o x y w h m r Hf Hd) as E. rewrite H0 in E. cbn [app] in E |- *.
  cbn [Interp_Model.steps] in E. assert (P1 : step s (OName n) = (with_args s (s_args s ++ [OName n]), None)) by reflexivity.
  rewrite P1 in E. destruct (step (with_args s (s_args s ++ [OName n])) (OK "Do")) as [s1 [e|]] eqn:E1; [discriminate|]. cbn [Interp_Model.steps] in E. injection E as ->.
  rewrite (run_quiet getobj depth mkfont (process fuel) s (OName n) _ _ P1) by exact H0.
  cbn [Interp_Model.run]. rewrite E1. cbn [s_done with_done gflat s_g finish]. rewrite Hp, Hk. cbn [gapp gnil snd fst app].
  match goal with |- context [with_done (with_done s ?z) []] => replace (with_done (with_done s z) []) with s
    by (destruct s; cbn in H0 |- *; rewrite <- H0; reflexivity) end.
  destruct (run (process fuel) s l) as [[items e] s']. reflexivity.
Qed.
(* what a form's own content finds when it starts *)
Lemma fold_res_keeps {A B} (P : A -> Prop) (f : A -> B -> res A) l : (forall a b a', P a -> f a b = Ok a' -> P a') -> forall a a', P a -> fold_res f a l = Ok a' -> P a'.
Proof.
  intros H. induction l as [|x l IH]; intros a a' Ha; cbn [fold_res]; [congruence|]. destruct (f a x) eqn:E; cbn [bind]; [|discriminate]. apply IH. exact (H _ _ _ Ha E).
Qed.
Theorem C66_form_start ctm r ig xs : prep_state getobj depth mkfont ctm r ig = Ok xs ->
  s_ctm xs = ctm /\ s_resources xs = r /\ s_gstack xs = [] /\ s_path xs = [] /\ s_args xs = [] /\ s_done xs = [] /\ s_block xs = None /\
  s_text xs = t_with_ignore t0 ig /\ line_pos xs = (qz 0, qz 0).
Proof.
  set (P := fun xs : istate => s_ctm xs = ctm /\ s_resources xs = r /\ s_gstack xs = [] /\ s_path xs = [] /\ s_args xs = [] /\ s_done xs = [] /\ s_block xs = None /\
  s_text xs = t_with_ignore t0 ig /\ line_pos xs = (qz 0, qz 0)).
  unfold prep_state, init_resources. cbv zeta. destruct (dict_value getobj depth _) as [d|] eqn:E; cbn [bind]; [|discriminate].
  intros H. refine (fold_res_keeps P _ d _ _ _ _ H); [|repeat split].
  intros s [k v] s' Hs. cbn [fst snd].
  set (b1 := match k with OName m => list_eqb m (bs "Font") | _ => false end). set (b2 := match k with OName m => list_eqb m (bs "ColorSpace") | _ => false end).
  set (b3 := match k with OName m => list_eqb m (bs "ProcSet") | _ => false end). set (b4 := match k with OName m => list_eqb m (bs "XObject") | _ => false end).
  destruct b1; [|destruct b2; [|destruct b3; [|destruct b4; [|intros [= <-]; exact Hs]]]].
  - destruct (dict_value getobj depth v) as [fs|]; cbn [bind]; [|discriminate]. intros X. refine (fold_res_keeps P _ fs _ _ _ Hs X).
    intros a e a' Ha Hx. destruct (mkfont (snd e)); cbn [bind] in Hx; [|discriminate]. injection Hx as <-. exact Ha.
  - destruct (dict_value getobj depth v) as [fs|]; cbn [bind]; [|discriminate]. intros X. refine (fold_res_keeps P _ fs _ _ _ Hs X).
    intros a e a' Ha Hx. destruct (resolved getobj depth (snd e)); cbn [bind] in Hx; [|discriminate].
    destruct (get_colorspace getobj depth a0); cbn [bind] in Hx; [|discriminate]. injection Hx as <-. exact Ha.
  - destruct (list_value getobj depth v) as [fs|]; cbn [bind]; [|discriminate]. intros [= <-]. exact Hs.
  - destruct (dict_value getobj depth v) as [fs|]; cbn [bind]; [|discriminate]. intros X. refine (fold_res_keeps P _ fs _ _ _ Hs X).
    intros a e a' Ha Hx. injection Hx as <-. exact Ha.
Qed.
End props.

(* ---- witnesses ---- *)
Lemma C65_witness : ignoring (with_text s_f (t_with_ignore t0 true)).
Proof. split; [split; [reflexivity|discriminate]|]. split; [constructor|]. constructor; [|constructor]. intros b. discriminate. Qed.
(* BT /F1 10 Tf (\310) Tj ET on the page: an empty text *)
Lemma C65_page_witness : snd (go (with_text s_f (t_with_ignore t0 true)) [OK "BT"; ON "F1"; I 10; OK "Tf"; OStr [200]; OK "Tj"; OK "ET"]) = None /\
  snd (go s_f [OK "BT"; ON "F1"; I 10; OK "Tf"; OStr [200]; OK "Tj"; OK "ET"]) = Some UnicodeNotDefined.
Proof. split; vm_compute; reflexivity. Qed.
(* the same content in a form drawn by a page with ignore_bad_chars: the error is raised all the same *)
Definition form_obj : obj := OStream [(ON "Subtype", ON "Form"); (ON "BBox", OArr [I 0; I 0; I 10; I 10]); (ON "Resources", ODict [(ON "Font", ODict [(ON "F1", ONull)])])] [].
Definition form_state : istate := with_xobjs (with_text s_f (t_with_ignore t0 true)) [(ON "X", form_obj)].
Definition form_parse (l : list obj) : gen obj :=
  match l with OStream (_ :: _) _ :: _ => ([OK "BT"; ON "F1"; I 10; OK "Tf"; OStr [200]; OK "Tj"; OK "ET"], None) | _ => ([ON "X"; OK "Do"], None) end.
Lemma C65_form_not_ignored : ignoring form_state /\
  snd (fst (process (fun _ => None) 1 (fun _ => Ok font1) form_parse 2 form_state [OStream [] []])) = Some UnicodeNotDefined.
Proof.
  split; [|vm_compute; reflexivity]. split; [split; [reflexivity|discriminate]|]. split; [constructor|]. constructor; [|constructor]. intros b. discriminate.
Qed.
Lemma C66_witness : is_form (fun _ => None) 1 form_state (bs "X") form_obj [qz 0; qz 0; qz 10; qz 10] matrix_identity (ODict [(ON "Font", ODict [(ON "F1", ONull)])]).
Proof.
  exists form_obj. eexists. exists [], [I 0; I 0; I 10; I 10], []. repeat (split; [reflexivity|]). split; [left; split; reflexivity|]. right. repeat eexists.
Qed.
(* Two deviations from section 4.9: the form's Matrix is not applied to its content (the form starts with the page's matrix
   whatever m is, C66_form_isolated), and BBox is read as x, y, width, height instead of two corners. *)
Lemma C66_bbox_as_width_height : exists r, make_xobject ONull [qz 10; qz 10; qz 20; qz 20] matrix_identity matrix_identity ONull = Ok r /\
  match r with PXObj _ b _ _ => map this (q4 b) = map this [qz 10; qz 10; qz 30; qz 30] | _ => False end.
Proof. eexists. split; [reflexivity|]. vm_compute. reflexivity. Qed.
