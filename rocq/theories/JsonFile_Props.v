(* C79: the file convert_to_json writes. *)
From Coq Require Import String.
From Verif Require Import Base Obj Num Geom_Model Page_Model Interp_Model.
From Verif Require Import Markup_Model Markup_Spec Markup_Proofs JsonWriter_Proofs Markup_Props Convert_Model XmlFile_Spec XmlFile_Props JsonFile_Spec.
From Coq Require Import Qcanon ZifyBool Lia.
Open Scope Z_scope.
Import ListNotations.

(* ---------- values ---------- *)
Lemma replace_none c r x : Forall (fun a => a <> c) x -> replace1 c r x = x.
Proof.
  induction 1 as [|a x Ha _ IH]; [reflexivity|]. unfold replace1 in *. cbn [flat_map]. destruct (a =? c) eqn:E; [lia|]. rewrite IH. reflexivity.
Qed.
Lemma charref_none x : Forall (fun a => a < 128) x -> charref_ascii x = x.
Proof.
  induction 1 as [|a x Ha _ IH]; [reflexivity|]. unfold charref_ascii in *. cbn [flat_map]. destruct (a <? 128) eqn:E; [|lia]. rewrite IH. reflexivity.
Qed.
Lemma enc_same x ascii : Forall (fun c => (ascii = true -> c < 128) /\ c <> 38 /\ c <> 60 /\ c <> 62 /\ c <> 34) x -> enc (Str x) ascii = x.
Proof.
  intros H. unfold enc. rewrite (replace_none 38) by (eapply Forall_impl; [|exact H]; cbn; tauto). rewrite (replace_none 62) by (eapply Forall_impl; [|exact H]; cbn; tauto).
  rewrite (replace_none 60) by (eapply Forall_impl; [|exact H]; cbn; tauto). rewrite (replace_none 34) by (eapply Forall_impl; [|exact H]; cbn; tauto).
  destruct ascii; [|reflexivity]. apply charref_none. eapply Forall_impl; [|exact H]; cbn. intros c [A _]. apply A. reflexivity.
Qed.
Lemma enc_unescaped x : unescaped x -> enc (Str x) true = x.
Proof. intros H. apply enc_same. eapply Forall_impl; [|exact H]. cbn. intros c. lia. Qed.

(* a call that makes the given value without an exception *)
Definition makes (c : jcall) (v : json) : Prop := GoodJ c /\ told c = (v, false).
Definition member (p : list Z * jcall) (m : list Z * json) : Prop :=
  fst p = fst m /\ Forall (fun c => plain_char c /\ c <> 34) (fst p) /\ makes (snd p) (snd m).
Lemma told_members l m : Forall2 (fun p m => fst p = fst m /\ makes (snd p) (snd m)) l m -> told_list l = (m, false).
Proof.
  induction 1 as [|[k c] [k' v] l m [E M] _ IH]; [reflexivity|]. cbn [fst snd] in *. subst k'. destruct M as [G T].
  rewrite told_list_cons by (destruct c; [reflexivity..|discriminate]). rewrite T, IH. reflexivity.
Qed.
Lemma makes_object l m : Forall2 member l m -> NoDup (map fst m) -> makes (JObject l) (JObj m).
Proof.
  intros H N. split.
  - apply GoodJ_obj.
    + replace (map fst l) with (map fst m); [exact N|]. clear N. induction H as [|p q l m (E & _) _ IH]; [reflexivity|]. cbn [map]. rewrite IH, E. reflexivity.
    + clear N. induction H as [|p q l m (E & P & G & _) _ IH]; constructor; [split; assumption|exact IH].
  - rewrite told_object, (told_members l m); [reflexivity|]. clear N. induction H as [|p q l m (E & _ & M) _ IH]; constructor; [split; assumption|exact IH].
Qed.
Lemma makes_array l vs : Forall2 (fun p v => makes (snd p) v) l vs -> makes (JArray l) (JArr vs).
Proof.
  intros H. split; [apply GoodJ_arr; induction H as [|p v l vs [G _] _ IH]; constructor; assumption|].
  rewrite told_array. assert (E : exists m, told_list l = (m, false) /\ map snd m = vs).
  { induction H as [|[k c] v l vs [G T] _ (m & E & F)]; [exists []; split; reflexivity|]. cbn [snd] in *. exists ((k, v) :: m).
    rewrite told_list_cons by (destruct c; [reflexivity..|discriminate]). rewrite T, E, <- F. split; reflexivity. }
  destruct E as (m & -> & ->). reflexivity.
Qed.
Lemma key_b x : forallb (fun c => (32 <=? c) && negb (c =? 92) && negb (c =? 34)) x = true -> Forall (fun c => plain_char c /\ c <> 34) x.
Proof. intros H. apply Forall_forall. intros c Hc. rewrite forallb_forall in H. specialize (H c Hc). unfold plain_char. lia. Qed.
Lemma plain_b x : forallb (fun c => (32 <=? c) && negb (c =? 92)) x = true -> Forall plain_char x.
Proof. intros H. apply Forall_forall. intros c Hc. rewrite forallb_forall in H. specialize (H c Hc). unfold plain_char. lia. Qed.
Ltac key := apply key_b; reflexivity.
Ltac plain := apply plain_b; reflexivity.
Ltac nodup := apply nodupb_sound; reflexivity.
Lemma makes_number t : json_number t = true -> makes (JNumber t) (JNum t).
Proof. intros H. split; [constructor; exact H|reflexivity]. Qed.
Lemma makes_string x : Forall plain_char x -> makes (JString x) (JStr x).
Proof. intros H. split; [constructor; exact H|reflexivity]. Qed.

Section file.
  Context (num_text : num -> list Z) (val_text : obj -> list Z) (image_name : obj -> list Z) (descriptor : tstate -> list (list Z * list Z)).
  Context (Hnum : forall q, json_number (num_text q) = true).
  Local Notation item_json := (item_json num_text val_text image_name descriptor).
  Local Notation page_json := (page_json num_text val_text image_name descriptor).
  Local Notation pages_json := (pages_json num_text val_text image_name descriptor).
  Local Notation JOkItem := (JOkItem num_text val_text image_name descriptor).
  Local Notation box_members := (box_members num_text).
  Local Notation color_members := (color_members val_text).

  Lemma makes_num q : makes (JNumber (num_text q)) (n_json num_text q).
  Proof. apply makes_number, Hnum. Qed.
  Lemma box_made b : Forall2 member (box_props num_text b) (box_members b).
  Proof.
    unfold box_props, box_attrs, JsonFile_Spec.box_members. cbn [map fst snd].
    repeat (constructor; [split; [reflexivity|split; [key|apply makes_num]]|]). constructor.
  Qed.
  Lemma unescaped_scalar x : unescaped x -> Forall scalar x.
  Proof. intros H. eapply Forall_impl; [|exact H]. cbn. unfold scalar. intros. lia. Qed.
  Lemma color_made key c : Forall (fun c => plain_char c /\ c <> 34) key -> jcolor_ok val_text c -> Forall2 member (color_prop val_text key c) (color_members key c).
  Proof.
    intros K H. unfold color_prop, JsonFile_Spec.color_members, jcolor_ok in *. destruct (c_space c) as [cs|]; [|constructor]. destruct H as [H1 H2].
    assert (T : unescaped (cs_text cs)) by (unfold cs_text; destruct (cs_name cs); try constructor; apply H1; reflexivity).
    assert (V : map (fun v => PyStr (enc (Str (val_text v)) true)) (c_vals c) = map (fun v => PyStr (val_text v)) (c_vals c)).
    { clear -H2. induction H2 as [|v l Hv _ IH]; [reflexivity|]. cbn [map]. rewrite IH, (enc_unescaped _ Hv). reflexivity. }
    rewrite V, (enc_unescaped _ T). constructor; [|constructor]. split; [reflexivity|]. split; [exact K|]. cbn [snd]. split.
    - apply GoodJ_place, GoodPy_dict. constructor; [split; [repeat (constructor; [unfold scalar; cbn; lia|]); constructor|constructor; apply unescaped_scalar, T]|].
      constructor; [|constructor]. split; [repeat (constructor; [unfold scalar; cbn; lia|]); constructor|]. apply GoodPy_list.
      clear -H2. induction H2 as [|v l Hv _ IH]; constructor; [constructor; apply unescaped_scalar, Hv|exact IH].
    - cbn [told of_py map fst snd]. rewrite map_map. reflexivity.
  Qed.
  Lemma color_keys key c : map fst (color_members key c) = match c_space c with Some _ => [key] | None => [] end.
  Proof. unfold JsonFile_Spec.color_members. destruct (c_space c); reflexivity. Qed.
  Lemma block_made cb : jblock_ok num_text val_text descriptor cb ->
    makes (json_char_block num_text val_text descriptor cb) (JObj (block_members num_text val_text descriptor cb)).
  Proof.
    intros (H1 & H2 & H3 & H4). apply makes_object; [|exact H4]. unfold block_members. rewrite <- descriptor_shown.
    rewrite <- descriptor_shown in H3.
    constructor.
    { split; [reflexivity|]. split; [key|]. cbn [snd]. replace (cb_size cb) with (v_size cb) by (unfold cb_size, v_size; destruct (t_font (cb_text cb)) as [f|]; [destruct (f_vertical f)|]; reflexivity).
      apply makes_num. }
    apply Forall2_app; [apply box_made|]. apply Forall2_app; [apply color_made; [key|exact H2]|]. apply Forall2_app.
    - clear -H3. induction H3 as [|[k v] l [A B] _ IH]; constructor; [|exact IH]. split; [reflexivity|]. split; [exact A|apply makes_string; exact B].
    - constructor; [|constructor]. split; [reflexivity|]. split; [key|]. cbn [snd]. rewrite <- flat_map_concat_map. apply makes_string.
      clear -H1. induction H1 as [|c l Hc _ IH]; [constructor|]. cbn [flat_map]. apply Forall_app. split; assumption.
  Qed.
  Lemma ascii_scalar x : forallb (fun c => (0 <=? c) && (c <? 128)) x = true -> Forall scalar x.
  Proof. intros H. apply Forall_forall. intros c Hc. rewrite forallb_forall in H. specialize (H c Hc). unfold scalar. lia. Qed.
  Lemma seg_made s : makes (json_seg num_text s) (seg_json num_text s).
  Proof.
    split.
    - apply GoodJ_place, GoodPy_dict. constructor; [split; [apply ascii_scalar; reflexivity|constructor; apply ascii_scalar; destruct s; reflexivity]|].
      constructor; [|constructor]. split; [apply ascii_scalar; reflexivity|]. apply GoodPy_list. apply Forall_forall. intros v Hv. apply in_map_iff in Hv as (p & <- & _).
      apply GoodPy_dict. constructor; [split; [apply ascii_scalar; reflexivity|constructor; apply Hnum]|].
      constructor; [split; [apply ascii_scalar; reflexivity|constructor; apply Hnum]|constructor].
    - destruct s; reflexivity.
  Qed.
  Lemma item_made : forall i, JOkItem i -> makes (JObject (json_item num_text val_text image_name descriptor i)) (item_json i).
  Proof.
    fix IH 2. intros i H. destruct H as [|x l Hl|s b Hs|s b l Hl|k w p b st f e H1 H2].
    - apply makes_object; constructor.
    - apply makes_object; [|nodup]. constructor; [split; [reflexivity|split; [key|apply makes_string; plain]]|].
      cbn [tb_box tb_blocks]. apply Forall2_app; [apply box_made|]. constructor; [|constructor]. split; [reflexivity|]. split; [key|]. cbn [snd]. apply makes_array.
      clear IH. induction Hl as [|cb l Hcb _ IHl]; constructor; [apply block_made; exact Hcb|exact IHl].
    - apply makes_object; [|nodup]. constructor; [split; [reflexivity|split; [key|apply makes_string; plain]]|].
      constructor; [|apply box_made]. split; [reflexivity|]. split; [key|]. cbn [snd]. rewrite enc_same.
      + apply makes_string. eapply Forall_impl; [|exact Hs]. cbn. tauto.
      + eapply Forall_impl; [|exact Hs]. cbn. intros c (_ & A). split; [discriminate|exact A].
    - apply makes_object; [|nodup]. constructor; [split; [reflexivity|split; [key|apply makes_string; plain]]|].
      apply Forall2_app; [apply box_made|]. constructor; [|constructor]. split; [reflexivity|]. split; [key|]. cbn [snd]. apply makes_array.
      induction Hl as [|i l Hi Hl IHl]; constructor; [apply IH; exact Hi|exact IHl].
    - change (makes (JObject (json_curve num_text val_text k p b st f))
        (JObj (box_members b ++ color_members (bs "fill") f ++ color_members (bs "stroke") st ++
          match k with
          | CRect => [(bs "type", JStr (bs "rect"))]
          | CLine | CVert | CHoriz => [(bs "type", JStr (bs "line"))]
          | CCurve => [(bs "type", JStr (bs "curve")); (bs "paths", JArr (map (seg_json num_text) p))]
          end))).
      apply makes_object.
      + unfold json_curve. apply Forall2_app; [apply box_made|]. apply Forall2_app; [apply color_made; [key|exact H2]|]. apply Forall2_app; [apply color_made; [key|exact H1]|].
        assert (T : forall t v, Forall plain_char t -> v = JStr t -> member (bs "type", JString t) (bs "type", v)).
        { intros t v Ht ->. split; [reflexivity|]. split; [key|apply makes_string; exact Ht]. }
        destruct k; (constructor; [apply T; [plain|reflexivity]|]); try constructor; [|constructor].
        split; [reflexivity|]. split; [key|]. cbn [snd]. apply makes_array. clear -Hnum. induction p as [|s p IHp]; [apply Forall2_nil|apply Forall2_cons; [apply seg_made|exact IHp]].
      + rewrite !map_app, !color_keys. destruct (c_space f), (c_space st), k; nodup.
  Qed.

  (* lists of items and pages, with a possible exception at the end *)
  Lemma told_raise l m e : Forall2 (fun p m => fst p = fst m /\ makes (snd p) (snd m)) l m -> told_list (l ++ jraises e) = (m, if e then true else false).
  Proof.
    intros H. induction H as [|[k c] [k' v] l m [E M] _ IH]; [destruct e; reflexivity|]. cbn [fst snd app] in *. subst k'. destruct M as [G T].
    rewrite told_list_cons by (destruct c; [reflexivity..|discriminate]). rewrite T, IH. reflexivity.
  Qed.
  Lemma good_raise (l : list (list Z * jcall)) e : Forall (fun p => GoodJ (snd p)) l -> Forall (fun p => GoodJ (snd p)) (l ++ jraises e).
  Proof. intros H. apply Forall_app. split; [exact H|]. destruct e; repeat constructor. Qed.
  Lemma items_made l e : Forall JOkItem l ->
    let c := JArray (map (fun i => ([], JObject (json_item num_text val_text image_name descriptor i))) l ++ jraises e) in
    GoodJ c /\ told c = (JArr (map item_json l), if e then true else false).
  Proof.
    intros H c. split.
    - apply GoodJ_arr, good_raise. clear c. induction H as [|i l Hi _ IH]; constructor; [apply (item_made i Hi)|exact IH].
    - unfold c. rewrite told_array, (told_raise _ (map (fun i => ([], item_json i)) l)).
      + rewrite map_map. reflexivity.
      + clear c. induction H as [|i l Hi _ IH]; constructor; [split; [reflexivity|apply item_made; exact Hi]|exact IH].
  Qed.
  Lemma page_made p : Forall JOkItem (fst (pg_items p)) ->
    GoodJ (json_page num_text val_text image_name descriptor p) /\ told (json_page num_text val_text image_name descriptor p) = (page_json p, if snd (pg_items p) then true else false).
  Proof.
    intros H. destruct (items_made _ (snd (pg_items p)) H) as [G T]. unfold json_page. set (c := JArray _) in *. split.
    - apply GoodJ_obj; [nodup|]. constructor; [split; [key|constructor; apply C53_integers]|]. repeat (constructor; [split; [key|constructor; apply Hnum]|]).
      constructor; [split; [key|exact G]|constructor].
    - rewrite told_object. rewrite !told_list_cons by reflexivity. rewrite T. cbn [told]. destruct (snd (pg_items p)); reflexivity.
  Qed.

  (* C79. The JSON file of a document is one JSON text, with the pages and items of the document in order; when an exception
     comes out it is still one, with everything up to it *)
  Theorem C79_json_partial ps e : Forall (fun p => Forall JOkItem (fst (pg_items p))) ps ->
    JsonText (fst (convert_to_json num_text val_text image_name descriptor (ps, e))) (pages_json (reached ps)) /\
    (snd (convert_to_json num_text val_text image_name descriptor (ps, e)) = true <-> raised ps e).
  Proof.
    intros H. set (l := map (fun p => ([], json_page num_text val_text image_name descriptor p)) ps ++ jraises e).
    assert (G : Forall (fun p => GoodJ (snd p)) l).
    { apply good_raise. clear l. induction H as [|p ps Hp _ IH]; constructor; [apply page_made; exact Hp|exact IH]. }
    assert (T : exists m, told_list l = (m, existsb (fun p => if snd (pg_items p) then true else false) ps || if e then true else false) /\ map snd m = map page_json (reached ps)).
    { unfold l. clear G l. induction H as [|p ps Hp _ (m & E & F)]; [exists []; destruct e; split; reflexivity|]. cbn [map app existsb reached].
      rewrite told_list_cons by reflexivity. rewrite (proj2 (page_made p Hp)). destruct (snd (pg_items p)) as [x|].
      - exists [([], page_json p)]. split; reflexivity.
      - rewrite E. exists (([], page_json p) :: m). split; [reflexivity|]. cbn [map snd]. rewrite F. reflexivity. }
    destruct T as (m & T & F).
    destruct (C53_roundtrip_partial (json_calls num_text val_text image_name descriptor (ps, e))) as [R J].
    { apply GoodJ_obj; [nodup|]. constructor; [split; [key|apply GoodJ_arr; exact G]|constructor]. }
    unfold convert_to_json. change (json_calls num_text val_text image_name descriptor (ps, e)) with [(bs "pages", JArray l)] in *.
    rewrite told_object, told_list_cons in R, J by reflexivity. rewrite told_array, T, F in R, J. cbn [told_list fst snd] in R, J.
    fold (JsonFile_Spec.pages_json num_text val_text image_name descriptor (reached ps)).
    assert (E : raised ps e <-> existsb (fun p => if snd (pg_items p) then true else false) ps || (if e then true else false) = true).
    { unfold raised. rewrite orb_true_iff, existsb_exists. split.
      - intros [A|(p & A & B)]; [right; destruct e; [reflexivity|contradiction]|left; exists p; split; [exact A|destruct (snd (pg_items p)); [reflexivity|contradiction]]].
      - intros [(p & A & B)|A]; [right; exists p; split; [exact A|destruct (snd (pg_items p)); discriminate]|left; destruct e; discriminate]. }
    rewrite E. destruct (existsb _ ps || _); cbn [fst snd] in R, J; (split; [exact J|rewrite R; tauto]).
  Qed.
End file.

(* ---------- cases ---------- *)
Lemma nt_number q : json_number (nt q) = true.
Proof. unfold nt. destruct (qeqb q (qz 0)); reflexivity. Qed.
Definition blue : color := mkColor (Some (mkCs (OName (bs "DeviceRGB")) (OInt 3))) [OInt 1; OReal (bs "0.5")].
Definition cb1 : charblock := mkCB [([233; 34], b0); (bs "<", b0)] b0 blue t0.
Definition page1 (e : option exn) : opage := mkPage 3 (qz 1) (qz 1)
  ([IXObj ONull b0 [IText (mkTB (Some b0) [cb1]); INone]; ICurve CCurve (OInt 1) [SMove (qz 0, qz 1); SClose] b0 blue (mkColor None []) false; IImage ONull b0], e).
Lemma page1_ok e : Forall (JOkItem nt vt (fun _ => bs "img1") desc0) (fst (pg_items (page1 e))).
Proof.
  assert (B : jcolor_ok vt blue).
  { assert (U : forall x, forallb (fun c => (0 <=? c) && (c <? 128) && negb (c =? 38) && negb (c =? 60) && negb (c =? 62) && negb (c =? 34)) x = true -> unescaped x).
    { intros x H. apply Forall_forall. intros c Hc. rewrite forallb_forall in H. specialize (H c Hc). lia. }
    split; [intros n [= <-]; apply U; reflexivity|]. repeat (constructor; [apply U; reflexivity|]). constructor. }
  cbn [page1 pg_items fst]. constructor; [|constructor; [|constructor; [|constructor]]].
  - apply jok_form. constructor; [|constructor; [apply jok_none|constructor]]. apply jok_text. constructor; [|constructor]. unfold jblock_ok. splits.
    + repeat (constructor; [plain|]). constructor.
    + exact B.
    + change (shown_entries (desc0 (cb_text cb1))) with [(bs "FontName", bs "Arial"); (bs "StemV", bs "80")].
      repeat (constructor; [split; [key|plain]|]). constructor.
    + apply nodupb_sound. vm_compute. reflexivity.
  - apply jok_curve; [exact B|exact Logic.I].
  - apply jok_image. cbn. repeat (constructor; [unfold plain_char; lia|]); constructor.
Qed.
(* a document of three pages of which the second ends with an exception: the first two are in the file *)
Example C79_case : let ps := [page1 None; page1 (Some TypeError); page1 None] in
  JsonText (fst (convert_to_json nt vt (fun _ => bs "img1") desc0 (ps, None))) (pages_json nt vt (fun _ => bs "img1") desc0 [page1 None; page1 (Some TypeError)]) /\
  snd (convert_to_json nt vt (fun _ => bs "img1") desc0 (ps, None)) = true.
Proof.
  intros ps. destruct (C79_json_partial nt vt (fun _ => bs "img1") desc0 nt_number ps None) as [A B].
  - repeat (constructor; [apply page1_ok|]). constructor.
  - split; [exact A|]. apply B. right. exists (page1 (Some TypeError)). split; [right; left; reflexivity|discriminate].
Qed.
(* ---------- what does not hold ---------- *)
Definition one (i : item) : opage := mkPage 1 (qz 1) (qz 1) ([i], None).
Definition jfile (i : item) : list Z := fst (convert_to_json nt vt (fun _ => bs "img1") desc0 ([one i], None)).
Ltac no_reading k H := do 48 (destruct k as [|k]; [vm_compute in H; discriminate H|]); vm_compute in H; discriminate H.
(* Refuted for a text object without text (BT ET in a page): its box is written as None, which is not JSON *)
Theorem C79_empty_refuted : forall v, ~ JsonText (jfile (IText (mkTB None []))) v.
Proof. intros v (k & r & H & _). no_reading k H. Qed.
(* Refuted for a backslash in the text of a page: the file is not JSON, or holds another text *)
Theorem C79_backslash_refuted : (exists t, forall v, ~ JsonText (jfile (IText (mkTB (Some b0) [mkCB [(t, b0)] b0 blue t0]))) v) /\
  exists t v, JsonText (jfile (IText (mkTB (Some b0) [mkCB [(t, b0)] b0 blue t0]))) v /\
    v <> pages_json nt vt (fun _ => bs "img1") desc0 [one (IText (mkTB (Some b0) [mkCB [(t, b0)] b0 blue t0]))].
Proof.
  split.
  - exists [92]. intros v (k & r & H & _). no_reading k H.
  - exists [92; 110]. eexists. split; [exists 60%nat; eexists; split; [vm_compute; reflexivity|reflexivity]|vm_compute; discriminate].
Qed.
(* Refuted for a colour value with a character that HTML escapes, as the name of a pattern: it is escaped here too *)
Theorem C79_escape_refuted : exists c v, JsonText (jfile (ICurve CRect (OInt 1) [] b0 c c false)) v /\
  v <> pages_json nt vt (fun _ => bs "img1") desc0 [one (ICurve CRect (OInt 1) [] b0 c c false)].
Proof. exists red. eexists. split; [exists 60%nat; eexists; split; [vm_compute; reflexivity|reflexivity]|vm_compute; discriminate]. Qed.
(* Refuted for a font descriptor with an entry named as one of the members: it is left out *)
Theorem C79_descriptor_refuted : exists descriptor i v,
  JsonText (fst (convert_to_json nt vt (fun _ => []) descriptor ([one i], None))) v /\
  v <> pages_json nt vt (fun _ => []) descriptor [one i] /\ snd (convert_to_json nt vt (fun _ => []) descriptor ([one i], None)) = false.
Proof.
  exists (fun _ => [(bs "size", bs "12")]), (IText (mkTB (Some b0) [cb1])). eexists.
  split; [exists 60%nat; eexists; split; [vm_compute; reflexivity|reflexivity]|]. split; [vm_compute; discriminate|vm_compute; reflexivity].
Qed.
