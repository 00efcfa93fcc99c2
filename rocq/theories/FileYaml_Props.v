(* C111: the YAML file of a PDF file. *)
From Coq Require Import String.
From Verif Require Import Base Lex_Model Obj Stack_Model Stream_Model XRef_Model Doc_Model Num Geom_Model Page_Model Interp_Model Interp_Spec CMap_Model Font_Model Sec_Model Open_Model Fallback_Model
  Markup_Model Markup_Spec Convert_Model Convert_Spec XmlFile_Spec JsonFile_Spec Yaml_Spec Yaml_Model YamlFile_Spec YamlFile_Props Extract_Model Extract_Spec Place_Spec PlaceFile_Spec Colour_Spec Whole_Props Nest_Spec
  Nest_Props FileJson_Spec FileJson_Props FileYaml_Spec.
From Coq Require Import Qcanon Permutation.
Open Scope Z_scope.
Import ListNotations.

Section yaml.
  Context (num_text : num -> list Z) (val_text : obj -> list Z) (image_name : obj -> list Z) (descriptor : tstate -> list (list Z * list Z)).
  (* the texts of numbers, colour values, image names and descriptors *)
  Definition yaml_values : Prop :=
    (forall q, number_text (num_text q) = true) /\ (forall v, simple (val_text v)) /\
    (forall s, plainb (image_name s) = true /\ Forall (fun c => c <> 38 /\ c <> 60 /\ c <> 62 /\ c <> 34) (image_name s)) /\
    forall t, Forall (fun kv => plainb (fst kv) = true /\ plainb (snd kv) = true) (shown_entries (descriptor t)) /\
      NoDup ([bs "size"; bs "x0"; bs "x1"; bs "y0"; bs "y1"; bs "color"; bs "text"] ++ map fst (shown_entries (descriptor t))).
  Context (HV : yaml_values).
  Notation YOkItem := (YOkItem val_text image_name descriptor).
  Notation item_yaml := (item_yaml num_text val_text image_name descriptor).
  Notation block_entries := (block_entries num_text val_text descriptor).
  Lemma family_plain n : In n families -> plainb (bs n) = true.
  Proof. intros H. cbn [families In] in H. decompose [or] H; subst; try contradiction; reflexivity. Qed.
  Lemma known_ycolor c : color_ok (fun _ => True) c -> ycolor_ok val_text c.
  Proof.
    intros [H _]. unfold ycolor_ok. destruct (c_space c) as [cs|] eqn:E; [|exact Logic.I]. split.
    - destruct (H cs eq_refl) as (f & Hf & Ef). exists (bs f). splits; [exact Ef|apply family_unescaped, Hf|apply family_plain, Hf].
    - apply Forall_forall. intros v _. apply HV.
  Qed.
  Lemma yblock_nodup cb : NoDup (map fst (block_entries cb)).
  Proof.
    destruct HV as (_ & _ & _ & HD). destruct (HD (cb_text cb)) as [_ N]. unfold YamlFile_Spec.block_entries. cbn [map fst]. rewrite !map_app, map_map. cbn [fst].
    change (map (fun x => fst x) (shown_entries (descriptor (cb_text cb)))) with (map fst (shown_entries (descriptor (cb_text cb)))). set (ks := map fst (shown_entries _)) in *. cbn [YamlFile_Spec.box_entries map fst app] in *.
    assert (NK : NoDup ks) by (repeat match goal with H : NoDup (_ :: _) |- _ => apply NoDup_cons_iff in H as [? ?] end; assumption).
    assert (NT : NoDup (ks ++ [bs "text"])).
    { apply (Permutation_NoDup (Permutation_cons_append ks (bs "text"))). constructor; [|exact NK].
      repeat match goal with H : NoDup (_ :: _) |- _ => apply NoDup_cons_iff in H as [? ?] end. assumption. }
    assert (D : forall k, In k [bs "size"; bs "x0"; bs "x1"; bs "y0"; bs "y1"; bs "color"] -> ~ In k (ks ++ [bs "text"])).
    { intros k Hk Hi. apply in_app_or in Hi as [Hi|[<-|[]]].
      - repeat match goal with H : NoDup (_ :: _) |- _ => apply NoDup_cons_iff in H as [? ?] end. cbn [In] in *. decompose [or] Hk; subst; tauto.
      - cbn [In] in Hk. decompose [or] Hk; try discriminate; contradiction. }
    unfold YamlFile_Spec.color_entries. destruct (c_space (cb_color cb)) as [cs|]; cbn [map app fst]; clear N;
      repeat (constructor; [intros Hi; cbn [In] in Hi; repeat (destruct Hi as [Hi|Hi]; [discriminate Hi|]); revert Hi; apply D; cbn [In]; tauto|]); exact NT.
  Qed.
  Lemma says_yblock cb : Around (cb_box cb) (map snd (cb_chars cb)) -> SaysYBlock num_text (cb_chars cb) (YMap (block_entries cb)).
  Proof.
    intros H. unfold YamlFile_Spec.block_entries. rewrite (app_assoc (YamlFile_Spec.color_entries _ _ _)).
    apply (syb_block num_text (cb_chars cb) (cb_box cb)). exact H.
  Qed.
  Lemma seq_list l : seq_of (y_list l) = [l].
  Proof. destruct l; reflexivity. Qed.
  Lemma says_ytree items t : Holds items t -> Forall boxed items -> SpeaksPlain t -> SaysYTree num_text (map item_yaml items) t.
  Proof.
    intros H. induction H as [items texts forms E _ IH] using holds_ind'. intros HB HS. inversion HS as [? ? S1 S2]; subst. constructor.
    - clear -HB S1. induction HB as [|i items B _ IHi]; [constructor|]. change (text_items (i :: items)) with ((match i with IText t => [map cb_chars (tb_blocks t)] | _ => [] end) ++ text_items items) in *.
      apply Forall_app in S1 as [S0 S1]. specialize (IHi S1). cbn [map filter]. destruct i as [|k w p b st f e|b|s b|s b l]; try exact IHi.
      + replace (has_ytype (bs "text-block") (item_yaml (ICurve k w p b st f e))) with false; [exact IHi|].
        cbn [YamlFile_Spec.item_yaml]. unfold YamlFile_Spec.color_entries. destruct (c_space f), (c_space st), k; reflexivity.
      + cbn [app]. assert (HT : has_ytype (bs "text-block") (item_yaml (IText b)) = true) by (cbn [YamlFile_Spec.item_yaml]; destruct (tb_box b); reflexivity).
        rewrite HT. clear HT. constructor; [|exact IHi]. clear IHi S1. inversion B as [? [B1 B2]| | | |]; subst.
        inversion S0 as [|? ? [N _] _]; subst. destruct b as [bx blocks]. cbn [tb_box tb_blocks] in *. destruct bx as [bx|]; [|subst; contradiction N; reflexivity].
        cbn [YamlFile_Spec.item_yaml tb_box tb_blocks]. replace (y_list (map (fun cb => YMap (block_entries cb)) blocks)) with (YSeq (map (fun cb => YMap (block_entries cb)) blocks)) by (destruct blocks; [contradiction N; reflexivity|reflexivity]).
        apply (syo_object num_text _ bx (map cb_box blocks)).
        * clear -B1. induction blocks as [|cb l IHl]; [constructor|]. constructor; [apply (B1 cb); left; reflexivity|apply IHl; intros x Hx; apply B1; right; exact Hx].
        * exact B2.
        * clear -B1. induction blocks as [|cb l IHl]; [constructor|]. constructor; [apply says_yblock, (B1 cb); left; reflexivity|apply IHl; intros x Hx; apply B1; right; exact Hx].
    - clear -HB S2 IH. revert forms IH S2. induction HB as [|i items B _ IHi]; intros forms IH S2; [inversion IH; constructor|].
      change (form_items (i :: items)) with ((match i with IXObj _ _ k => [k] | _ => [] end) ++ form_items items) in *. cbn [map filter]. destruct i as [|k w p b st f e|b|s b|s b l]; try (apply IHi; assumption).
      + replace (has_ytype (bs "xobject") (item_yaml (ICurve k w p b st f e))) with false; [apply IHi; assumption|].
        cbn [YamlFile_Spec.item_yaml]. unfold YamlFile_Spec.color_entries. destruct (c_space f), (c_space st), k; reflexivity.
      + change (has_ytype (bs "xobject") (item_yaml (IXObj s b l))) with true. cbv iota. cbn [flat_map].
        change (ychildren_of (item_yaml (IXObj s b l))) with (seq_of (y_list (map item_yaml l))). rewrite seq_list. cbn [app] in *.
        inversion IH as [|? t ? ts H1 H2]; subst. inversion S2; subst. constructor; [|apply IHi; assumption]. apply H1; [|assumption]. inversion B; subst; assumption.
  Qed.
  Lemma holds_yok items t : Holds items t -> Forall boxed items -> SpeaksPlain t -> Forall (coloured (fun _ => True)) items -> Forall (YamlFile_Spec.YOkItem num_text val_text image_name descriptor) items.
  Proof.
    intros H. induction H as [items texts forms E _ IH] using holds_ind'. intros HB HS HK. inversion HS as [? ? S1 S2]; subst. clear HS.
    revert forms IH S1 S2 HK. induction HB as [|i items B _ IHi]; intros forms IH S1 S2 HK; [constructor|].
    change (text_items (i :: items)) with ((match i with IText t => [map cb_chars (tb_blocks t)] | _ => [] end) ++ text_items items) in *.
    change (form_items (i :: items)) with ((match i with IXObj _ _ k => [k] | _ => [] end) ++ form_items items) in *.
    apply Forall_app in S1 as [S0 S1]. inversion HK as [|? ? K1 K2]; subst. destruct i as [|k w p b st f e|b|s b|s b l]; cbn [app] in *.
    - constructor; [apply yok_none|apply (IHi forms); assumption].
    - constructor; [inversion K1; subst; apply yok_curve; apply known_ycolor; assumption|apply (IHi forms); assumption].
    - constructor; [|apply (IHi forms); assumption]. inversion K1 as [? KB| | | |]; subst. inversion S0 as [|? ? [_ P] _]; subst. destruct b as [bx blocks]. cbn [tb_blocks] in *.
      apply yok_text. clear -P KB HV. induction blocks as [|cb l IHl]; [constructor|]. inversion KB; inversion P; subst. constructor; [|apply IHl; assumption].
      unfold yblock_ok. splits; [assumption|apply known_ycolor; assumption|apply HV|apply yblock_nodup].
    - constructor; [apply yok_image; apply HV|apply (IHi forms); assumption].
    - inversion IH as [|? t ? ts F1 F2]; subst. inversion S2; subst. constructor; [apply yok_form; apply F1; [inversion B; subst; assumption|assumption|inversion K1; subst; assumption]|apply (IHi ts); assumption].
  Qed.
  (* the YAML file of pages that hold what they should *)
  Lemma holds_yaml odd_repr ps spec : Forall (fun p => Forall (coloured (fun _ => True)) (fst (pg_items p))) ps -> Forall (fun p => Forall boxed (fst (pg_items p))) ps ->
    map pg_num ps = map Z.of_nat (seq 0 (length spec)) -> Forall2 page_holds ps spec -> Forall (fun q => SpeaksPlain (snd (snd q))) spec ->
    exists out v, convert_to_yaml num_text val_text image_name descriptor odd_repr (ps, None) = (out, false) /\ YamlText out v /\ SaysYFile num_text (map snd spec) v.
  Proof.
    intros HK HB EN EI HC.
    destruct (C90_yaml_partial num_text val_text image_name descriptor odd_repr (proj1 HV) ps None) as [J1 J2].
    - clear -EI HC HK HB HV. induction EI as [|p q ps spec (_ & items & E & R & T) _ IH]; [constructor|]. inversion HC as [|? ? P2 HC2]; inversion HK; inversion HB; subst. constructor; [|apply IH; assumption].
      rewrite E in *. cbn [fst] in *. eapply holds_yok; eassumption.
    - destruct (convert_to_yaml num_text val_text image_name descriptor odd_repr (ps, None)) as [out b] eqn:EO. cbn [fst snd] in *. exists out, (pages_yaml num_text val_text image_name descriptor (reached ps)). splits; [|exact J1|].
      + f_equal. destruct b; [|reflexivity]. exfalso. destruct (proj1 J2 eq_refl) as [N|(p & Hp & N)]; [apply N; reflexivity|]. clear -EI Hp N.
        induction EI as [|p' q ps spec (_ & items & E & _) _ IH]; [contradiction|]. destruct Hp as [->|Hp]; [rewrite E in N; apply N; reflexivity|exact (IH Hp)].
      + unfold pages_yaml. apply (syf_file _ _ _ _ (seq_list _)). clear -EN EI HC HB. revert EN EI HC HB. generalize 0%nat. revert spec. induction ps as [|p ps IH]; intros sp i EN EI HC HB; inversion EI as [|? q ? sp' (E & items & EI1 & R & T) EI2]; subst; [constructor|].
        cbn [map length seq] in EN. injection EN as N1 N2. inversion HC as [|? ? P2 HC2]; inversion HB as [|? ? B1 B2]; subst.
        cbn [reached]. rewrite EI1. cbn [snd map]. constructor; [|apply IH; assumption].
        unfold page_yaml, y_num. rewrite N1, EI1. cbn [fst]. destruct q as [txt [[w h] t]]. cbn [fst snd] in *. injection E as -> ->. apply (syp_page _ _ _ _ _ _ _ (seq_list _)). rewrite EI1 in B1. eapply says_ytree; eassumption.
  Qed.
End yaml.

Section main.
  Context (zlib : list Z -> option (list Z)) (ccitt : list Z -> obj -> res (list Z)).
  Context (md5 sha256 : list Z -> list Z) (aes : list Z -> list Z -> list Z -> res (list Z)).
  Context (glyphs : list Z -> option (list Z)) (bases : list umap) (metrics : list Z -> option (dict * list (list Z * num)))
          (load_cmap : list Z -> option (bool * list (Z * trie))) (load_umap : list Z -> bool -> option umap).
  Notation pages_of := (pages_of zlib ccitt md5 sha256 aes glyphs bases metrics load_cmap load_umap).
  (* C111.  Of a file whose chosen pages show the texts and trees spec, each string a plain scalar on one line and no text object without a
     string, the converter makes one YAML document: the pages with their numbers and sizes, in each the text objects in order, with
     exactly the strings of the page, each in the least box around its characters, and the forms in order, nested as the file nests them.
     Partial: colour values, image names and the entries of font descriptors must be plain, and the matrices of forms the identity. *)
  Theorem C111_yaml_partial num_text val_text image_name descriptor odd_repr e caching check password pagenos maxpages lenient getobj spec :
    yaml_values num_text val_text image_name descriptor -> (0 < bufsiz e)%nat -> (forall o, (forall i, o <> ORef i) -> resolve e o = o) ->
    FileNested zlib ccitt glyphs bases metrics load_cmap load_umap getobj (fun F => F = unit_matrix) (stored_data zlib ccitt) (file e) pagenos maxpages lenient spec ->
    Forall (fun q => SpeaksPlain (snd (snd q))) spec ->
    exists n1, forall F, (n1 <= F)%nat -> exists n2, forall f, (n2 <= f)%nat -> exists out v,
      convert_to_yaml num_text val_text image_name descriptor odd_repr (pages_of e caching check password pagenos maxpages lenient F f) = (out, false) /\
      YamlText out v /\ SaysYFile num_text (map snd spec) v.
  Proof.
    intros HV Hb Hres HF HC. destruct (C107_file_partial zlib ccitt md5 sha256 aes glyphs bases metrics load_cmap load_umap e caching check password pagenos maxpages lenient getobj spec Hb Hres HF) as (n1 & H1).
    exists n1. intros F HF1. destruct (H1 F HF1) as (n2 & H2). exists n2. intros f Hf. destruct (H2 f Hf) as (ps & EP & EN & EI). clear H1 H2.
    pose proof (C101_file zlib ccitt md5 sha256 aes glyphs bases metrics load_cmap load_umap e caching check password pagenos maxpages lenient F f) as HK.
    pose proof (C95_file zlib ccitt md5 sha256 aes glyphs bases metrics load_cmap load_umap e caching check password pagenos maxpages lenient F f) as HB. rewrite EP in *. cbn [fst] in HK, HB.
    apply (holds_yaml _ _ _ _ HV); assumption.
  Qed.
End main.
