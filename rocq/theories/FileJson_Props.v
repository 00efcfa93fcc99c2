(* C110: the JSON file of a PDF file. *)
From Coq Require Import String.
From Verif Require Import Base Lex_Model Obj Stack_Model Stream_Model XRef_Model Doc_Model Num Geom_Model Page_Model Interp_Model Interp_Spec CMap_Model Font_Model Sec_Model Open_Model Fallback_Model
  Markup_Model Markup_Spec Convert_Model Convert_Spec XmlFile_Spec JsonFile_Spec JsonFile_Props Extract_Model Extract_Spec Place_Spec PlaceFile_Spec Colour_Spec Whole_Props Nest_Spec Nest_Props FileJson_Spec.
From Coq Require Import Qcanon Permutation.
Open Scope Z_scope.
Import ListNotations.

Section json.
  Context (num_text : num -> list Z) (val_text : obj -> list Z) (image_name : obj -> list Z) (descriptor : tstate -> list (list Z * list Z)).
  (* the texts of numbers, colour values, image names and descriptors *)
  Definition json_values : Prop :=
    (forall q, json_number (num_text q) = true) /\ (forall v, unescaped (val_text v)) /\
    (forall s, Forall (fun c => plain_char c /\ c <> 38 /\ c <> 60 /\ c <> 62 /\ c <> 34) (image_name s)) /\
    forall t, Forall (fun kv => Forall (fun c => plain_char c /\ c <> 34) (fst kv) /\ Forall plain_char (snd kv)) (shown_entries (descriptor t)) /\
      NoDup ([bs "size"; bs "x0"; bs "x1"; bs "y0"; bs "y1"; bs "color"; bs "text"] ++ map fst (shown_entries (descriptor t))).
  Context (HV : json_values).
  Notation JOkItem := (JOkItem num_text val_text image_name descriptor).
  Notation item_json := (item_json num_text val_text image_name descriptor).
  Notation block_members := (block_members num_text val_text descriptor).
  Lemma family_unescaped n : In n families -> unescaped (bs n).
  Proof.
    intros H. assert (U : forall x, forallb (fun c => (0 <=? c) && (c <? 128) && negb (c =? 38) && negb (c =? 60) && negb (c =? 62) && negb (c =? 34)) x = true -> unescaped x).
    { intros x Hx. apply Forall_forall. intros c Hc. rewrite forallb_forall in Hx. specialize (Hx c Hc). rewrite !andb_true_iff, !negb_true_iff, !Z.eqb_neq, Z.leb_le, Z.ltb_lt in Hx. tauto. }
    cbn [families In] in H. decompose [or] H; subst; try contradiction; apply U; reflexivity.
  Qed.
  Lemma known_jcolor c : color_ok (fun _ => True) c -> jcolor_ok val_text c.
  Proof.
    intros [H _]. unfold jcolor_ok. destruct (c_space c) as [cs|] eqn:E; [|exact Logic.I]. split.
    - intros n En. destruct (H cs eq_refl) as (f & Hf & Ef). rewrite En in Ef. injection Ef as ->. apply family_unescaped, Hf.
    - apply Forall_forall. intros v _. apply HV.
  Qed.
  Lemma jblock_nodup cb : NoDup (map fst (block_members cb)).
  Proof.
    destruct HV as (_ & _ & _ & HD). destruct (HD (cb_text cb)) as [_ N]. unfold JsonFile_Spec.block_members. cbn [map fst]. rewrite !map_app, map_map. cbn [fst].
    change (map (fun x => fst x) (shown_entries (descriptor (cb_text cb)))) with (map fst (shown_entries (descriptor (cb_text cb)))). set (ks := map fst (shown_entries _)) in *. cbn [box_members map fst app] in *.
    assert (NK : NoDup ks) by (repeat match goal with H : NoDup (_ :: _) |- _ => apply NoDup_cons_iff in H as [? ?] end; assumption).
    assert (NT : NoDup (ks ++ [bs "text"])).
    { apply (Permutation_NoDup (Permutation_cons_append ks (bs "text"))). constructor; [|exact NK].
      repeat match goal with H : NoDup (_ :: _) |- _ => apply NoDup_cons_iff in H as [? ?] end. assumption. }
    assert (D : forall k, In k [bs "size"; bs "x0"; bs "x1"; bs "y0"; bs "y1"; bs "color"] -> ~ In k (ks ++ [bs "text"])).
    { intros k Hk Hi. apply in_app_or in Hi as [Hi|[<-|[]]].
      - repeat match goal with H : NoDup (_ :: _) |- _ => apply NoDup_cons_iff in H as [? ?] end. cbn [In] in *. decompose [or] Hk; subst; tauto.
      - cbn [In] in Hk. decompose [or] Hk; try discriminate; contradiction. }
    unfold color_members. destruct (c_space (cb_color cb)) as [cs|]; cbn [map app fst]; clear N;
      repeat (constructor; [intros Hi; cbn [In] in Hi; repeat (destruct Hi as [Hi|Hi]; [discriminate Hi|]); revert Hi; apply D; cbn [In]; tauto|]); exact NT.
  Qed.
  Lemma holds_ind' (P : list item -> tree -> Prop) :
    (forall items texts forms, text_items items = texts -> Forall2 Holds (form_items items) forms -> Forall2 P (form_items items) forms -> P items (Node texts forms)) ->
    forall items t, Holds items t -> P items t.
  Proof.
    intros HP. fix IH 3. intros items t [it texts forms E H]. apply HP; [exact E|exact H|]. clear E HP. revert H. generalize (form_items it). intros l H.
    induction H as [|x y l l' Hx _ IHl]; [constructor|constructor; [apply IH, Hx|exact IHl]].
  Qed.
  Lemma says_block cb : Around (cb_box cb) (map snd (cb_chars cb)) -> SaysBlock num_text (cb_chars cb) (JObj (block_members cb)).
  Proof.
    intros H. unfold JsonFile_Spec.block_members. rewrite (app_assoc (color_members _ _ _)).
    apply (sb_block num_text (cb_chars cb) (cb_box cb)). exact H.
  Qed.
  Lemma says_tree items t : Holds items t -> Forall boxed items -> Speaks t -> SaysTree num_text (map item_json items) t.
  Proof.
    intros H. induction H as [items texts forms E _ IH] using holds_ind'. intros HB HS. inversion HS as [? ? S1 S2]; subst. constructor.
    - clear -HB S1. induction HB as [|i items B _ IHi]; [constructor|]. change (text_items (i :: items)) with ((match i with IText t => [map cb_chars (tb_blocks t)] | _ => [] end) ++ text_items items) in *.
      apply Forall_app in S1 as [S0 S1]. specialize (IHi S1). cbn [map filter]. destruct i as [|k w p b st f e|b|s b|s b l]; try exact IHi.
      + replace (has_type (bs "text-block") (item_json (ICurve k w p b st f e))) with false; [exact IHi|].
        cbn [JsonFile_Spec.item_json]. unfold color_members. destruct (c_space f), (c_space st), k; reflexivity.
      + cbn [app]. change (has_type (bs "text-block") (item_json (IText b))) with true. cbv iota. constructor; [|exact IHi]. clear IHi S1. inversion B as [? [B1 B2]| | | |]; subst.
        inversion S0 as [|? ? N _]; subst. destruct b as [bx blocks]. cbn [tb_box tb_blocks] in *. destruct bx as [bx|]; [|subst; contradiction N; reflexivity].
        cbn [JsonFile_Spec.item_json tb_box tb_blocks]. apply (so_object num_text _ bx (map cb_box blocks)).
        * clear -B1. induction blocks as [|cb l IHl]; [constructor|]. constructor; [apply (B1 cb); left; reflexivity|apply IHl; intros x Hx; apply B1; right; exact Hx].
        * exact B2.
        * clear -B1. induction blocks as [|cb l IHl]; [constructor|]. constructor; [apply says_block, (B1 cb); left; reflexivity|apply IHl; intros x Hx; apply B1; right; exact Hx].
    - clear -HB S2 IH. revert forms IH S2. induction HB as [|i items B _ IHi]; intros forms IH S2; [inversion IH; constructor|].
      change (form_items (i :: items)) with ((match i with IXObj _ _ k => [k] | _ => [] end) ++ form_items items) in *. cbn [map filter]. destruct i as [|k w p b st f e|b|s b|s b l]; try (apply IHi; assumption).
      + replace (has_type (bs "xobject") (item_json (ICurve k w p b st f e))) with false; [apply IHi; assumption|].
        cbn [JsonFile_Spec.item_json]. unfold color_members. destruct (c_space f), (c_space st), k; reflexivity.
      + change (has_type (bs "xobject") (item_json (IXObj s b l))) with true. cbv iota. cbn [flat_map]. change (children_of (item_json (IXObj s b l))) with [map item_json l]. cbn [app] in *.
        inversion IH as [|? t ? ts H1 H2]; subst. inversion S2; subst. constructor; [|apply IHi; assumption]. apply H1; [|assumption]. inversion B; subst; assumption.
  Qed.
  Lemma holds_ok items t : Holds items t -> forall cs, Reads items cs -> Forall (Forall plain_char) cs -> Forall boxed items -> Speaks t -> Forall (coloured (fun _ => True)) items -> Forall JOkItem items.
  Proof.
    intros H. induction H as [items texts forms E _ IH] using holds_ind'. intros cs HR. revert texts forms E IH. induction HR as [|b r cs HR IHr|s b k r c1 c2 H1 _ H2 IH2|r cs HR IHr|k w p b st f e r cs HR IHr|s b r cs HR IHr];
      intros texts forms E IH HC HB HS HK; [constructor|..]; inversion HB as [|? ? B1 B2]; inversion HK as [|? ? K1 K2]; subst; try (apply Forall_app in HC as [HC1 HC2]); inversion HS as [? ? S1 S2]; subst.
    - change (text_items (IText b :: r)) with (map cb_chars (tb_blocks b) :: text_items r) in *. inversion S1 as [|? ? N S1']; subst. constructor.
      + clear IHr IH. inversion B1 as [? [X1 X2]| | | |]; subst. inversion K1 as [? KB| | | |]; subst. destruct b as [[bx|] blocks]; cbn [tb_box tb_blocks] in *; [|subst; contradiction N; reflexivity].
        apply jok_text. clear -HC1 KB HV. induction blocks as [|cb l IHl]; [constructor|]. inversion KB; subst. cbn [flat_map] in HC1. apply Forall_app in HC1 as [Y1 Y2]. constructor; [|apply IHl; assumption].
        unfold jblock_ok. splits.
        * clear -Y1. induction (cb_chars cb) as [|c q IHc]; [constructor|]. cbn [map] in Y1. inversion Y1; subst. constructor; [assumption|apply IHc; assumption].
        * apply known_jcolor. assumption.
        * apply HV.
        * apply jblock_nodup.
      + apply (IHr (text_items r) forms); try assumption; [reflexivity|constructor; assumption].
    - change (form_items (IXObj s b k :: r)) with ([k] ++ form_items r) in IH. cbn [app] in IH. inversion IH as [|? t ? ts F1 F2]; subst. inversion S2; subst. constructor.
      + apply jok_form. apply (F1 c1); try assumption; [inversion B1; subst; assumption|inversion K1; subst; assumption].
      + apply (IH2 (text_items r) ts); try assumption; [reflexivity|constructor; assumption].
    - constructor; [apply jok_none|]. apply (IHr (text_items r) forms); try assumption; reflexivity.
    - constructor; [inversion K1; subst; apply jok_curve; apply known_jcolor; assumption|]. apply (IHr (text_items r) forms); try assumption; reflexivity.
    - constructor; [apply jok_image, HV|]. apply (IHr (text_items r) forms); try assumption; reflexivity.
  Qed.
  (* the JSON file of pages that hold what they should *)
  Lemma holds_json ps spec : Forall (fun p => Forall (coloured (fun _ => True)) (fst (pg_items p))) ps -> Forall (fun p => Forall boxed (fst (pg_items p))) ps ->
    map pg_num ps = map Z.of_nat (seq 0 (length spec)) -> Forall2 page_holds ps spec -> Forall (fun q => Forall (Forall plain_char) (fst q) /\ Speaks (snd (snd q))) spec ->
    exists out v, convert_to_json num_text val_text image_name descriptor (ps, None) = (out, false) /\ JsonText out v /\ SaysJFile num_text (map snd spec) v.
  Proof.
    intros HK HB EN EI HC.
    destruct (C79_json_partial num_text val_text image_name descriptor (proj1 HV) ps None) as [J1 J2].
    - clear -EI HC HK HB HV. induction EI as [|p q ps spec (_ & items & E & R & T) _ IH]; [constructor|]. inversion HC as [|? ? [P1 P2] HC2]; inversion HK; inversion HB; subst. constructor; [|apply IH; assumption].
      rewrite E in *. cbn [fst] in *. eapply holds_ok; eassumption.
    - destruct (convert_to_json num_text val_text image_name descriptor (ps, None)) as [out b] eqn:EO. cbn [fst snd] in *. exists out, (pages_json num_text val_text image_name descriptor (reached ps)). splits; [|exact J1|].
      + f_equal. destruct b; [|reflexivity]. exfalso. destruct (proj1 J2 eq_refl) as [N|(p & Hp & N)]; [apply N; reflexivity|]. clear -EI Hp N.
        induction EI as [|p' q ps spec (_ & items & E & _) _ IH]; [contradiction|]. destruct Hp as [->|Hp]; [rewrite E in N; apply N; reflexivity|exact (IH Hp)].
      + constructor. clear -EN EI HC HB. revert EN EI HC HB. generalize 0%nat. revert spec. induction ps as [|p ps IH]; intros sp i EN EI HC HB; inversion EI as [|? q ? sp' (E & items & EI1 & R & T) EI2]; subst; [constructor|].
        cbn [map length seq] in EN. injection EN as N1 N2. inversion HC as [|? ? [P1 P2] HC2]; inversion HB as [|? ? B1 B2]; subst.
        cbn [reached]. rewrite EI1. cbn [snd map]. constructor; [|apply IH; assumption].
        unfold page_json, n_json. rewrite N1, EI1. cbn [fst]. destruct q as [txt [[w h] t]]. cbn [fst snd] in *. injection E as -> ->. constructor. rewrite EI1 in B1. eapply says_tree; eassumption.
  Qed.
End json.

Section main.
  Context (zlib : list Z -> option (list Z)) (ccitt : list Z -> obj -> res (list Z)).
  Context (md5 sha256 : list Z -> list Z) (aes : list Z -> list Z -> list Z -> res (list Z)).
  Context (glyphs : list Z -> option (list Z)) (bases : list umap) (metrics : list Z -> option (dict * list (list Z * num)))
          (load_cmap : list Z -> option (bool * list (Z * trie))) (load_umap : list Z -> bool -> option umap).
  Notation pages_of := (pages_of zlib ccitt md5 sha256 aes glyphs bases metrics load_cmap load_umap).
  (* C110.  Of a file whose chosen pages show the texts and trees spec, no text object without a string and no control character or backslash
     in the texts, the converter makes one JSON text: the pages with their numbers and sizes, in each the text objects in order, with
     exactly the strings of the page, each in the least box around its characters, and the forms in order, nested as the file nests them.
     Partial: colour values, image names and the entries of font descriptors must be plain, and the matrices of forms the identity. *)
  Theorem C110_json_partial num_text val_text image_name descriptor e caching check password pagenos maxpages lenient getobj spec :
    json_values num_text val_text image_name descriptor -> (0 < bufsiz e)%nat -> (forall o, (forall i, o <> ORef i) -> resolve e o = o) ->
    FileNested zlib ccitt glyphs bases metrics load_cmap load_umap getobj (fun F => F = unit_matrix) (stored_data zlib ccitt) (file e) pagenos maxpages lenient spec ->
    Forall (fun q => Forall (Forall plain_char) (fst q) /\ Speaks (snd (snd q))) spec ->
    exists n1, forall F, (n1 <= F)%nat -> exists n2, forall f, (n2 <= f)%nat -> exists out v,
      convert_to_json num_text val_text image_name descriptor (pages_of e caching check password pagenos maxpages lenient F f) = (out, false) /\
      JsonText out v /\ SaysJFile num_text (map snd spec) v.
  Proof.
    intros HV Hb Hres HF HC. destruct (C107_file_partial zlib ccitt md5 sha256 aes glyphs bases metrics load_cmap load_umap e caching check password pagenos maxpages lenient getobj spec Hb Hres HF) as (n1 & H1).
    exists n1. intros F HF1. destruct (H1 F HF1) as (n2 & H2). exists n2. intros f Hf. destruct (H2 f Hf) as (ps & EP & EN & EI). clear H1 H2.
    pose proof (C101_file zlib ccitt md5 sha256 aes glyphs bases metrics load_cmap load_umap e caching check password pagenos maxpages lenient F f) as HK.
    pose proof (C95_file zlib ccitt md5 sha256 aes glyphs bases metrics load_cmap load_umap e caching check password pagenos maxpages lenient F f) as HB. rewrite EP in *. cbn [fst] in HK, HB.
    apply (holds_json _ _ _ _ HV); assumption.
  Qed.
End main.
