(* C90: the file convert_to_yaml writes. *)
From Coq Require Import String.
From Verif Require Import Base Obj Num Geom_Model Page_Model Interp_Model.
From Verif Require Import Markup_Model Markup_Spec Markup_Proofs JsonWriter_Proofs Markup_Props Convert_Model XmlFile_Spec XmlFile_Props JsonFile_Spec JsonFile_Props
  Yaml_Model Yaml_Spec Yaml_Proofs YamlFile_Spec.
From Coq Require Import Qcanon ZifyBool ZifyNat Lia.
Open Scope Z_scope.
Import ListNotations.

(* ---------- values in flow collections ---------- *)
Definition Delim (rest : list Z) : Prop := match rest with c :: _ => c = 44 \/ c = 93 \/ c = 125 | [] => False end.
Definition Flow (t : list Z) (v : yaml) : Prop := exists n, forall k rest, (n <= k)%nat -> Delim rest -> flow k (t ++ rest) = Some (v, rest).
Lemma flow_ltrim k x : flow k (32 :: x) = flow k x.
Proof. destruct k; reflexivity. Qed.
Lemma flow_quote k x r : flow (S k) (39 :: x ++ 39 :: r) = match quoted (x ++ 39 :: r) with Some (s, t) => Some (YStr s, t) | None => None end.
Proof. reflexivity. Qed.
Lemma quoted_lemma x rest : Forall (fun c => c <> 39) x -> Delim rest -> quoted (x ++ 39 :: rest) = Some (x, rest).
Proof.
  intros H Hd. induction H as [|c x Hc _ IH]; cbn [app quoted].
  - cbn [Z.eqb Pos.eqb]. destruct rest as [|d r]; [destruct Hd|]. cbn in Hd. destruct (Z.eqb_spec d 39); [lia|reflexivity].
  - destruct (Z.eqb_spec c 39); [contradiction|]. now rewrite IH.
Qed.
Lemma flow_quoted x : Forall (fun c => c <> 39) x -> Flow (bs "'" ++ x ++ bs "'") (YStr x).
Proof.
  intros H. exists 1%nat. intros [|k] rest Hk Hd; [lia|]. change (bs "'") with [39]. rewrite <- !app_assoc. cbn [app]. rewrite flow_quote, quoted_lemma by assumption. reflexivity.
Qed.
Lemma flow_other k c r : c <> 39 -> c <> 91 -> c <> 123 -> c <> 32 ->
  flow (S k) (c :: r) = let (s, t) := flow_span (c :: r) in if plainb (rtrim s) then Some (YStr (rtrim s), t) else None.
Proof.
  intros H1 H2 H3 H4. cbn [flow].
  unfold after. rewrite (ltrim_clean c r H4). destruct (Z.eqb_spec c 39); [contradiction|]. destruct (Z.eqb_spec c 91); [contradiction|]. destruct (Z.eqb_spec c 123); [contradiction|]. reflexivity.
Qed.
Lemma number_chars x : number_text x = true -> forallb (fun c => is_digit c || existsb (Z.eqb c) (bs "+-.e")) x = true.
Proof. destruct x as [|c r]; [discriminate|]. unfold number_text. intros H. cbn [forallb]. cbn in *. lia. Qed.
Lemma num_key_split x : forallb (fun c => is_digit c || existsb (Z.eqb c) (bs "+-.e")) x = true -> key_split x = None /\ space_hash x = false /\ forallb printable x = true.
Proof.
  induction x as [|c r IH]; intros H; [splits; reflexivity|]. cbn [forallb] in H. apply andb_prop in H. destruct H as (H1 & H2). destruct (IH H2) as (A & B & C).
  cbn [key_split space_hash forallb]. rewrite A, B, C. unfold is_digit, printable in *. cbn in H1.
  assert (c <> 58 /\ c <> 32) by lia. destruct (Z.eqb_spec c 58); [lia|]. destruct (Z.eqb_spec c 32); [lia|]. cbn [andb orb]. splits; [reflexivity|reflexivity|lia].
Qed.
Lemma digit_not_indicator c : is_digit c = true -> indicator c = false.
Proof.
  intros H. destruct (indicator c) eqn:E; [|reflexivity]. unfold indicator in E. apply existsb_exists in E. destruct E as (d & Hd & E). apply Z.eqb_eq in E. subst d.
  cbn in Hd. repeat (destruct Hd as [<-|Hd]; [discriminate H|]). destruct Hd.
Qed.
Lemma number_plain x : number_text x = true -> plainb x = true.
Proof.
  intros H. pose proof (number_chars x H) as HC. destruct (num_key_split x HC) as (A & B & C). unfold plainb. rewrite A, B, C. cbn [negb]. rewrite !andb_true_r.
  destruct x as [|c r]; [discriminate|].
  assert (HL : hd 0 (rev (c :: r)) <> 32).
  { destruct (rev (c :: r)) as [|e y] eqn:E; [discriminate|]. cbn [hd]. assert (HI : In e (c :: r)) by (rewrite in_rev, E; now left). rewrite forallb_forall in HC. apply HC in HI. unfold is_digit in HI. cbn in HI. lia. }
  unfold number_text in H. apply andb_prop in H. destruct H as (H1 & _). clear HC A B C.
  apply andb_true_intro. split; [|destruct (Z.eqb_spec (hd 0 (rev (c :: r))) 32); [contradiction|reflexivity]].
  destruct (Z.eqb_spec c 45) as [->|Hc].
  - destruct r as [|d r]; [discriminate|]. cbn. destruct (Z.eqb_spec d 32) as [->|]; [discriminate|reflexivity].
  - cbn [orb andb] in H1. rewrite orb_false_r in H1. rewrite (digit_not_indicator c H1). cbn [negb orb andb]. destruct (Z.eqb_spec c 32) as [->|]; [discriminate|reflexivity].
Qed.
Lemma rtrim_plain x : plainb x = true -> rtrim x = x.
Proof. intros H. apply rtrim_ends. apply (plain_parts _ H). Qed.
Lemma flow_number x : number_text x = true -> Flow x (YStr x).
Proof.
  intros H. exists 1%nat. intros [|k] rest Hk Hd; [lia|]. pose proof (number_chars x H) as HC.
  assert (ES : flow_span (x ++ rest) = (x, rest)).
  { clear H. induction x as [|c r IH]; cbn [app].
    - destruct rest as [|d r]; [destruct Hd|]. cbn [flow_span]. replace (flow_mark d) with true by (destruct Hd as [->|[->| ->]]; reflexivity). reflexivity.
    - cbn [forallb] in HC. apply andb_prop in HC. destruct HC as (H1 & H2). cbn [flow_span]. unfold is_digit in H1. unfold flow_mark. cbn in H1.
      replace (existsb (Z.eqb c) (bs ",[]{}") || _) with false; [now rewrite IH|]. cbn. destruct (Z.eqb_spec c 58); [lia|]. lia. }
  destruct x as [|c r]; [discriminate|]. pose proof (number_plain _ H) as Hp.
  assert (Hc : c <> 39 /\ c <> 91 /\ c <> 123 /\ c <> 32) by (cbn [forallb] in HC; apply andb_prop in HC; destruct HC as (H1 & _); unfold is_digit in H1; cbn in H1; lia).
  cbn [app] in ES |- *. rewrite flow_other by tauto. rewrite ES. rewrite rtrim_plain by exact Hp. now rewrite Hp.
Qed.
(* a list of them *)
Definition solid (t : list Z) : Prop := exists d r, t = d :: r /\ d <> 32 /\ d <> 93.
Lemma flow_items_lemma ts vs : Forall2 (fun t v => solid t /\ Flow t v) ts vs -> ts <> [] ->
  exists n, forall k rest, (n <= k)%nat -> flow_items k (join (bs ", ") ts ++ 93 :: rest) = Some (vs, rest).
Proof.
  induction 1 as [|t v ts vs (Hs & nt & Ht) HF IH]; intros Hne; [contradiction|]. destruct ts as [|t2 ts].
  - inversion HF; subst. exists (S nt). intros [|k] rest Hk; [lia|]. cbn [join]. cbn [flow_items]. rewrite Ht by (try lia; right; now left). reflexivity.
  - destruct IH as (n & IH); [discriminate|]. exists (S (S (nt + n))). intros [|k] rest Hk; [lia|].
    replace (join (bs ", ") (t :: t2 :: ts)) with (t ++ bs ", " ++ join (bs ", ") (t2 :: ts)) by reflexivity. change (bs ", ") with [44; 32] at 1. rewrite <- !app_assoc. cbn [app flow_items].
    rewrite Ht by (try lia; now left). change (after 44 (44 :: 32 :: join (bs ", ") (t2 :: ts) ++ 93 :: rest)) with (Some (32 :: join (bs ", ") (t2 :: ts) ++ 93 :: rest)). cbv iota.
    replace (flow_items k (32 :: join (bs ", ") (t2 :: ts) ++ 93 :: rest)) with (flow_items k (join (bs ", ") (t2 :: ts) ++ 93 :: rest)); [now rewrite IH by lia|].
    destruct k as [|k]; [lia|]. cbn [flow_items]. now rewrite flow_ltrim.
Qed.
Lemma flow_list ts vs : Forall2 (fun t v => solid t /\ Flow t v) ts vs -> exists n, forall k, (n <= k)%nat -> flow k (repr_list ts) = Some (YSeq vs, []).
Proof.
  intros H. unfold repr_list. change (bs "[") with [91]. change (bs "]") with [93]. destruct ts as [|t ts].
  - inversion H; subst. exists 1%nat. intros [|k] Hk; [lia|]. reflexivity.
  - destruct (flow_items_lemma _ _ H) as (n & Hn); [discriminate|]. exists (S n). intros [|k] Hk; [lia|]. cbn [app flow].
    assert (E : exists d r, join (bs ", ") (t :: ts) ++ [93] = d :: r /\ d <> 32 /\ d <> 93).
    { inversion H as [|? v0 ? ? (Hs & _) _]; subst. destruct Hs as (d & r & -> & D). destruct ts; cbn [join app]; eauto. }
    specialize (Hn k [] ltac:(lia)). destruct E as (d & r & E & D1 & D2). rewrite E in *. change (after 39 (91 :: d :: r)) with (@None (list Z)). change (after 91 (91 :: d :: r)) with (Some (d :: r)).
    change (after 123 (91 :: d :: r)) with (@None (list Z)). cbv iota. rewrite Hn. unfold after. rewrite ltrim_clean by exact D1. destruct (Z.eqb_spec d 93); [contradiction|reflexivity].
Qed.
Lemma ends_bracket x : Ends (x ++ bs "]").
Proof. exists x, 93. split; [reflexivity|lia]. Qed.
Lemma value_list ts vs : Forall2 (fun t v => solid t /\ Flow t v) ts vs -> Forall unbroken ts -> Value (repr_list ts) (YSeq vs).
Proof.
  intros H HU. destruct (flow_list _ _ H) as (n & Hn). unfold Value. splits.
  - exists n. intros k Hk. unfold inline. change (opens (repr_list ts)) with true. cbv iota. rewrite Hn by exact Hk. reflexivity.
  - unfold repr_list. apply unbroken_app; [now apply unbroken_b|]. apply unbroken_app; [|now apply unbroken_b].
    clear H Hn. induction HU as [|t ts Ht HU IH]; [constructor|]. destruct ts as [|t2 ts]; [exact Ht|].
    replace (join (bs ", ") (t :: t2 :: ts)) with (t ++ bs ", " ++ join (bs ", ") (t2 :: ts)) by reflexivity. apply unbroken_app; [exact Ht|]. apply unbroken_app; [now apply unbroken_b|exact IH].
  - unfold repr_list. rewrite app_assoc. apply ends_bracket.
Qed.

(* ---------- calls ---------- *)
Inductive Mem : ycall -> list Z * yaml -> Prop :=
| M_write k v x : plainb k = true -> Value v x -> Mem (YWrite k v) (k, x)
| M_object k l m : plainb k = true -> begins false l -> Obj [] l m false -> Mem (YObject k l) (k, node m)
| M_array k l vs : plainb k = true -> Arr l vs false -> Mem (YArray k l) (k, seq vs).
Lemma obj_app l m r m' b : Forall2 Mem l m -> forall seen, NoDup (map fst m) -> (forall k, In k (map fst m) -> ~ In k seen) ->
  Obj (rev (map fst m) ++ seen) r m' b -> Obj seen (l ++ r) (m ++ m') b.
Proof.
  induction 1 as [|c kx l m HM _ IH]; intros seen HN HD HO; [exact HO|]. cbn [map] in *. inversion HN; subst.
  assert (HX : Obj (fst kx :: seen) (l ++ r) (m ++ m') b).
  { apply IH; [assumption| |]. - intros k Hk [<-|Hs]; [contradiction|]. exact (HD k (or_intror Hk) Hs). - cbn [rev] in HO. now rewrite <- app_assoc in HO. }
  assert (HF : ~ In (fst kx) seen) by (apply HD; now left). destruct HM; cbn [app fst] in *.
  - now apply Ob_write.
  - now apply Ob_object.
  - now apply Ob_array.
Qed.
Lemma obj_list l m : Forall2 Mem l m -> NoDup (map fst m) -> Obj [] l m false.
Proof. intros H HN. rewrite <- (app_nil_r l), <- (app_nil_r m). apply (obj_app l m [] [] false H []); [exact HN|intros k _ []|constructor]. Qed.
Definition Elem (c : ycall) (x : yaml) : Prop := exists k l m, c = YObject k l /\ begins true l /\ Obj [] l m false /\ x = node m.
Lemma arr_list l vs e : Forall2 Elem l vs -> Arr (l ++ yraises e) vs (if e then true else false).
Proof.
  induction 1 as [|c x l vs (k & l1 & m & -> & H1 & H2 & ->) _ IH]; [destruct e; constructor|]. cbn [app]. now apply Ar_object.
Qed.
Lemma arr_plain l vs : Forall2 Elem l vs -> Arr l vs false.
Proof. intros H. rewrite <- (app_nil_r l). exact (arr_list l vs None H). Qed.

Section file.
  Context (num_text : num -> list Z) (val_text : obj -> list Z) (image_name : obj -> list Z) (descriptor : tstate -> list (list Z * list Z)) (odd_repr : list Z -> list Z).
  Context (Hnum : forall q, number_text (num_text q) = true).
  Local Notation item_yaml := (item_yaml num_text val_text image_name descriptor).
  Local Notation page_yaml := (page_yaml num_text val_text image_name descriptor).
  Local Notation pages_yaml := (pages_yaml num_text val_text image_name descriptor).
  Local Notation YOkItem := (YOkItem num_text val_text image_name descriptor).
  Local Notation box_entries := (box_entries num_text).
  Local Notation color_entries := (color_entries val_text).
  Local Notation y_item := (y_item num_text val_text image_name descriptor odd_repr).
  Local Notation y_page := (y_page num_text val_text image_name descriptor odd_repr).

  Lemma num_value q : Value (num_text q) (YStr (num_text q)).
  Proof. apply value_plain, number_plain, Hnum. Qed.
  Lemma box_mem b : Forall2 Mem (y_box num_text b) (box_entries b).
  Proof. unfold y_box, box_attrs, YamlFile_Spec.box_entries. cbn [map fst snd]. repeat (constructor; [apply M_write; [reflexivity|apply num_value]|]). constructor. Qed.
  Lemma none_mem : Forall2 Mem y_none none_entries.
  Proof. unfold y_none, none_attrs, none_entries. cbn [map fst snd]. repeat (constructor; [apply M_write; [reflexivity|apply value_plain; reflexivity]|]). constructor. Qed.
  Lemma solid_list ts vs : Forall2 (fun t v => solid t /\ Flow t v /\ unbroken t) ts vs -> Forall2 (fun t v => solid t /\ Flow t v) ts vs /\ Forall unbroken ts.
  Proof. induction 1 as [|t v ts vs (A & B & C) _ (IH1 & IH2)]; split; constructor; auto. Qed.
  Lemma repr_simple x : simple x -> enc (Str x) true = x /\ py_repr odd_repr x = bs "'" ++ x ++ bs "'" /\ Forall (fun c => c <> 39) x /\ unbroken x.
  Proof.
    intros H. splits.
    - apply enc_same. eapply Forall_impl; [|exact H]. cbn. intros c. lia.
    - unfold py_repr. assert (E : forallb (fun c => (32 <=? c) && (c <=? 126) && negb (c =? 39) && negb (c =? 92)) x = true); [|now rewrite E].
      apply forallb_forall. intros c Hc. unfold simple in H. rewrite Forall_forall in H. apply H in Hc. lia.
    - eapply Forall_impl; [|exact H]. cbn. intros c. lia.
    - eapply Forall_impl; [|exact H]. cbn. intros c. lia.
  Qed.
  Lemma color_mem key c : plainb key = true -> ycolor_ok val_text c -> Forall2 Mem (y_color val_text odd_repr key c) (color_entries key c).
  Proof.
    intros Hk H. unfold y_color, YamlFile_Spec.color_entries, ycolor_ok in *. destruct (c_space c) as [cs|]; [|constructor]. destruct H as ((n & En & Hu & Hp) & HV). constructor; [|constructor].
    unfold cs_text. rewrite En. rewrite enc_unescaped by exact Hu.
    change (YMap [(bs "type", YStr n); (bs "value", YSeq (map (fun v => YStr (val_text v)) (c_vals c)))]) with (node [(bs "type", YStr n); (bs "value", YSeq (map (fun v => YStr (val_text v)) (c_vals c)))]).
    apply M_object; [exact Hk|exact Logic.I|]. apply obj_list; [|apply nodupb_sound; reflexivity].
    constructor; [apply M_write; [reflexivity|apply value_plain, Hp]|]. constructor; [|constructor]. apply M_write; [reflexivity|].
    assert (HL : Forall2 (fun t v => solid t /\ Flow t v /\ unbroken t) (map (fun v => py_repr odd_repr (enc (Str (val_text v)) true)) (c_vals c)) (map (fun v => YStr (val_text v)) (c_vals c))).
    { clear -HV. induction HV as [|v l Hv _ IH]; cbn [map]; constructor; [|exact IH]. destruct (repr_simple _ Hv) as (E1 & E2 & E3 & E4). rewrite E1, E2. splits.
      - exists 39, (val_text v ++ bs "'"). splits; [reflexivity|lia|lia].
      - apply flow_quoted, E3.
      - apply unbroken_app; [now apply unbroken_b|]. apply unbroken_app; [exact E4|now apply unbroken_b]. }
    apply solid_list in HL. apply value_list; apply HL.
  Qed.
  Lemma color_keys key c : map fst (color_entries key c) = match c_space c with Some _ => [key] | None => [] end.
  Proof. unfold YamlFile_Spec.color_entries. destruct (c_space c); reflexivity. Qed.
  Lemma block_elem cb : yblock_ok num_text val_text descriptor cb ->
    Elem (YObject [] (y_char_block num_text val_text descriptor odd_repr cb)) (YMap (block_entries num_text val_text descriptor cb)).
  Proof.
    intros (H1 & H2 & H3 & H4). exists [], (y_char_block num_text val_text descriptor odd_repr cb), (block_entries num_text val_text descriptor cb). splits; [reflexivity|exact Logic.I| |reflexivity].
    apply obj_list; [|exact H4]. unfold block_entries, y_char_block. rewrite descriptor_shown. constructor.
    { apply M_write; [reflexivity|]. replace (cb_size cb) with (v_size cb) by (unfold cb_size, v_size; destruct (t_font (cb_text cb)) as [f|]; [destruct (f_vertical f)|]; reflexivity). apply num_value. }
    apply Forall2_app; [apply box_mem|]. apply Forall2_app; [now apply color_mem|]. apply Forall2_app.
    - clear -H3. induction H3 as [|[k v] l (A & B) _ IH]; constructor; [|exact IH]. cbn [fst snd] in *. apply M_write; [exact A|apply value_plain, B].
    - constructor; [|constructor]. apply M_write; [reflexivity|]. rewrite flat_map_concat_map. apply value_plain, H1.
  Qed.
  Lemma num_unbroken q : unbroken (num_text q).
  Proof. apply (plain_parts _ (number_plain _ (Hnum q))). Qed.
  Lemma pairs_step k x : flow_pairs (S k) x =
    match flow k x with
    | Some (YStr s, r) =>
        match after 58 r with
        | Some t =>
            match flow k t with
            | Some (v, r') =>
                match after 44 r', after 125 r' with
                | Some t', _ => match flow_pairs k t' with Some (l, t'') => Some ((s, v) :: l, t'') | None => None end
                | None, Some t' => Some ([(s, v)], t')
                | None, None => None
                end
            | None => None
            end
        | None => None
        end
    | _ => None
    end.
  Proof. reflexivity. Qed.
  (* a point *)
  Lemma point_flow p : solid (repr_point num_text p) /\ Flow (repr_point num_text p) (point_yaml num_text p) /\ unbroken (repr_point num_text p).
  Proof.
    unfold repr_point. splits.
    - exists 123. eexists. splits; [reflexivity|lia|lia].
    - destruct (flow_number _ (Hnum (fst p))) as (n1 & F1). destruct (flow_number _ (Hnum (snd p))) as (n2 & F2). exists (4 + n1 + n2)%nat. intros k rest Hk Hd.
      set (a := num_text (fst p)) in *. set (b := num_text (snd p)) in *.
      replace ((bs "{'x': " ++ a ++ bs ", 'y': " ++ b ++ bs "}") ++ rest) with (123 :: 39 :: [120] ++ 39 :: 58 :: 32 :: a ++ 44 :: 32 :: 39 :: [121] ++ 39 :: 58 :: 32 :: b ++ 125 :: rest)
        by (cbn [bs app]; rewrite <- !app_assoc; cbn [app]; rewrite <- !app_assoc; reflexivity).
      destruct k as [|k]; [lia|]. 
      assert (Q : forall c y j, c <> 39 -> flow (S j) (39 :: [c] ++ 39 :: 58 :: y) = Some (YStr [c], 58 :: y)).
      { intros c y j Hc. rewrite flow_quote. cbn [app quoted]. destruct (Z.eqb_spec c 39); [contradiction|]. reflexivity. }
      assert (P2 : forall j, (2 + n2 <= j)%nat -> flow_pairs j (32 :: 39 :: [121] ++ 39 :: 58 :: 32 :: b ++ 125 :: rest) = Some ([(bs "y", YStr b)], rest)).
      { intros [|j] Hj; [lia|]. destruct j as [|j]; [lia|]. rewrite pairs_step. rewrite flow_ltrim. rewrite Q by lia. change (after 58 (58 :: 32 :: b ++ 125 :: rest)) with (Some (32 :: b ++ 125 :: rest)). cbv iota.
        rewrite flow_ltrim. rewrite F2 by (try lia; right; now right). reflexivity. }
      assert (P1 : forall j, (3 + n1 + n2 <= j)%nat -> flow_pairs j (39 :: [120] ++ 39 :: 58 :: 32 :: a ++ 44 :: 32 :: 39 :: [121] ++ 39 :: 58 :: 32 :: b ++ 125 :: rest) = Some ([(bs "x", YStr a); (bs "y", YStr b)], rest)).
      { intros [|j] Hj; [lia|]. destruct j as [|j]; [lia|]. set (tail := 32 :: 39 :: [121] ++ 39 :: 58 :: 32 :: b ++ 125 :: rest) in *. rewrite pairs_step. rewrite Q by lia.
        change (after 58 (58 :: 32 :: a ++ 44 :: tail)) with (Some (32 :: a ++ 44 :: tail)). cbv iota.
        rewrite flow_ltrim. rewrite F1 by (try lia; now left). change (after 44 (44 :: tail)) with (Some tail). cbv iota. rewrite P2 by lia. reflexivity. }
      set (all := 39 :: [120] ++ 39 :: 58 :: 32 :: a ++ 44 :: 32 :: 39 :: [121] ++ 39 :: 58 :: 32 :: b ++ 125 :: rest) in *.
      cbn [flow]. change (after 39 (123 :: all)) with (@None (list Z)). change (after 91 (123 :: all)) with (@None (list Z)). change (after 123 (123 :: all)) with (Some all). cbv iota.
      change (after 125 all) with (@None (list Z)). cbv iota. rewrite P1 by lia. reflexivity.
    - repeat (apply unbroken_app; [first [now apply unbroken_b|apply num_unbroken]|]). now apply unbroken_b.
  Qed.
  Lemma seg_elem s : Elem (y_seg num_text s) (seg_yaml num_text s).
  Proof.
    assert (HL : forall ps, Value (repr_list (map (repr_point num_text) ps)) (YSeq (map (point_yaml num_text) ps))).
    { intros ps. assert (G : Forall2 (fun t v => solid t /\ Flow t v /\ unbroken t) (map (repr_point num_text) ps) (map (point_yaml num_text) ps)) by (induction ps as [|p ps IH]; cbn [map]; constructor; [apply point_flow|exact IH]).
      apply solid_list in G. apply value_list; apply G. }
    exists [], [YWrite (bs "type") (seg_method s); YWrite (bs "points") (repr_list (map (repr_point num_text) (seg_points s)))],
      [(bs "type", YStr (seg_method s)); (bs "points", YSeq (map (point_yaml num_text) (seg_points s)))]. splits; [reflexivity|exact Logic.I| |destruct s; reflexivity].
    apply obj_list; [|apply nodupb_sound; reflexivity]. constructor; [apply M_write; [reflexivity|apply value_plain; destruct s; reflexivity]|].
    constructor; [|constructor]. apply M_write; [reflexivity|apply HL].
  Qed.
  Lemma curve_mem k p b st f : ycolor_ok val_text st -> ycolor_ok val_text f -> exists m, Forall2 Mem (y_curve num_text val_text odd_repr k p b st f) m /\ NoDup (map fst m) /\
    item_yaml (ICurve k (OInt 0) p b st f false) = YMap m /\ m <> [] /\ begins true (y_curve num_text val_text odd_repr k p b st f).
  Proof.
    intros H1 H2. eexists. splits; [| |reflexivity| |].
    - unfold y_curve. apply Forall2_app; [|apply Forall2_app; [apply box_mem|apply Forall2_app; apply color_mem; auto]].
      destruct k.
      5: { constructor; [apply M_write; [reflexivity|apply value_plain; reflexivity]|]. constructor; [|constructor]. change y_list with seq. apply M_array; [reflexivity|].
           apply arr_plain. induction p as [|s p IH]; cbn [map]; constructor; [apply seg_elem|exact IH]. }
      all: constructor; [apply M_write; [reflexivity|apply value_plain; reflexivity]|constructor].
    - rewrite !map_app, !color_keys. destruct k, (c_space f), (c_space st); apply nodupb_sound; reflexivity.
    - destruct k; discriminate.
    - destruct k; exact Logic.I.
  Qed.
  Lemma item_elem : forall i, YOkItem i -> Elem (YObject [] (y_item i)) (item_yaml i).
  Proof.
    fix IH 2. intros i H. destruct H as [|x l Hl|s b Hs1 Hs2|s b l Hl|k w p b st f e H1 H2].
    - exists [], [], []. splits; [reflexivity|exact Logic.I|constructor|reflexivity].
    - eexists _, _, ((bs "type", YStr (bs "text-block")) :: match x with Some x => box_entries x | None => none_entries end ++ [(bs "char_blocks", seq (map (fun cb => YMap (block_entries num_text val_text descriptor cb)) l))]).
      splits; [reflexivity|exact Logic.I| |reflexivity]. apply obj_list; [|destruct x; apply nodupb_sound; reflexivity].
      constructor; [apply M_write; [reflexivity|apply value_plain; reflexivity]|]. cbn [tb_box tb_blocks]. apply Forall2_app; [destruct x; [apply box_mem|apply none_mem]|].
      constructor; [|constructor]. apply M_array; [reflexivity|]. apply arr_plain. clear IH. induction Hl as [|cb l Hcb _ IHl]; cbn [map]; constructor; [apply block_elem; exact Hcb|exact IHl].
    - eexists _, _, ((bs "type", YStr (bs "img")) :: (bs "src", YStr (image_name s)) :: box_entries b). splits; [reflexivity|exact Logic.I| |reflexivity].
      apply obj_list; [|apply nodupb_sound; reflexivity]. constructor; [apply M_write; [reflexivity|apply value_plain; reflexivity]|].
      constructor; [apply M_write; [reflexivity|]|apply box_mem]. rewrite enc_same; [apply value_plain, Hs1|]. eapply Forall_impl; [|exact Hs2]. cbn. intros c. split; [discriminate|tauto].
    - eexists _, _, ((bs "type", YStr (bs "xobject")) :: box_entries b ++ [(bs "children", seq (map item_yaml l))]). splits; [reflexivity|exact Logic.I| |reflexivity].
      apply obj_list; [|apply nodupb_sound; reflexivity]. constructor; [apply M_write; [reflexivity|apply value_plain; reflexivity]|]. apply Forall2_app; [apply box_mem|].
      constructor; [|constructor]. apply M_array; [reflexivity|]. apply arr_plain.
      induction Hl as [|i l Hi Hl IHl]; cbn [map]; constructor; [apply IH; exact Hi|exact IHl].
    - destruct (curve_mem k p b st f H1 H2) as (m & A & B & C & D & E). exists [], (y_curve num_text val_text odd_repr k p b st f), m. splits; [reflexivity|exact E|apply obj_list; assumption|].
      change (item_yaml (ICurve k w p b st f e)) with (item_yaml (ICurve k (OInt 0) p b st f false)). rewrite C. destruct m; [contradiction|reflexivity].
  Qed.
  Lemma id_plain n : plainb (py_str_int n) = true.
  Proof.
    apply number_plain. assert (D : forall m, 0 <= m -> exists c r, py_str_nat m = c :: r /\ is_digit c = true /\ forallb is_digit r = true).
    { intros m Hm. destruct (py_str_nat_spec m Hm) as (H1 & H2 & _). destruct (py_str_nat m) as [|c r]; [contradiction|]. cbn in H1. apply andb_prop in H1. exists c, r. tauto. }
    assert (G : forall r, forallb is_digit r = true -> forallb (fun c => is_digit c || existsb (Z.eqb c) (bs "+-.e")) r = true).
    { intros r H. apply forallb_forall. intros c Hc. rewrite forallb_forall in H. now rewrite (H c Hc). }
    unfold py_str_int. destruct (n <? 0) eqn:E.
    - destruct (D (- n) ltac:(lia)) as (c & r & -> & H1 & H2). unfold number_text. rewrite H1. cbn [forallb]. rewrite H1, (G r H2). reflexivity.
    - destruct (D n ltac:(lia)) as (c & r & -> & H1 & H2). unfold number_text. rewrite H1, (G r H2). reflexivity.
  Qed.
  Lemma page_obj p : Forall YOkItem (fst (pg_items p)) -> exists l m, y_page p = YObject [] l /\ begins true l /\ Obj [] l m (if snd (pg_items p) then true else false) /\ page_yaml p = node m.
  Proof.
    intros H. set (m := [(bs "id", YStr (py_str_int (pg_num p))); (bs "width", y_num num_text (pg_width p)); (bs "height", y_num num_text (pg_height p))]).
    assert (HA : Arr (map (fun i => YObject [] (y_item i)) (fst (pg_items p)) ++ yraises (snd (pg_items p))) (map item_yaml (fst (pg_items p))) (if snd (pg_items p) then true else false)).
    { apply arr_list. induction H as [|i l Hi _ IH]; cbn [map]; constructor; [apply item_elem; exact Hi|exact IH]. }
    eexists. exists (m ++ [(bs "children", seq (map item_yaml (fst (pg_items p))))]). splits; [reflexivity|exact Logic.I| |reflexivity].
    change [YWrite ?a ?b; YWrite ?c ?d; YWrite ?e ?f; ?g] with ([YWrite a b; YWrite c d; YWrite e f] ++ [g]).
    apply obj_app.
    - unfold m. constructor; [apply M_write; [reflexivity|apply value_plain, id_plain]|]. repeat (constructor; [apply M_write; [reflexivity|apply num_value]|]). constructor.
    - apply nodupb_sound; reflexivity.
    - intros k _ [].
    - destruct (snd (pg_items p)).
      + apply Ob_array_raise; [|reflexivity|exact HA]. intros X. cbn in X. repeat (destruct X as [X|X]; [discriminate X|]). destruct X.
      + apply Ob_array; [|reflexivity|exact HA|constructor]. intros X. cbn in X. repeat (destruct X as [X|X]; [discriminate X|]). destruct X.
  Qed.
  (* C90. The file that convert_to_yaml writes is YAML, and what it says is the pages reached, with all their items, in order; an
     exception that ends the interpretation of a page comes out, and the file has what came before it. *)
  Theorem C90_yaml_partial ps e : Forall (fun p => Forall YOkItem (fst (pg_items p))) ps ->
    YamlText (fst (convert_to_yaml num_text val_text image_name descriptor odd_repr (ps, e))) (pages_yaml (reached ps)) /\
    (snd (convert_to_yaml num_text val_text image_name descriptor odd_repr (ps, e)) = true <-> raised ps e).
  Proof.
    intros H. set (b := existsb (fun p => if snd (pg_items p) then true else false) ps || (if e then true else false)).
    assert (HA : Arr (map y_page ps ++ yraises e) (map page_yaml (reached ps)) b).
    { unfold b. clear b. induction H as [|p ps Hp _ IH]; [destruct e; constructor|]. cbn [map app existsb reached]. destruct (page_obj p Hp) as (l & m & E1 & E2 & E3 & E4). rewrite E1.
      destruct (snd (pg_items p)) as [x|]; cbn [orb].
      - cbn [map]. rewrite E4. now apply Ar_object_raise.
      - cbn [map]. rewrite E4. now apply Ar_object. }
    assert (HO : Obj [] [YArray (bs "pages") (map y_page ps ++ yraises e)] [(bs "pages", seq (map page_yaml (reached ps)))] b).
    { destruct b; [apply Ob_array_raise|apply Ob_array; [| | |constructor]]; auto. }
    destruct (file_lemma _ _ _ HO) as (A & B). unfold convert_to_yaml. cbn [fst snd]. split; [exact A|]. rewrite B. unfold b, raised. rewrite orb_true_iff, existsb_exists. split.
    - intros [(p & X & Y)|X]; [right; exists p; split; [exact X|destruct (snd (pg_items p)); discriminate]|left; destruct e; discriminate].
    - intros [X|(p & X & Y)]; [right; destruct e; [reflexivity|contradiction]|left; exists p; split; [exact X|destruct (snd (pg_items p)); [reflexivity|contradiction]]].
  Qed.
End file.

(* ---------- the hypotheses can be met ---------- *)
Lemma nt_number_text q : number_text (nt q) = true.
Proof. unfold nt. destruct (qeqb q (qz 0)); reflexivity. Qed.
Definition cby (t : list Z) : charblock := mkCB (map (fun c => ([c], b0)) t) b0 blue t0.
Definition page2 (e : option exn) : opage := mkPage 3 (qz 1) (qz 1)
  ([IXObj ONull b0 [IText (mkTB (Some b0) [cby (bs "Some ""text"" (1:2) <x>, 1#" ++ [233]); cby (bs "-1")]); IText (mkTB None []); INone];
    ICurve CCurve (OInt 1) [SMove (qz 0, qz 1); SClose] b0 blue (mkColor None []) false; IXObj ONull b0 []; IImage ONull b0], e).
Definition odd0 (x : list Z) : list Z := x.
Lemma page2_ok e : Forall (YOkItem nt vt (fun _ => bs "img1") desc0) (fst (pg_items (page2 e))).
Proof.
  assert (B : ycolor_ok vt blue).
  { split; [exists (bs "DeviceRGB"); splits; [reflexivity| |reflexivity]|]; [apply Forall_forall|].
    - assert (U : forallb (fun c => (0 <=? c) && (c <? 128) && negb (c =? 38) && negb (c =? 60) && negb (c =? 62) && negb (c =? 34)) (bs "DeviceRGB") = true) by reflexivity.
      rewrite forallb_forall in U. intros c Hc. specialize (U c Hc). lia.
    - repeat (constructor; [unfold simple; cbn; repeat (constructor; [lia|]); constructor|]). constructor. }
  cbn [page2 pg_items fst]. constructor; [|constructor; [|constructor; [|constructor; [|constructor]]]].
  - apply yok_form. constructor; [|constructor; [apply yok_text; constructor|constructor; [apply yok_none|constructor]]]. apply yok_text.
    constructor; [|constructor; [|constructor]]; (unfold yblock_ok; splits; [reflexivity|exact B| |apply nodupb_sound; vm_compute; reflexivity]).
    all: match goal with |- Forall _ (shown_entries (desc0 ?x)) => change (shown_entries (desc0 x)) with [(bs "FontName", bs "Arial"); (bs "StemV", bs "80")] end.
    all: repeat (constructor; [split; reflexivity|]); constructor.
  - apply yok_curve; [exact B|exact Logic.I].
  - apply yok_form. constructor.
  - apply yok_image; [reflexivity|]. cbn. repeat (constructor; [lia|]); constructor.
Qed.
(* a document of three pages of which the second ends with an exception: the first two are in the file *)
Example C90_case : let ps := [page2 None; page2 (Some TypeError); page2 None] in
  YamlText (fst (convert_to_yaml nt vt (fun _ => bs "img1") desc0 odd0 (ps, None))) (pages_yaml nt vt (fun _ => bs "img1") desc0 [page2 None; page2 (Some TypeError)]) /\
  snd (convert_to_yaml nt vt (fun _ => bs "img1") desc0 odd0 (ps, None)) = true.
Proof.
  intros ps. destruct (C90_yaml_partial nt vt (fun _ => bs "img1") desc0 odd0 nt_number_text ps None) as [A B].
  - repeat (constructor; [apply page2_ok|]). constructor.
  - split; [exact A|]. apply B. right. exists (page2 (Some TypeError)). split; [right; left; reflexivity|discriminate].
Qed.

(* ---------- what does not hold ---------- *)
Definition ydoc (i : item) : list Z := fst (convert_to_yaml nt vt (fun _ => bs "img1") desc0 odd0 ([one i], None)).
Definition ytree (i : item) : yaml := pages_yaml nt vt (fun _ => bs "img1") desc0 [one i].
Definition words (t : list Z) : item := IText (mkTB (Some b0) [cby t]).
Lemma reading text v : (forall j, read_yaml (40 + j) text = Some v) -> YamlText text v.
Proof. intros H. exists 40%nat. intros k Hk. replace k with (40 + (k - 40))%nat by lia. apply H. Qed.
(* Refuted for line ends in the text of a page: what comes after one is read as part of the structure of the file, here as a key of
   the document beside pages *)
Theorem C90_injection_refuted : exists t old, YamlText (ydoc (words t)) (YMap [(bs "pages", old); (bs "owner", YStr (bs "me"))]) /\
  ytree (words t) = YMap [(bs "pages", match ytree (words t) with YMap [(_, v)] => v | _ => YNull end)].
Proof. exists (bs "A" ++ 10 :: bs "owner: me"). eexists. split; [apply reading; intros j; vm_compute; reflexivity|reflexivity]. Qed.
(* Refuted for texts with a colon before a space, or that begin with a mark of YAML: the file cannot be read *)
Theorem C90_colon_refuted : forall t, In t [bs "a: b"; bs "*x"; bs "- y"; bs "{"; bs "'tis"] -> forall v, ~ YamlText (ydoc (words t)) v.
Proof.
  intros t Ht v (n & H). specialize (H (40 + n)%nat ltac:(lia)).
  cbn [In] in Ht. repeat (destruct Ht as [<-|Ht]; [vm_compute in H; discriminate H|]). destruct Ht.
Qed.
(* Refuted for texts that begin or end with spaces, that are empty, or are in brackets: another value is read *)
Theorem C90_text_refuted : forall t, In t [bs " a"; bs "a "; []; bs "[1, 2]"; bs "'a'"] ->
  exists v, YamlText (ydoc (words t)) v /\ v <> ytree (words t).
Proof.
  intros t Ht. cbn [In] in Ht. repeat (destruct Ht as [<-|Ht]; [eexists; split; [apply reading; intros j; vm_compute; reflexivity|vm_compute; discriminate]|]). destruct Ht.
Qed.
(* Refuted for a font descriptor with an entry named as a member written before or after it: the entry, or the text, is left out *)
Theorem C90_descriptor_refuted : forall key, In key [bs "size"; bs "text"] -> exists v,
  YamlText (fst (convert_to_yaml nt vt (fun _ => []) (fun _ => [(key, bs "7")]) odd0 ([one (words (bs "ab"))], None))) v /\
  v <> pages_yaml nt vt (fun _ => []) (fun _ => [(key, bs "7")]) [one (words (bs "ab"))].
Proof.
  intros t Ht. cbn [In] in Ht. repeat (destruct Ht as [<-|Ht]; [eexists; split; [apply reading; intros j; vm_compute; reflexivity|vm_compute; discriminate]|]). destruct Ht.
Qed.
(* The writer alone, for a program that opens an object as the first member of an object: the inner key comes out at the left *)
Theorem C90_nested_first_refuted :
  yaml_file [YObject (bs "a") [YObject (bs "b") [YWrite (bs "c") (bs "d")]]] = (bs "a:" ++ 10 :: bs "b:" ++ 10 :: bs "    c: d", false) /\
  YamlText (bs "a:" ++ 10 :: bs "b:" ++ 10 :: bs "    c: d") (YMap [(bs "a", YNull); (bs "b", YMap [(bs "c", YStr (bs "d"))])]).
Proof. split; [reflexivity|apply reading; intros j; vm_compute; reflexivity]. Qed.
