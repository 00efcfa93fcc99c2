(* C78: the file convert_to_xml writes. *)
From Coq Require Import String.
From Verif Require Import Base Obj Num Geom_Model Page_Model Interp_Model.
From Verif Require Import Markup_Model Markup_Spec Markup_Proofs JsonWriter_Proofs Markup_Props Convert_Model XmlFile_Spec.
From Coq Require Import Qcanon ZifyBool Lia.
Open Scope Z_scope.
Import ListNotations.

(* ---------- attributes ---------- *)
(* an attribute as written and as read *)
Definition attr_ok (a b : list Z * list Z) : Prop :=
  fst a = fst b /\ is_name (fst a) /\ escaped (snd a) /\ Forall (fun c => c <> 34 /\ c <> 10) (snd a) /\ expand (snd a) = Some (snd b).
Definition attrs_ok (l l' : list (list Z * list Z)) : Prop := Forall2 attr_ok l l' /\ NoDup (map fst l').
Lemma attrs_names l l' : Forall2 attr_ok l l' -> map fst l = map fst l'.
Proof. induction 1 as [|a b l l' (H & _) _ IH]; [reflexivity|]. cbn [map]. rewrite H, IH. reflexivity. Qed.
Lemma attrs_good l l' : attrs_ok l l' -> good_attrs l.
Proof.
  intros [H HN]. split; [rewrite (attrs_names _ _ H); exact HN|]. clear HN. induction H as [|a b l l' (_ & H1 & H2 & H3 & _) _ IH]; constructor; [auto|exact IH].
Qed.
Lemma attrs_read l l' l'' : attrs_ok l l' -> Forall2 attr_shows l l'' -> l'' = l'.
Proof.
  intros [H _]. revert l''. induction H as [|a b l l' (H0 & _ & _ & _ & H1) _ IH]; intros l'' HS; inversion HS as [|? c ? ? [HC1 HC2] HC3]; subst; [reflexivity|].
  rewrite (IH _ HC3). f_equal. rewrite H1 in HC2. injection HC2 as HC2. destruct b, c. cbn [fst snd] in *. congruence.
Qed.

(* a call that is well-formed and can only show as the given tree *)
Definition yields (c : xcall) (t : xtree) : Prop := Good c /\ forall u, Shows c u -> Like t u.
Lemma yields_list cs ts : Forall2 yields cs ts -> Forall Good cs /\ forall us, Holds cs us -> LikeList ts us.
Proof.
  intros H. split; [induction H as [|c t cs ts [HG _] _ IH]; constructor; assumption|].
  intros us HS. revert ts H. induction HS as [|w cs us Hw _ IH|c u cs us Hu _ IH]; intros ts H.
  - inversion H; subst. constructor.
  - apply ll_white; [exact Hw|apply IH; exact H].
  - inversion H as [|? t ? ts' [_ Ht] H2]; subst. apply ll_cons; [apply Ht; exact Hu|apply IH; exact H2].
Qed.
Lemma yields_elem tag l l' nle noadd cs ts : is_name tag -> tag <> bs "char" -> attrs_ok l l' -> Forall2 yields cs ts ->
  yields (CElm tag l nle noadd cs) (TElem tag l' ts).
Proof.
  intros Hn Hc Ha Hk. destruct (yields_list _ _ Hk) as [HG HS]. split; [apply Good_elem; [exact Hn|eapply attrs_good; exact Ha|exact HG]|].
  intros u Hu. inversion Hu as [? ? l'' ? ? ? ks HA HH|? ? l'' ? t t' HA HT|? ? l'' ? t t' w w' HA HT|]; subst.
  - rewrite (attrs_read _ _ _ Ha HA). apply like_elem; [exact Hc|apply HS; exact HH].
  - exfalso. inversion HG as [|? ? X]; subst. inversion X.
  - exfalso. inversion HG as [|? ? X]; subst. inversion X.
Qed.
Lemma yields_single tag l l' : is_name tag -> attrs_ok l l' -> yields (CSingle tag l) (TElem tag l' []).
Proof.
  intros Hn Ha. split; [apply Good_single; [exact Hn|eapply attrs_good; exact Ha]|]. intros u Hu. inversion Hu; subst.
  rewrite (attrs_read _ _ _ Ha ltac:(eassumption)). apply (like_text tag l' []).
Qed.
Lemma yields_text tag l l' nle x : is_name tag -> attrs_ok l l' -> forallb xml_char x = true ->
  yields (CElm tag l nle true [CText (sax_escape x) [] []]) (TElem tag l' (text_node x)).
Proof.
  intros Hn Ha Hx. split; [apply C54_character_good; [exact Hn|eapply attrs_good; exact Ha|exact Hx]|].
  intros u Hu. inversion Hu as [? ? l'' ? ? ? ks HA HH|? ? l'' ? t t' HA HT| |]; subst.
  - exfalso. clear - HH. remember [CText (sax_escape x) [] []] as l eqn:E.
    induction HH as [|w cs ks Hw _ IH|c t cs ks Hs _ _]; [discriminate|exact (IH E)|]. injection E as -> _. inversion Hs.
  - rewrite sax_expand in HT. injection HT as <-. rewrite (attrs_read _ _ _ Ha HA). apply like_text.
Qed.

(* ---------- values ---------- *)
Lemma xml_char_nonneg c : xml_char c = true -> 0 <= c.
Proof. unfold xml_char. lia. Qed.
Lemma expand_clean x : Forall (fun c => c <> 38) x -> expand x = Some x.
Proof. induction 1 as [|c x Hc _ IH]; [reflexivity|]. rewrite expand_plain by exact Hc. rewrite IH. reflexivity. Qed.
Lemma forallb_Forall {A} (f : A -> bool) (P : A -> Prop) l : (forall x, P x -> f x = true) -> Forall P l -> forallb f l = true.
Proof. intros H. induction 1 as [|x l Hx _ IH]; [reflexivity|]. cbn [forallb]. rewrite (H x Hx), IH. reflexivity. Qed.
Lemma clean_value n x : is_name n -> clean_text x -> attr_ok (n, x) (n, x).
Proof.
  intros Hn Hx. unfold clean_text in Hx. assert (E : expand x = Some x) by (apply expand_clean; eapply Forall_impl; [|exact Hx]; cbn; tauto).
  unfold attr_ok. cbn [fst snd]. splits; [reflexivity|exact Hn| |eapply Forall_impl; [|exact Hx]; cbn; tauto|exact E].
  split; [eapply Forall_impl; [|exact Hx]; cbn; tauto|]. exists x. split; [exact E|]. eapply forallb_Forall; [|exact Hx]. cbn. tauto.
Qed.
Lemma enc_value n x a : is_name n -> line_text x -> attr_ok (n, enc (Str x) a) (n, x).
Proof.
  intros Hn Hx. destruct (C54_enc_value x a) as [H1 H2].
  { eapply forallb_Forall; [|exact Hx]. cbn. intros c [HA HB]. rewrite HA. lia. }
  unfold attr_ok. cbn [fst snd]. splits; [reflexivity|exact Hn|exact H1|exact H2|]. apply enc_expand. eapply Forall_impl; [|exact Hx]. cbn. intros c [H _]. apply xml_char_nonneg. exact H.
Qed.
Lemma expand_in_app x : forall m t y u, expand_in m x = Some t -> expand y = Some u -> expand_in m (x ++ y) = Some (t ++ u).
Proof.
  induction x as [|c x IH]; intros m t y u H HY.
  - destruct m; [discriminate|]. injection H as <-. exact HY.
  - cbn [app expand_in] in *. destruct m as [m|].
    + destruct (c =? 59); [|apply IH; assumption]. destruct (reference m); [|discriminate].
      destruct (expand_in None x) as [t1|] eqn:E; [|discriminate]. injection H as <-. rewrite (IH None t1 y u E HY). reflexivity.
    + destruct (c =? 38); [apply IH; assumption|]. destruct (expand_in None x) as [t1|] eqn:E; [|discriminate]. injection H as <-.
      rewrite (IH None t1 y u E HY). reflexivity.
Qed.
Lemma join_values l : Forall (fun x => line_text x) l ->
  let w := join (bs ",") (map (fun x => enc (Str x) true) l) in
  Forall (fun c => xml_char c = true /\ c <> 60 /\ c <> 34 /\ c <> 10) w /\ expand w = Some (commas l) /\ forallb xml_char (commas l) = true.
Proof.
  cbn zeta. assert (V : forall x, line_text x -> Forall (fun c => xml_char c = true /\ c <> 60 /\ c <> 34 /\ c <> 10) (enc (Str x) true) /\ expand (enc (Str x) true) = Some x /\ forallb xml_char x = true).
  { intros x Hx. destruct (enc_value (bs "a") x true ltac:(split; reflexivity) Hx) as (_ & _ & [H1 (y & H2 & H3)] & H4 & H5). cbn [snd] in *. splits; [|exact H5|].
    - rewrite Forall_forall in H1, H4 |- *. intros c Hc. specialize (H1 c Hc). specialize (H4 c Hc). tauto.
    - rewrite H5 in H2. injection H2 as <-. exact H3. }
  induction 1 as [|x l Hx Hl IH]; [splits; [constructor|reflexivity|reflexivity]|]. destruct (V x Hx) as (A1 & A2 & A3). destruct l as [|y l]; [cbn [map join commas]; splits; assumption|].
  destruct IH as (B1 & B2 & B3).
  change (join (bs ",") (map (fun x0 => enc (Str x0) true) (x :: y :: l))) with (enc (Str x) true ++ [44] ++ join (bs ",") (map (fun x0 => enc (Str x0) true) (y :: l))).
  change (commas (x :: y :: l)) with (x ++ [44] ++ commas (y :: l)). splits.
  - apply Forall_app. split; [exact A1|]. constructor; [splits; [reflexivity|discriminate|discriminate|discriminate]|exact B1].
  - apply (expand_in_app _ None x _ _ A2). cbn [app]. unfold expand in B2 |- *. cbn [expand_in]. change (44 =? 38) with false. cbv iota. rewrite B2. reflexivity.
  - rewrite !forallb_app, A3, B3. reflexivity.
Qed.

(* ---------- snakecase ---------- *)
Lemma first_cap_all (P : Z -> Prop) : P 45 -> forall n x b, (length x <= n)%nat -> Forall P x -> Forall P (first_cap x b).
Proof.
  intros HP. induction n as [|n IH]; intros x b Hn H; destruct x as [|c r]; cbn [length] in Hn; try constructor; try lia. cbn [first_cap]. inversion H as [|? ? Hc Hr]; subst.
  destruct (b && lower c); [constructor; [exact Hc|apply IH; [lia|exact Hr]]|].
  destruct r as [|u r]; [constructor; [exact Hc|constructor]|]. cbn [length] in Hn. inversion Hr as [|? ? Hu Hr']; subst.
  destruct r as [|l r]; [constructor; [exact Hc|apply IH; [cbn; lia|exact Hr]]|].
  destruct (negb (c =? 10) && upper u && lower l).
  - constructor; [exact Hc|]. constructor; [exact HP|]. constructor; [exact Hu|]. apply IH; [lia|exact Hr'].
  - constructor; [exact Hc|]. apply IH; [cbn [length] in *; lia|exact Hr].
Qed.
Lemma first_cap_hd c r b : exists y, first_cap (c :: r) b = c :: y.
Proof.
  cbn [first_cap]. destruct (b && lower c); [eexists; reflexivity|]. destruct r as [|u [|l r]]; try (eexists; reflexivity).
  destruct (negb (c =? 10) && upper u && lower l); eexists; reflexivity.
Qed.
Lemma all_cap_all (P : Z -> Prop) : P 45 -> forall n x, (length x <= n)%nat -> Forall P x -> Forall P (all_cap x).
Proof.
  intros HP. induction n as [|n IH]; intros x Hn H; destruct x as [|c r]; cbn [length] in Hn; try constructor; try lia. cbn [all_cap]. inversion H as [|? ? Hc Hr]; subst.
  destruct r as [|u r]; [constructor; [exact Hc|constructor]|]. cbn [length] in Hn. inversion Hr as [|? ? Hu Hr']; subst. destruct ((lower c || is_digit c) && upper u).
  - constructor; [exact Hc|]. constructor; [exact HP|]. constructor; [exact Hu|]. apply IH; [lia|exact Hr'].
  - constructor; [exact Hc|]. apply IH; [cbn [length] in *; lia|exact Hr].
Qed.
Lemma all_cap_hd c r : exists y, all_cap (c :: r) = c :: y.
Proof. cbn [all_cap]. destruct r as [|u r]; [eexists; reflexivity|]. destruct ((lower c || is_digit c) && upper u); eexists; reflexivity. Qed.
Lemma snake_name k : word k -> is_name (snakecase k).
Proof.
  destruct k as [|c r]; [intros []|]. intros [Hc Hr]. unfold snakecase.
  set (P := fun c => letter c = true \/ is_digit c = true \/ c = 45).
  assert (F1 : Forall P (c :: r)) by (constructor; [left; exact Hc|eapply Forall_impl; [|exact Hr]; cbn; unfold P; tauto]).
  assert (P45 : P 45) by (right; right; reflexivity).
  pose proof (all_cap_all P P45 _ _ (le_n _) (first_cap_all P P45 _ _ false (le_n _) F1)) as F2.
  destruct (first_cap_hd c r false) as (y & E). rewrite E in *. destruct (all_cap_hd c y) as (z & E2). rewrite E2 in *. cbn [map is_name].
  inversion F2 as [|? ? _ F3]; subst. split; [unfold name_start, to_lower, upper, letter in *; destruct ((65 <=? c) && (c <=? 90)) eqn:K; lia|].
  clear -F3. induction F3 as [|d z Hd _ IH]; [reflexivity|]. cbn [map forallb]. rewrite IH, andb_true_r. unfold P, name_char, name_start, to_lower, upper, letter, is_digit in *.
  destruct ((65 <=? d) && (d <=? 90)) eqn:K; lia.
Qed.

Lemma all_cap_cons c u y : all_cap (c :: u :: y) = if (lower c || is_digit c) && upper u then c :: 45 :: u :: all_cap y else c :: all_cap (u :: y).
Proof. reflexivity. Qed.
Lemma snake_tail : forall n c r b, (length r <= n)%nat -> Forall (fun c => c <> 10) (c :: r) ->
  map to_lower (all_cap (first_cap (c :: r) b)) = to_lower c :: dashed (Some c) r.
Proof.
  induction n as [|n IH]; intros c r b Hn H; (destruct r as [|u r]; [cbn; destruct (b && lower c); reflexivity|]); cbn [length] in Hn; [lia|].
  inversion H as [|? ? Hc Hr]; subst.
  assert (NoMatch : forall b', ((lower c || is_digit c) = true \/ upper u = false \/ match r with l :: _ => lower l | [] => false end = false) ->
    map to_lower (all_cap (c :: first_cap (u :: r) b')) = to_lower c :: dashed (Some c) (u :: r)).
  { intros b' K. destruct (first_cap_hd u r b') as (y & E). pose proof (IH u r b' ltac:(lia) Hr) as I. rewrite E in *. rewrite all_cap_cons. cbn [dashed].
    unfold small, capital. fold (lower c) (upper u). change (if upper u then u + 32 else u) with (to_lower u).
    replace (match r with n :: _ => (97 <=? n) && (n <=? 122) | [] => false end) with (match r with l :: _ => lower l | [] => false end) by (destruct r; reflexivity).
    destruct (upper u) eqn:U; rewrite ?andb_false_r, ?andb_true_r; cbn [andb].
    - assert (A : all_cap (u :: y) = u :: all_cap y).
      { cbn [all_cap]. destruct y as [|v y]; [reflexivity|]. replace (lower u || is_digit u) with false; [reflexivity|]. unfold upper, lower, is_digit in *. lia. }
      rewrite A in I. cbn [map] in I. injection I as I. destruct (lower c || is_digit c); cbn [orb].
      + cbn [map app]. rewrite I. reflexivity.
      + destruct K as [K|[K|K]]; [discriminate|discriminate|]. rewrite K. cbn [map app]. rewrite A. cbn [map]. rewrite I. reflexivity.
    - cbn [map app]. rewrite I. reflexivity. }
  cbn [first_cap]. destruct (b && lower c) eqn:B.
  { apply NoMatch. left. apply andb_true_iff in B as [_ ->]. reflexivity. }
  destruct r as [|l r]; [apply NoMatch; right; right; reflexivity|].
  replace (c =? 10) with false by lia. cbn [negb andb]. destruct (upper u && lower l) eqn:M.
  - apply andb_true_iff in M as [U L]. destruct (first_cap_hd l r true) as (y & E). cbn [length] in Hn.
    inversion Hr as [|? ? _ Hr']; subst. pose proof (IH l r true ltac:(lia) Hr') as I. rewrite E in *. rewrite !all_cap_cons.
    change (upper 45) with false. rewrite andb_false_r. change (lower 45 || is_digit 45) with false. cbn [andb].
    replace (lower u || is_digit u) with false by (unfold upper, lower, is_digit in *; lia). cbn [andb map].
    rewrite I. cbn [dashed]. unfold small, capital. fold (lower l) (upper u) (upper l). rewrite U, L, orb_true_r. cbn [andb app].
    assert (NL : upper l = false) by (unfold upper, lower in *; lia). rewrite NL. cbn [andb app]. unfold to_lower. rewrite U, NL.
    change (upper 45) with false. reflexivity.
  - apply (NoMatch false). right. apply andb_false_iff in M. exact M.
Qed.
Lemma snake_dashed k : word k -> snakecase k = dashed None k.
Proof.
  destruct k as [|c r]; [intros []|]. intros [Hc Hr]. unfold snakecase. rewrite (snake_tail _ c r false (le_n _)).
  - cbn [dashed]. rewrite andb_false_r. reflexivity.
  - constructor; [unfold letter in Hc; lia|]. eapply Forall_impl; [|exact Hr]. cbn. intros a Ha. unfold letter, is_digit in Ha. lia.
Qed.

(* ---------- font descriptors ---------- *)
Lemma prefixb_firstn p : forall x, prefixb p x = list_eqb (firstn (length p) x) p.
Proof.
  induction p as [|a p IH]; intros x; [reflexivity|]. destruct x as [|b x]; cbn [prefixb firstn length]; [reflexivity|].
  cbn [list_eqb]. rewrite IH, Z.eqb_sym. reflexivity.
Qed.
Lemma contains_somewhere p : p <> [] -> forall x, contains p x = existsb (fun i => list_eqb (firstn (length p) (skipn i x)) p) (seq 0 (length x)).
Proof.
  intros Hp. induction x as [|c x IH]; [destruct p; [contradiction|reflexivity]|]. cbn [contains length seq existsb skipn]. rewrite prefixb_firstn. f_equal. rewrite IH, <- seq_shift.
  generalize (seq 0 (length x)). intros l. induction l as [|i l IHl]; [reflexivity|]. cbn [map existsb skipn]. rewrite IHl. reflexivity.
Qed.
Lemma descriptor_shown descriptor ts : descriptor_items descriptor ts = shown_entries (descriptor ts).
Proof.
  unfold descriptor_items, shown_entries. apply filter_ext. intros [k v]. cbn [fst]. rewrite (contains_somewhere (bs "FontFile")) by discriminate.
  change (length (bs "FontFile")) with 8%nat. destruct (list_eq_dec Z.eq_dec k (bs "Type")) as [->|H]; [reflexivity|].
  destruct (list_eqb k (bs "Type")) eqn:E; [apply list_eqb_eq in E; contradiction|reflexivity].
Qed.
Lemma set_attr_new n v a : ~ In n (map fst a) -> set_attr n v a = a ++ [(n, v)].
Proof.
  induction a as [|[n' v'] a IH]; intros H; [reflexivity|]. cbn [set_attr map fst In app] in *. destruct (list_eqb n n') eqn:E.
  - apply list_eqb_eq in E. subst. exfalso. apply H. left. reflexivity.
  - rewrite IH by tauto. reflexivity.
Qed.
Lemma set_attrs_new (f : list Z -> list Z) l : forall a, NoDup (map fst a ++ map (fun kv : list Z * list Z => f (fst kv)) l) ->
  fold_left (fun a kv => set_attr (f (fst kv)) (snd kv) a) l a = a ++ map (fun kv => (f (fst kv), snd kv)) l.
Proof.
  induction l as [|[k v] l IH]; intros a H; [rewrite app_nil_r; reflexivity|]. cbn [fold_left map fst snd] in *.
  rewrite set_attr_new; [|intros X; apply NoDup_remove_2 in H; apply H, in_or_app; left; exact X].
  rewrite IH; [rewrite <- app_assoc; reflexivity|]. rewrite map_app, <- app_assoc. exact H.
Qed.


(* ---------- calls that let an exception out: the elements around it stay open ---------- *)
Definition cut (r : nat -> list Z * bool) : Prop := forall level w n a k st, white w -> exists w' f' st',
  snd (r level) = true /\ xrun (MText w, (n, a, k) :: st) (fst (r level)) = Some (MText w', f' :: st') /\ (length st <= length st')%nat.
Lemma cut_raise : cut (fun level => xrender level CRaise).
Proof. intros level w n a k st Hw. exists w, (n, a, k), st. splits; [reflexivity|reflexivity|lia]. Qed.
Lemma cut_list l c r : Forall Good l -> cut (fun level => xrender level c) -> cut (fun level => xrender_list level (l ++ c :: r)).
Proof.
  intros Hl Hc level w n a k st Hw. revert w k Hw. induction Hl as [|c1 l H1 _ IH]; intros w k Hw; cbn [app xrender_list].
  - destruct (Hc level w n a k st Hw) as (w' & f' & st' & A & B & C). destruct (xrender level c) as [t raised]. cbn [fst snd] in *. subst raised. exists w', f', st'. auto.
  - destruct (good_renders c1 H1 level w n a k st Hw) as (ks & w1 & W1 & _ & F1 & R1). destruct (xrender level c1) as [t raised]. cbn [fst snd] in *. subst raised.
    destruct (IH w1 (k ++ ks) W1) as (w' & f' & st' & A & B & C). destruct (xrender_list level (l ++ c :: r)) as [t2 raised2]. cbn [fst snd] in *. subst raised2.
    exists w', f', st'. splits; [reflexivity|rewrite xrun_app, R1; exact B|exact C].
Qed.
Lemma cut_elem tag attrs nle noadd l : is_name tag -> good_attrs attrs -> cut (fun level => xrender_list level l) -> 
  forall level w n a k st, white w -> exists w' f' st', snd (xrender level (CElm tag attrs nle noadd l)) = true /\
    xrun (MText w, (n, a, k) :: st) (fst (xrender level (CElm tag attrs nle noadd l))) = Some (MText w', f' :: st') /\ (length st < length st')%nat.
Proof.
  intros Hn Ha Hl level w n a k st Hw. rewrite xrender_elm. destruct (good_shows attrs Ha) as (attrs' & Hs).
  set (w0 := w ++ times level sp). assert (W0 : white w0) by (apply white_app; [assumption|apply white_times; reflexivity]).
  assert (Wl : white (if noadd then [] else nl)) by (apply white_if; reflexivity).
  destruct (Hl (S level) (if noadd then [] else nl) tag attrs' [] ((n, a, k ++ text_node w0) :: st) Wl) as (w' & f' & st' & A & B & C).
  destruct (xrender_list (S level) l) as [t raised]. cbn [fst snd] in *. subst raised. cbv zeta. cbn [fst snd]. exists w', f', st'. splits; [reflexivity| |cbn [length] in C; lia].
  unfold xwrite. rewrite <- !app_assoc. rewrite xrun_app, (run_white _ w _ _ (white_times level sp white_sp)). fold w0.
  replace (bs "<" ++ tag ++ bs " " ++ attr_text attrs ++ bs ">" ++ (if noadd then [] else nl) ++ t) with ((bs "<" ++ tag ++ bs " " ++ attr_text attrs ++ bs ">") ++ (if noadd then [] else nl) ++ t) by (rewrite <- !app_assoc; reflexivity).
  rewrite xrun_app, (run_open w0 n a k st tag attrs attrs' W0 Hn Ha Hs). rewrite xrun_app, (run_white _ [] _ _ Wl). exact B.
Qed.

(* ---------- the file ---------- *)
Section file.
  Context (num_text : num -> list Z) (val_text : obj -> list Z) (image_name : obj -> list Z) (descriptor : tstate -> list (list Z * list Z)).
  Context (Hnum : forall q, clean_text (num_text q)).
  Notation v_box := (v_box num_text).
  Notation v_color := (v_color val_text).
  Notation v_block := (v_block num_text val_text descriptor).
  Notation ok_color := (ok_color val_text).
  Notation item_trees := (item_trees num_text val_text image_name descriptor).
  Notation OkItem := (OkItem num_text val_text image_name descriptor).

  Ltac name := split; reflexivity.
  Ltac nodup := apply nodupb_sound; vm_compute; reflexivity.
  Lemma box_ok b : Forall2 attr_ok (box_attrs num_text b) (v_box b).
  Proof. unfold box_attrs, XmlFile_Spec.v_box. repeat (constructor; [apply clean_value; [name|apply Hnum]|]). constructor. Qed.
  Lemma attr_name_app p q : is_name p -> forallb name_char q = true -> is_name (p ++ q).
  Proof. destruct p as [|c p]; [intros []|]. intros [H1 H2] Hq. split; [exact H1|]. rewrite forallb_app, H2. exact Hq. Qed.
  Lemma color_ok prefix c : is_name prefix -> ok_color c -> Forall2 attr_ok (color_attrs val_text prefix c) (v_color prefix c).
  Proof.
    intros Hp. unfold color_attrs, XmlFile_Spec.v_color, XmlFile_Spec.ok_color. destruct (c_space c) as [cs|]; [|constructor]. intros [H1 H2].
    assert (T : attr_ok (prefix ++ bs "-type", enc (Str (cs_text cs)) true) (prefix ++ bs "-type", cs_text cs)).
    { apply enc_value; [apply attr_name_app; [exact Hp|reflexivity]|]. unfold cs_text. destruct (cs_name cs) eqn:E; try constructor. apply H1. reflexivity. }
    assert (V : attr_ok (prefix ++ bs "-values", join (bs ",") (map (fun v => enc (Str (val_text v)) true) (c_vals c))) (prefix ++ bs "-values", commas (map val_text (c_vals c)))).
    { destruct (join_values (map val_text (c_vals c))) as (A & B & C); [apply Forall_map; exact H2|]. rewrite map_map in *. unfold attr_ok. cbn [fst snd].
      splits; [reflexivity|apply attr_name_app; [exact Hp|reflexivity]| |eapply Forall_impl; [|exact A]; cbn; tauto|exact B].
      split; [eapply Forall_impl; [|exact A]; cbn; tauto|]. eexists. split; [exact B|exact C]. }
    unfold cs_text in T. destruct cs as [n z]. cbn [cs_name] in T. destruct n; cbn; (constructor; [exact T|constructor; [exact V|constructor]]).
  Qed.
  Lemma v_color_names prefix c : map fst (v_color prefix c) = match c_space c with Some _ => [prefix ++ bs "-type"; prefix ++ bs "-values"] | None => [] end.
  Proof. unfold XmlFile_Spec.v_color. destruct (c_space c) as [[[] ?]|]; reflexivity. Qed.
  Lemma char_yields c : Forall (fun x => xml_char x = true) (fst c) -> yields (xml_char_elm num_text c) (char_tree num_text c).
  Proof.
    intros H. apply yields_text; [name|split; [apply box_ok|nodup]|]. eapply forallb_Forall; [|exact H]. auto.
  Qed.
  Lemma block_yields cb : ok_block num_text val_text descriptor cb -> yields (xml_char_block num_text val_text descriptor cb) (block_tree num_text val_text descriptor cb).
  Proof.
    intros (H1 & H2 & H3 & H4). apply yields_elem; [name|discriminate| |].
    - assert (E : char_block_attrs num_text val_text descriptor cb = (bs "size", num_text (v_size cb)) :: box_attrs num_text (cb_box cb) ++ color_attrs val_text (bs "color") (cb_color cb) ++
                  map (fun kv => (dashed None (fst kv), snd kv)) (shown_entries (descriptor (cb_text cb)))).
      { unfold char_block_attrs. rewrite descriptor_shown. replace (cb_size cb) with (v_size cb) by (unfold cb_size, v_size; destruct (t_font (cb_text cb)) as [f|]; [destruct (f_vertical f)|]; reflexivity).
        assert (SD : map (fun kv => snakecase (fst kv)) (shown_entries (descriptor (cb_text cb))) = map (fun kv => dashed None (fst kv)) (shown_entries (descriptor (cb_text cb))) /\
                     map (fun kv => (snakecase (fst kv), snd kv)) (shown_entries (descriptor (cb_text cb))) = map (fun kv => (dashed None (fst kv), snd kv)) (shown_entries (descriptor (cb_text cb)))).
        { clear -H3. induction H3 as [|kv l [W _] _ [I1 I2]]; [split; reflexivity|]. cbn [map]. rewrite I1, I2, (snake_dashed _ W). split; reflexivity. }
        destruct SD as [SD1 SD2]. rewrite (set_attrs_new snakecase).
        - rewrite SD2, <- app_comm_cons, <- app_assoc. reflexivity.
        - rewrite SD1. revert H4. unfold XmlFile_Spec.v_block. cbn [map fst]. rewrite !map_app. cbn [app]. rewrite <- (attrs_names _ _ (box_ok _)), map_map. cbn [fst].
          rewrite <- (attrs_names _ _ (color_ok (bs "color") _ ltac:(name) H2)), <- app_assoc. exact (fun x => x). }
      rewrite E. split; [|exact H4]. unfold XmlFile_Spec.v_block. constructor; [apply clean_value; [name|apply Hnum]|].
      apply Forall2_app; [apply box_ok|]. apply Forall2_app; [apply color_ok; [name|exact H2]|].
      clear -H3. induction H3 as [|[k v] l [A B] _ IH]; constructor; [|exact IH]. apply clean_value; [rewrite <- (snake_dashed _ A); apply snake_name; exact A|exact B].
    - clear -H1 Hnum. induction H1 as [|c l Hc _ IH]; constructor; [apply char_yields; exact Hc|exact IH].
  Qed.
  Lemma point_yields p : yields (CSingle (bs "point") [(bs "x", num_text (fst p)); (bs "y", num_text (snd p))]) (point_tree num_text p).
  Proof. apply yields_single; [name|]. split; [|nodup]. repeat (constructor; [apply clean_value; [name|apply Hnum]|]). constructor. Qed.
  Lemma seg_yields s : yields (CElm (bs "path") [(bs "type", seg_method s)] false false
     (map (fun p => CSingle (bs "point") [(bs "x", num_text (fst p)); (bs "y", num_text (snd p))]) (seg_points s))) (seg_tree num_text s).
  Proof.
    assert (K : forall m, clean_text m -> attrs_ok [(bs "type", m)] [(bs "type", m)]).
    { intros m Hm. split; [constructor; [apply clean_value; [name|exact Hm]|constructor]|nodup]. }
    assert (T : forall m, forallb (fun c => xml_char c && negb (c =? 10) && negb (c =? 38) && negb (c =? 60) && negb (c =? 34)) m = true -> clean_text m).
    { intros m Hm. apply Forall_forall. intros c Hc. rewrite forallb_forall in Hm. specialize (Hm c Hc). destruct (xml_char c); [|discriminate]. splits; [reflexivity|lia..]. }
    destruct s; (apply yields_elem; [name|discriminate|apply K, T; reflexivity|]); cbn [seg_points map]; repeat (constructor; [apply point_yields|]); constructor.
  Qed.
  Lemma curve_yields k paths b st f : ok_color st -> ok_color f ->
    exists t, item_trees (ICurve k (OInt 0) paths b st f false) = [t] /\ yields (xml_curve num_text val_text k paths b st f) t.
  Proof.
    intros H1 H2.
    assert (A : attrs_ok (box_attrs num_text b ++ color_attrs val_text (bs "stroke") st ++ color_attrs val_text (bs "fill") f)
                 (v_box b ++ v_color (bs "stroke") st ++ v_color (bs "fill") f)).
    { split; [apply Forall2_app; [apply box_ok|]; apply Forall2_app; (apply color_ok; [name|assumption])|].
      rewrite !map_app, !v_color_names. destruct (c_space st), (c_space f); nodup. }
    destruct k; (eexists; split; [reflexivity|]); try (apply yields_single; [name|exact A]).
    apply yields_elem; [name|discriminate|exact A|]. induction paths as [|s paths IH]; constructor; [apply seg_yields|exact IH].
  Qed.
  Lemma items_yield : forall i, OkItem i -> Forall2 yields (xml_item num_text val_text image_name descriptor i) (item_trees i).
  Proof.
    fix IH 2. intros i H. destruct H as [|b Hb|s b Hs|s b l Hl|k w p b st f e H1 H2].
    - constructor.
    - constructor; [|constructor]. apply yields_elem; [name|discriminate| |].
      + destruct (tb_box b) as [x|]; [split; [apply box_ok|nodup]|]. split; [|nodup].
        assert (T : clean_text (bs "None")) by (repeat (constructor; [splits; [reflexivity|discriminate..]|]); constructor).
        unfold none_attrs, v_textbox. repeat (constructor; [apply clean_value; [name|exact T]|]). constructor.
      + clear IH. induction Hb as [|cb l Hcb _ IHb]; constructor; [apply block_yields; exact Hcb|exact IHb].
    - constructor; [|constructor]. apply yields_single; [name|]. split; [|nodup]. constructor; [apply enc_value; [name|exact Hs]|apply box_ok].
    - constructor; [|constructor]. apply yields_elem; [name|discriminate|split; [apply box_ok|nodup]|].
      induction Hl as [|i l Hi Hl IHl]; [constructor|]. apply Forall2_app; [apply IH; exact Hi|exact IHl].
    - destruct (curve_yields k p b st f H1 H2) as (t & E & Y). change (item_trees (ICurve k w p b st f e)) with (item_trees (ICurve k (OInt 0) p b st f false)). rewrite E.
      constructor; [exact Y|constructor].
  Qed.

  Lemma id_clean n : clean_text (py_str_int n).
  Proof.
    assert (D : forall m, 0 <= m -> clean_text (py_str_nat m)).
    { intros m Hm. destruct (py_str_nat_spec m Hm) as (H & _). apply Forall_forall. intros c Hc. rewrite forallb_forall in H. specialize (H c Hc). unfold is_digit in H. unfold xml_char. lia. }
    unfold py_str_int. destruct (n <? 0) eqn:E; [|apply D; lia]. constructor; [splits; [reflexivity|discriminate..]|apply D; lia].
  Qed.
  Definition page_head (p : opage) : list (list Z * list Z) :=
    [(bs "id", py_str_int (pg_num p)); (bs "width", num_text (pg_width p)); (bs "height", num_text (pg_height p))].
  Lemma head_ok p : attrs_ok (page_head p) (page_head p).
  Proof.
    split; [|nodup]. unfold page_head. constructor; [apply clean_value; [name|apply id_clean]|]. repeat (constructor; [apply clean_value; [name|apply Hnum]|]). constructor.
  Qed.
  Lemma flat_yields l : Forall OkItem l -> Forall2 yields (flat_map (xml_item num_text val_text image_name descriptor) l) (flat_map item_trees l).
  Proof. induction 1 as [|i l Hi _ IH]; [constructor|]. cbn [flat_map]. apply Forall2_app; [apply items_yield; exact Hi|exact IH]. Qed.
  Lemma page_yields p : Forall OkItem (fst (pg_items p)) -> snd (pg_items p) = None ->
    yields (xml_page num_text val_text image_name descriptor p) (page_tree num_text val_text image_name descriptor p).
  Proof.
    intros H1 H2. unfold xml_page. rewrite H2. cbn [raises]. rewrite app_nil_r. apply yields_elem; [name|discriminate|apply head_ok|apply flat_yields; exact H1].
  Qed.
  Definition ok_page (p : opage) : Prop := Forall OkItem (fst (pg_items p)) /\ snd (pg_items p) = None.
  Lemma pages_yield ps : Forall ok_page ps -> Forall2 yields (map (xml_page num_text val_text image_name descriptor) ps) (map (page_tree num_text val_text image_name descriptor) ps).
  Proof. induction 1 as [|p ps [H1 H2] _ IH]; constructor; [apply page_yields; assumption|exact IH]. Qed.

  (* C78. The XML file of a document is its declaration and one element, with the pages and items of the document in order *)
  Theorem C78_xml_partial codec ps : Forall ok_page ps ->
    exists body t, convert_to_xml num_text val_text image_name descriptor codec (ps, None) = (xml_prolog codec ++ body, false) /\
      xml_document body = Some t /\ Like (pages_tree num_text val_text image_name descriptor ps) t.
  Proof.
    intros H. assert (Y : yields (xml_calls num_text val_text image_name descriptor (ps, None)) (pages_tree num_text val_text image_name descriptor ps)).
    { unfold xml_calls. cbn [fst snd raises]. rewrite app_nil_r. apply yields_elem; [name|discriminate|split; [constructor|constructor]|apply pages_yield; exact H]. }
    destruct Y as [YG YS]. destruct (C54_wellformed_partial _ YG) as (F & t & D & S). unfold convert_to_xml, xml_file.
    destruct (xrender_list 0 _) as [body raised]. cbn [fst snd] in *. subst raised. exists body, t. splits; [reflexivity|exact D|apply YS; exact S].
  Qed.
  (* Refuted for every document whose iteration ends with an exception: the elements open at that point are never closed *)
  Theorem C78_exception_refuted codec ps e : Forall ok_page ps ->
    (exists err, e = ([], Some err)) \/ (exists p rest err x, e = (p :: rest, err) /\ Forall OkItem (fst (pg_items p)) /\ snd (pg_items p) = Some x) ->
    exists body, convert_to_xml num_text val_text image_name descriptor codec (ps ++ fst e, snd e) = (xml_prolog codec ++ body, true) /\ xml_document body = None.
  Proof.
    intros H He. destruct (yields_list _ _ (pages_yield ps H)) as [HG _].
    assert (C : cut (fun level => xrender_list level (map (xml_page num_text val_text image_name descriptor) (ps ++ fst e) ++ raises (snd e)))).
    { rewrite map_app, <- app_assoc. destruct He as [(err & ->)|(p & rest & err & x & -> & Hp & Hx)]; cbn [fst snd map app].
      - apply (cut_list _ CRaise []); [exact HG|apply cut_raise].
      - apply cut_list; [exact HG|]. intros level w n a k st Hw. unfold xml_page. rewrite Hx. cbn [raises].
        destruct (cut_elem (bs "page") (page_head p) false false (flat_map (xml_item num_text val_text image_name descriptor) (fst (pg_items p)) ++ [CRaise]) ltac:(name)
          (attrs_good _ _ (head_ok p))) with (level := level) (w := w) (n := n) (a := a) (k := k) (st := st) as (w' & f' & st' & A & B & L); [|exact Hw|].
        + apply cut_list; [apply (yields_list _ _ (flat_yields _ Hp))|apply cut_raise].
        + exists w', f', st'. splits; [exact A|exact B|lia]. }
    destruct (cut_elem (bs "pages") [] false false _ ltac:(name) ltac:(split; constructor) C 0%nat [] [] [] [] [] eq_refl) as (w' & f' & st' & A & B & L).
    unfold convert_to_xml, xml_file, xml_calls. cbn [fst snd] in *. cbn [xrender_list]. unfold xml_document, xml_read.
    destruct (xrender 0 _) as [body raised]. cbn [fst snd] in *. subst raised. exists body. split; [reflexivity|]. rewrite B. destruct st'; [cbn in L; lia|reflexivity].
  Qed.
End file.

(* ---------- cases ---------- *)
Definition nt (q : num) : list Z := if qeqb q (qz 0) then bs "0" else bs "1.5".
Lemma nt_clean q : clean_text (nt q).
Proof. unfold nt. destruct (qeqb q (qz 0)); repeat (constructor; [splits; [reflexivity|discriminate..]|]); constructor. Qed.
Definition vt (o : obj) : list Z := match o with OName n => n | _ => bs "0.25" end.
Definition b0 : bbox := mkBox (qz 0) (qz 0) (qz 1) (qz 1).
Definition red : color := mkColor (Some (mkCs (OName (bs "DeviceRGB")) (OInt 3))) [OInt 1; OName (bs "a&b")].
Definition cb0 : charblock := mkCB [(bs "<", b0); (bs " ", b0)] b0 red t0.
Definition desc0 : tstate -> list (list Z * list Z) :=
  fun _ => [(bs "Type", bs "FontDescriptor"); (bs "FontName", bs "Arial"); (bs "FontFile2", bs "x"); (bs "StemV", bs "80")].
Definition page0 : opage := mkPage 3 (qz 1) (qz 1)
  ([IXObj ONull b0 [IText (mkTB (Some b0) [cb0]); INone]; ICurve CCurve (OInt 1) [SMove (qz 0, qz 1); SClose] b0 red red false; IImage ONull b0], None).
Ltac clean := repeat (constructor; [splits; [reflexivity|discriminate..]|]); constructor.
Ltac line := repeat (constructor; [split; [reflexivity|discriminate]|]); constructor.
Lemma red_ok : ok_color vt red.
Proof. split; [intros n [= <-]; line|]. constructor; [line|]. constructor; [line|constructor]. Qed.
Lemma page0_ok : ok_page nt vt (fun _ => bs "img&1") desc0 page0.
Proof.
  split; [|reflexivity]. constructor; [|constructor; [|constructor; [|constructor]]].
  - apply ok_form. constructor; [|constructor; [apply ok_none|constructor]]. apply ok_text. constructor; [|constructor]. unfold ok_block. splits.
    + constructor; [repeat (constructor; [reflexivity|]); constructor|]. constructor; [repeat (constructor; [reflexivity|]); constructor|constructor].
    + apply red_ok.
    + change (shown_entries (desc0 (cb_text cb0))) with [(bs "FontName", bs "Arial"); (bs "StemV", bs "80")].
      assert (W : forall k, match k with c :: r => letter c && forallb (fun c => letter c || is_digit c) r | [] => false end = true -> word k).
      { intros [|c r] H; [discriminate|]. apply andb_true_iff in H as [H1 H2]. split; [exact H1|]. apply Forall_forall. intros x Hx. rewrite forallb_forall in H2. specialize (H2 x Hx).
        apply orb_true_iff. exact H2. }
      constructor; [split; [apply W; reflexivity|clean]|]. constructor; [split; [apply W; reflexivity|clean]|constructor].
    + apply nodupb_sound. vm_compute. reflexivity.
  - apply ok_curve; apply red_ok.
  - apply ok_image. line.
Qed.
Example C78_case : exists t, xml_document (skipn 41 (fst (convert_to_xml nt vt (fun _ => bs "img&1") desc0 (bs "utf-8") ([page0], None)))) = Some t /\
  Like (pages_tree nt vt (fun _ => bs "img&1") desc0 [page0]) t.
Proof.
  destruct (C78_xml_partial nt vt (fun _ => bs "img&1") desc0 nt_clean (bs "utf-8") [page0]) as (body & t & E & D & L).
  - constructor; [apply page0_ok|constructor].
  - exists t. rewrite E. cbn [fst]. split; [|exact L]. rewrite skipn_app. rewrite (skipn_all2 (xml_prolog (bs "utf-8"))) by (vm_compute; lia). exact D.
Qed.
(* Refuted for font descriptors whose values need escaping: str() of an indirect object, as for a CIDSet, has a < *)
Theorem C78_descriptor_refuted : exists descriptor p, snd (pg_items p) = None /\
  forall codec, exists body, convert_to_xml nt vt (fun _ => []) descriptor codec ([p], None) = (xml_prolog codec ++ body, false) /\ xml_document body = None.
Proof.
  exists (fun _ => [(bs "CIDSet", bs "<PDFObjRef:12>")]), (mkPage 1 (qz 1) (qz 1) ([IText (mkTB (Some b0) [cb0])], None)). split; [reflexivity|].
  intros codec. eexists. split; [unfold convert_to_xml, xml_file; destruct (xrender_list 0 _) as [t r] eqn:E; vm_compute in E; injection E as <- <-; reflexivity|]. vm_compute. reflexivity.
Qed.
