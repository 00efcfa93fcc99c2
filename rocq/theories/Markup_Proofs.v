From Verif Require Export Markup_Model Markup_Spec.
From Coq Require Import String.
Open Scope Z_scope.
Import ListNotations.

(* ---------- decimal numbers ---------- *)
Lemma dec_digits_spec k : forall n acc, 0 <= n < 2 ^ Z.of_nat k -> (0 < k)%nat ->
  exists ds, dec_digits k n acc = ds ++ acc /\ forallb is_digit ds = true /\ ds <> [] /\
    decimal_value ds = n /\ (forall d r, ds = d :: r -> d = 48 -> r = []).
Proof.
  induction k as [|k IH]; intros n acc Hn Hk; [lia|].
  cbn [dec_digits]. cbv zeta.
  assert (Hm : 0 <= n mod 10 < 10) by (apply Z.mod_pos_bound; lia).
  destruct (n <? 10) eqn:E.
  - exists [48 + n mod 10]. assert (n mod 10 = n) by (apply Z.mod_small; lia). splits.
    + reflexivity.
    + cbn. unfold is_digit. lia.
    + discriminate.
    + unfold decimal_value. cbn. lia.
    + intros d r [= <- <-] _. reflexivity.
  - assert (Hd : n = 10 * (n / 10) + n mod 10) by (apply Z.div_mod; lia).
    assert (Hk' : (0 < k)%nat).
    { destruct k; [|lia]. cbn in Hn. lia. }
    rewrite Nat2Z.inj_succ, Z.pow_succ_r in Hn by lia.
    destruct (IH (n / 10) ((48 + n mod 10) :: acc)) as (ds & E1 & E2 & E3 & E4 & E5); [lia|lia|].
    exists (ds ++ [48 + n mod 10]). splits.
    + rewrite E1, <- app_assoc. reflexivity.
    + rewrite forallb_app, E2. cbn. unfold is_digit. lia.
    + destruct ds; discriminate.
    + unfold decimal_value in *. rewrite fold_left_app, E4. cbn. lia.
    + intros d r E' E''. destruct ds as [|d' ds]; [congruence|]. injection E' as -> <-.
      rewrite (E5 d ds eq_refl E'') in E4. subst d. unfold decimal_value in E4. cbn in E4. lia.
Qed.
Lemma py_str_nat_spec n : 0 <= n ->
  forallb is_digit (py_str_nat n) = true /\ py_str_nat n <> [] /\ decimal_value (py_str_nat n) = n /\
  (forall d r, py_str_nat n = d :: r -> d = 48 -> r = []).
Proof.
  intro Hn. unfold py_str_nat.
  destruct (dec_digits_spec (S (Z.to_nat (Z.log2 n))) n []) as (ds & E1 & E2 & E3 & E4 & E5); [|lia|].
  - rewrite Nat2Z.inj_succ, Z2Nat.id by apply Z.log2_nonneg.
    destruct (Z.eq_dec n 0) as [->|H0]; [cbn; lia|]. pose proof (Z.log2_spec n ltac:(lia)). lia.
  - rewrite app_nil_r in E1. rewrite E1. auto.
Qed.

(* ---------- enc ---------- *)
Lemma replace1_app c r x y : replace1 c r (x ++ y) = replace1 c r x ++ replace1 c r y.
Proof. unfold replace1. apply flat_map_app. Qed.
Lemma replace1_cons c r a x : replace1 c r (a :: x) = replace1 c r [a] ++ replace1 c r x.
Proof. apply (replace1_app c r [a] x). Qed.
Lemma replace1_one k r c : replace1 k r [c] = if c =? k then r else [c].
Proof. unfold replace1. cbn [flat_map]. apply app_nil_r. Qed.
Lemma charref_app x y : charref_ascii (x ++ y) = charref_ascii x ++ charref_ascii y.
Proof. unfold charref_ascii. apply flat_map_app. Qed.

Lemma enc_cons c x a : enc (Str (c :: x)) a = enc (Str [c]) a ++ enc (Str x) a.
Proof.
  cbn [enc]. cbv zeta. rewrite (replace1_cons 38), !replace1_app.
  destruct a; [apply charref_app|reflexivity].
Qed.
Lemma sax_cons c x : sax_escape (c :: x) = sax_escape [c] ++ sax_escape x.
Proof. unfold sax_escape. rewrite (replace1_cons 38), !replace1_app. reflexivity. Qed.

(* one character *)
Lemma enc_one c a : enc (Str [c]) a =
  if c =? 38 then bs "&amp;" else if c =? 62 then bs "&gt;" else if c =? 60 then bs "&lt;"
  else if c =? 34 then bs "&quot;"
  else if a && negb (c <? 128) then bs "&#" ++ py_str_nat c ++ bs ";" else [c].
Proof.
  cbn [enc]. cbv zeta. rewrite (replace1_one 38).
  destruct (c =? 38) eqn:E38; [destruct a; reflexivity|].
  rewrite (replace1_one 62). destruct (c =? 62) eqn:E62; [destruct a; reflexivity|].
  rewrite (replace1_one 60). destruct (c =? 60) eqn:E60; [destruct a; reflexivity|].
  rewrite (replace1_one 34). destruct (c =? 34) eqn:E34; [destruct a; reflexivity|].
  destruct a; [|reflexivity].
  unfold charref_ascii. cbn [flat_map]. destruct (c <? 128); cbn [negb andb]; rewrite app_nil_r; reflexivity.
Qed.
Lemma sax_one c : sax_escape [c] = if c =? 38 then bs "&amp;" else if c =? 62 then bs "&gt;" else if c =? 60 then bs "&lt;" else [c].
Proof.
  unfold sax_escape. rewrite (replace1_one 38).
  destruct (c =? 38) eqn:E38; [reflexivity|].
  rewrite (replace1_one 62). destruct (c =? 62) eqn:E62; [reflexivity|].
  rewrite (replace1_one 60). destruct (c =? 60) eqn:E60; reflexivity.
Qed.

Lemma expand_in_name y : forall n z, forallb (fun c => negb (c =? 59)) y = true ->
  expand_in (Some n) (y ++ 59 :: z) =
  match reference (n ++ y), expand_in None z with Some v, Some t => Some (v :: t) | _, _ => None end.
Proof.
  induction y as [|c y IH]; intros n z H.
  - cbn. rewrite app_nil_r. reflexivity.
  - cbn [forallb] in H. apply andb_true_iff in H as [H1 H2]. cbn [app expand_in].
    destruct (c =? 59); [discriminate|]. rewrite (IH (n ++ [c]) z H2), <- app_assoc. reflexivity.
Qed.
Lemma expand_ref n v z : reference n = Some v -> forallb (fun c => negb (c =? 59)) n = true ->
  expand (38 :: n ++ 59 :: z) = match expand z with Some t => Some (v :: t) | None => None end.
Proof.
  intros H1 H2. unfold expand. cbn [expand_in]. rewrite Z.eqb_refl, (expand_in_name n [] z H2).
  cbn [app]. rewrite H1. reflexivity.
Qed.
Lemma expand_plain c z : c <> 38 -> expand (c :: z) = match expand z with Some t => Some (c :: t) | None => None end.
Proof. intro H. unfold expand. cbn [expand_in]. apply Z.eqb_neq in H. rewrite H. reflexivity. Qed.

Lemma reference_digits ds : forallb is_digit ds = true -> ds <> [] -> reference (35 :: ds) = Some (decimal_value ds).
Proof.
  intros H Hn. destruct ds as [|d ds]; [congruence|].
  pose proof H as H'. cbn [forallb] in H. apply andb_true_iff in H as [Hd H].
  assert (Hneq : d <> 120) by (intros ->; discriminate Hd).
  unfold reference.
  replace (list_eqb (35 :: d :: ds) (bs "amp")) with false by reflexivity.
  replace (list_eqb (35 :: d :: ds) (bs "lt")) with false by reflexivity.
  replace (list_eqb (35 :: d :: ds) (bs "gt")) with false by reflexivity.
  replace (list_eqb (35 :: d :: ds) (bs "quot")) with false by reflexivity.
  replace (list_eqb (35 :: d :: ds) (bs "apos")) with false by reflexivity.
  cbv iota.
  assert (G : (if forallb is_digit (d :: ds) then Some (decimal_value (d :: ds)) else None)
              = Some (decimal_value (d :: ds))) by (rewrite H'; reflexivity).
  destruct d as [|p|p]; [exact G| |exact G].
  repeat match goal with
         | q : positive |- _ => first [exact G | exfalso; apply Hneq; reflexivity | destruct q]
         | _ => first [exact G | exfalso; apply Hneq; reflexivity]
         end.
Qed.
Lemma digits_no_semi ds : forallb is_digit ds = true -> forallb (fun c => negb (c =? 59)) ds = true.
Proof.
  rewrite !forallb_forall. intros H x Hx. specialize (H x Hx). unfold is_digit in H. lia.
Qed.

Lemma expand_enc_one c a z : 0 <= c ->
  expand (enc (Str [c]) a ++ z) = match expand z with Some t => Some (c :: t) | None => None end.
Proof.
  intro Hc. rewrite enc_one.
  destruct (Z.eqb_spec c 38) as [->|H38]; [exact (expand_ref (bs "amp") 38 z eq_refl eq_refl)|].
  destruct (Z.eqb_spec c 62) as [->|H62]; [exact (expand_ref (bs "gt") 62 z eq_refl eq_refl)|].
  destruct (Z.eqb_spec c 60) as [->|H60]; [exact (expand_ref (bs "lt") 60 z eq_refl eq_refl)|].
  destruct (Z.eqb_spec c 34) as [->|H34]; [exact (expand_ref (bs "quot") 34 z eq_refl eq_refl)|].
  destruct (a && negb (c <? 128)).
  - destruct (py_str_nat_spec c Hc) as (D1 & D2 & D3 & _).
    replace ((bs "&#" ++ py_str_nat c ++ bs ";") ++ z) with (38 :: (35 :: py_str_nat c) ++ 59 :: z)
      by (cbn; rewrite <- app_assoc; reflexivity).
    rewrite (expand_ref _ c).
    + reflexivity.
    + rewrite <- D3 at 2. apply reference_digits; assumption.
    + cbn [forallb]. rewrite digits_no_semi by assumption. reflexivity.
  - apply (expand_plain c z H38).
Qed.
Lemma expand_sax_one c z :
  expand (sax_escape [c] ++ z) = match expand z with Some t => Some (c :: t) | None => None end.
Proof.
  rewrite sax_one.
  destruct (Z.eqb_spec c 38) as [->|H38]; [exact (expand_ref (bs "amp") 38 z eq_refl eq_refl)|].
  destruct (Z.eqb_spec c 62) as [->|H62]; [exact (expand_ref (bs "gt") 62 z eq_refl eq_refl)|].
  destruct (Z.eqb_spec c 60) as [->|H60]; [exact (expand_ref (bs "lt") 60 z eq_refl eq_refl)|].
  apply (expand_plain c z H38).
Qed.

Lemma enc_expand x a : Forall (fun c => 0 <= c) x -> expand (enc (Str x) a) = Some x.
Proof.
  induction 1 as [|c x Hc _ IH]; [destruct a; reflexivity|].
  rewrite enc_cons, expand_enc_one, IH by assumption. reflexivity.
Qed.
Lemma sax_expand x : expand (sax_escape x) = Some x.
Proof. induction x as [|c x IH]; [reflexivity|]. rewrite sax_cons, expand_sax_one, IH. reflexivity. Qed.

Definition safe_char (c : Z) : Prop := c <> 60 /\ c <> 62 /\ c <> 34.
Lemma enc_safe x a : Forall (fun c => 0 <= c) x -> Forall safe_char (enc (Str x) a).
Proof.
  induction 1 as [|c x Hc _ IH]; [destruct a; constructor|].
  rewrite enc_cons. apply Forall_app; split; [|exact IH]. rewrite enc_one. unfold safe_char.
  destruct (Z.eqb_spec c 38); [repeat constructor; discriminate|].
  destruct (Z.eqb_spec c 62); [repeat constructor; discriminate|].
  destruct (Z.eqb_spec c 60); [repeat constructor; discriminate|].
  destruct (Z.eqb_spec c 34); [repeat constructor; discriminate|].
  destruct (a && negb (c <? 128)); [|repeat constructor; assumption].
  destruct (py_str_nat_spec c Hc) as (D1 & _).
  apply Forall_app; split; [repeat constructor; discriminate|].
  apply Forall_app; split; [|repeat constructor; discriminate].
  rewrite forallb_forall in D1. apply Forall_forall. intros y Hy. specialize (D1 y Hy). unfold is_digit in D1. lia.
Qed.
Lemma enc_ascii x : Forall (fun c => 0 <= c) x -> Forall (fun c => 0 <= c < 128) (enc (Str x) true).
Proof.
  induction 1 as [|c x Hc _ IH]; [constructor|].
  rewrite enc_cons. apply Forall_app; split; [|exact IH]. rewrite enc_one.
  destruct (Z.eqb_spec c 38); [repeat constructor; discriminate|].
  destruct (Z.eqb_spec c 62); [repeat constructor; discriminate|].
  destruct (Z.eqb_spec c 60); [repeat constructor; discriminate|].
  destruct (Z.eqb_spec c 34); [repeat constructor; discriminate|].
  cbn [andb]. destruct (c <? 128) eqn:E; cbn [negb].
  - repeat constructor; lia.
  - destruct (py_str_nat_spec c Hc) as (D1 & _).
    apply Forall_app; split; [repeat constructor; discriminate|].
    apply Forall_app; split; [|repeat constructor; discriminate].
    rewrite forallb_forall in D1. apply Forall_forall. intros y Hy. specialize (D1 y Hy). unfold is_digit in D1. lia.
Qed.

(* ---------- the XML reader on what the writer writes ---------- *)
Lemma xrun_app x : forall s y, xrun s (x ++ y) = match xrun s x with Some s' => xrun s' y | None => None end.
Proof.
  induction x as [|c x IH]; intros s y; [reflexivity|]. cbn [app xrun]. destruct (xstep s c); [apply IH|reflexivity].
Qed.
Lemma xrun_cons s c x : xrun s (c :: x) = match xstep s c with Some s' => xrun s' x | None => None end.
Proof. reflexivity. Qed.

Lemma name_start_char c : name_start c = true -> xml_char c = true /\ (c =? 47) = false /\ xml_white c = false /\ name_char c = true.
Proof. unfold name_char. intro H. rewrite H. unfold name_start, xml_char, xml_white in *. lia. Qed.
Lemma name_char_char c : name_char c = true -> xml_char c = true.
Proof. unfold name_char, name_start, xml_char, is_digit. lia. Qed.

Lemma run_name r : forall n st, forallb name_char r = true -> xrun (MName n, st) r = Some (MName (n ++ r), st).
Proof.
  induction r as [|c r IH]; intros n st H; [rewrite app_nil_r; reflexivity|].
  cbn [forallb] in H. apply andb_true_iff in H as [H1 H2].
  rewrite xrun_cons. unfold xstep. rewrite (name_char_char c H1), H1. cbn [negb].
  rewrite (IH _ _ H2), <- app_assoc. reflexivity.
Qed.
Lemma run_attr_name r : forall n a an st, forallb name_char r = true -> xrun (MAttr n a an, st) r = Some (MAttr n a (an ++ r), st).
Proof.
  induction r as [|c r IH]; intros n a an st H; [rewrite app_nil_r; reflexivity|].
  cbn [forallb] in H. apply andb_true_iff in H as [H1 H2].
  rewrite xrun_cons. unfold xstep. rewrite (name_char_char c H1), H1. cbn [negb].
  rewrite (IH _ _ _ _ H2), <- app_assoc. reflexivity.
Qed.
Lemma run_end_name r : forall n f g st, forallb name_char r = true ->
  xrun (MEndName n, f :: g :: st) r = Some (MEndName (n ++ r), f :: g :: st).
Proof.
  induction r as [|c r IH]; intros n [[fn fa] fk] g st H; [rewrite app_nil_r; reflexivity|].
  cbn [forallb] in H. apply andb_true_iff in H as [H1 H2].
  rewrite xrun_cons. unfold xstep. rewrite (name_char_char c H1), H1. cbn [negb].
  rewrite (IH _ _ _ _ H2), <- app_assoc. reflexivity.
Qed.
Lemma run_value v : forall n a an w st, Forall (fun c => xml_char c = true /\ c <> 60) v ->
  Forall (fun c => c <> 34 /\ c <> 10) v -> xrun (MVal n a an w, st) v = Some (MVal n a an (w ++ v), st).
Proof.
  induction v as [|c v IH]; intros n a an w st H1 H2; [rewrite app_nil_r; reflexivity|].
  inversion H1 as [|? ? [C1 C2] H1']; subst. inversion H2 as [|? ? [C3 C4] H2']; subst.
  rewrite xrun_cons. unfold xstep. rewrite C1. cbn [negb].
  replace (c =? 34) with false by lia. replace ((c =? 60) || (c =? 10)) with false by lia.
  rewrite (IH _ _ _ _ _ H1' H2'), <- app_assoc. reflexivity.
Qed.
Lemma run_text t : forall u f st, Forall (fun c => xml_char c = true /\ c <> 60) t -> Forall (fun c => c <> 62) t ->
  xrun (MText u, f :: st) t = Some (MText (u ++ t), f :: st).
Proof.
  induction t as [|c t IH]; intros u f st H1 H2; [rewrite app_nil_r; reflexivity|].
  inversion H1 as [|? ? [C1 C2] H1']; subst. inversion H2 as [|? ? C3 H2']; subst.
  rewrite xrun_cons. unfold xstep. rewrite C1. cbn [negb].
  replace (c =? 60) with false by lia. replace (c =? 62) with false by lia.
  rewrite (IH _ _ _ H1' H2'), <- app_assoc. reflexivity.
Qed.
Definition white (x : list Z) : Prop := forallb xml_white x = true.
Lemma white_app x y : white x -> white y -> white (x ++ y).
Proof. unfold white. rewrite forallb_app. intros -> ->. reflexivity. Qed.
Lemma white_times n d : white d -> white (times n d).
Proof. intro H. induction n; cbn [times]; [reflexivity|apply white_app; assumption]. Qed.
Lemma run_white w u f st : white w -> xrun (MText u, f :: st) w = Some (MText (u ++ w), f :: st).
Proof.
  unfold white. rewrite forallb_forall. intro H. apply run_text; apply Forall_forall; intros c Hc; specialize (H c Hc);
    unfold xml_white, xml_char in *; lia.
Qed.
Lemma expand_white w : white w -> expand w = Some w.
Proof.
  induction w as [|c w IH]; [reflexivity|]. unfold white. cbn [forallb]. intro H. apply andb_true_iff in H as [H1 H2].
  rewrite expand_plain, (IH H2); [reflexivity|]. unfold xml_white in H1. lia.
Qed.
Lemma white_chars w : white w -> forallb xml_char w = true.
Proof.
  unfold white. rewrite !forallb_forall. intros H c Hc. specialize (H c Hc). unfold xml_white, xml_char in *. lia.
Qed.
Lemma flush_white w n a k : white w -> flush w (n, a, k) = Some (n, a, k ++ text_node w).
Proof.
  intro H. destruct w as [|c w]; [cbn; rewrite app_nil_r; reflexivity|].
  unfold flush. rewrite (expand_white _ H), (white_chars _ H). reflexivity.
Qed.

(* attributes *)
Definition one_attr (x : list Z * list Z) : list Z := fst x ++ bs "=" ++ [34] ++ snd x ++ [34].
Lemma run_one_attr n a x y st :
  is_name (fst x) -> escaped (snd x) -> Forall (fun c => c <> 34 /\ c <> 10) (snd x) ->
  has_attr (fst x) a = false -> attr_shows x y ->
  xrun (MTag n a, st) (one_attr x) = Some (MAfter n (a ++ [y]), st).
Proof.
  destruct x as [an v]; destruct y as [an' v']; unfold attr_shows; cbn [fst snd]. intros Hn [Hv1 (v'' & Hv2 & Hv3)] Hv4 Ha [<- Hs].
  rewrite Hs in Hv2. injection Hv2 as <-.
  destruct an as [|c r]; [destruct Hn|]. destruct Hn as [Hc Hr].
  destruct (name_start_char c Hc) as (C1 & C2 & C3 & C4).
  unfold one_attr. cbn [fst snd app]. rewrite xrun_cons. unfold xstep. rewrite C1. cbn [negb]. rewrite C3, Hc.
  rewrite xrun_app, (run_attr_name r _ _ _ _ Hr). cbn [app].
  change (bs "=" ++ 34 :: v ++ [34]) with (61 :: 34 :: v ++ [34]). rewrite xrun_cons.
  change (xstep (MAttr n a (c :: r), st) _) with (Some (MEq n a (c :: r), st)). cbv iota.
  rewrite xrun_cons. change (xstep (MEq n a (c :: r), st) 34) with (Some (MVal n a (c :: r) [], st)). cbv iota.
  rewrite xrun_app, (run_value v _ _ _ _ _ Hv1 Hv4). cbn [app].
  rewrite xrun_cons. unfold xstep. cbn [negb xml_char Z.eqb Z.leb Z.compare Pos.compare Pos.compare_cont andb orb Pos.eqb].
  unfold add_attr. rewrite Ha, Hs, Hv3. reflexivity.
Qed.

Lemma has_attr_app n a b : has_attr n (a ++ b) = has_attr n a || has_attr n b.
Proof. unfold has_attr. apply existsb_app. Qed.
Lemma attr_text_cons x y r : attr_text (x :: y :: r) = one_attr x ++ 32 :: attr_text (y :: r).
Proof. reflexivity. Qed.
Lemma run_attrs attrs : forall attrs' n a st,
  good_attrs attrs -> Forall (fun x => has_attr (fst x) a = false) attrs -> Forall2 attr_shows attrs attrs' ->
  xrun (MTag n a, st) (attr_text attrs) = Some (match attrs with [] => MTag n a | _ => MAfter n (a ++ attrs') end, st).
Proof.
  induction attrs as [|x attrs IH]; intros attrs' n a st [G1 G2] Ha Hs; [reflexivity|].
  inversion Hs as [|? y ? ys Hxy Hs']; subst.
  inversion G2 as [|? ? (A1 & A2 & A3) G2']; subst. inversion Ha as [|? ? Hax Ha']; subst.
  cbn [map] in G1. inversion G1 as [|? ? Hni G1']; subst.
  destruct attrs as [|x2 attrs].
  - inversion Hs'; subst. change (attr_text [x]) with (one_attr x). apply run_one_attr; assumption.
  - rewrite attr_text_cons, xrun_app, (run_one_attr n a x y st A1 A2 A3 Hax Hxy).
    rewrite xrun_cons. change (xstep (MAfter n (a ++ [y]), st) 32) with (Some (MTag n (a ++ [y]), st)). cbv iota.
    rewrite (IH ys n (a ++ [y]) st).
    + rewrite <- app_assoc. reflexivity.
    + split; assumption.
    + apply Forall_forall. intros z Hz. rewrite has_attr_app. rewrite Forall_forall in Ha'. rewrite (Ha' z Hz).
      cbn [orb has_attr existsb]. rewrite orb_false_r. destruct Hxy as [Hxy _]. rewrite <- Hxy.
      apply not_true_is_false. intro E. apply list_eqb_eq in E. apply Hni. rewrite <- E. apply (in_map fst _ _ Hz).
    + assumption.
Qed.
Lemma good_shows attrs : good_attrs attrs -> exists attrs', Forall2 attr_shows attrs attrs'.
Proof.
  intros [_ H]. induction H as [|[n v] l [_ [[_ (y & Hy & _)] _]] _ [l' IH]]; [exists []; constructor|].
  exists ((n, y) :: l'). constructor; [split; [reflexivity|exact Hy]|exact IH].
Qed.

(* a start tag, up to its last characters *)
Lemma run_head w n a k st tag attrs attrs' :
  white w -> is_name tag -> good_attrs attrs -> Forall2 attr_shows attrs attrs' ->
  xrun (MText w, (n, a, k) :: st) (bs "<" ++ tag ++ bs " " ++ attr_text attrs) =
  Some (match attrs with [] => MTag tag [] | _ => MAfter tag attrs' end, (n, a, k ++ text_node w) :: st).
Proof.
  intros Hw Hn Hg Hs. change (bs "<") with [60]. change (bs " ") with [32]. cbn [app].
  rewrite xrun_cons. unfold xstep. change (negb (xml_char 60)) with false. cbv iota.
  rewrite Z.eqb_refl, (flush_white w n a k Hw).
  destruct tag as [|c r]; [destruct Hn|]. destruct Hn as [Hc Hr].
  destruct (name_start_char c Hc) as (C1 & C2 & C3 & C4).
  cbn [app]. rewrite xrun_cons. unfold xstep. rewrite C1, C2, Hc. cbn [negb].
  rewrite xrun_app, (run_name r _ _ Hr). cbn [app].
  rewrite xrun_cons. set (st' := (n, a, k ++ text_node w) :: st : list frame).
  replace (xstep _ 32) with (Some (MTag (c :: r) [], st')) by reflexivity. cbv iota.
  rewrite (run_attrs attrs attrs' (c :: r) [] st' Hg); [reflexivity| |exact Hs].
  apply Forall_forall. reflexivity.
Qed.
Lemma run_open w n a k st tag attrs attrs' :
  white w -> is_name tag -> good_attrs attrs -> Forall2 attr_shows attrs attrs' ->
  xrun (MText w, (n, a, k) :: st) (bs "<" ++ tag ++ bs " " ++ attr_text attrs ++ bs ">") =
  Some (MText [], (tag, attrs', []) :: (n, a, k ++ text_node w) :: st).
Proof.
  intros Hw Hn Hg Hs.
  replace (bs "<" ++ tag ++ bs " " ++ attr_text attrs ++ bs ">") with ((bs "<" ++ tag ++ bs " " ++ attr_text attrs) ++ [62])
    by (rewrite <- !app_assoc; reflexivity).
  rewrite xrun_app, (run_head w n a k st tag attrs attrs' Hw Hn Hg Hs).
  destruct attrs; [inversion Hs; subst|]; reflexivity.
Qed.
Lemma run_single w n a k st tag attrs attrs' :
  white w -> is_name tag -> good_attrs attrs -> Forall2 attr_shows attrs attrs' ->
  xrun (MText w, (n, a, k) :: st) (bs "<" ++ tag ++ bs " " ++ attr_text attrs ++ bs " />") =
  Some (MText [], (n, a, k ++ text_node w ++ [TElem tag attrs' []]) :: st).
Proof.
  intros Hw Hn Hg Hs.
  replace (bs "<" ++ tag ++ bs " " ++ attr_text attrs ++ bs " />") with ((bs "<" ++ tag ++ bs " " ++ attr_text attrs) ++ [32; 47; 62])
    by (rewrite <- !app_assoc; reflexivity).
  rewrite xrun_app, (run_head w n a k st tag attrs attrs' Hw Hn Hg Hs).
  rewrite app_assoc. destruct attrs; [inversion Hs; subst|]; reflexivity.
Qed.
(* an end tag, after the text u whose expansion is u' *)
Lemma run_close u u' fn fa fk n a k st :
  is_name fn -> flush u (fn, fa, fk) = Some (fn, fa, fk ++ text_node u') ->
  xrun (MText u, (fn, fa, fk) :: (n, a, k) :: st) (bs "</" ++ fn ++ bs ">") =
  Some (MText [], (n, a, k ++ [TElem fn fa (fk ++ text_node u')]) :: st).
Proof.
  intros Hn Hf. change (bs "</") with [60; 47]. change (bs ">") with [62]. cbn [app].
  rewrite xrun_cons. unfold xstep. change (negb (xml_char 60)) with false. cbv iota.
  rewrite Z.eqb_refl, Hf. rewrite xrun_cons. set (st' := (fn, fa, fk ++ text_node u') :: (n, a, k) :: st : list frame).
  replace (xstep _ 47) with (Some (MEnd, st')) by reflexivity. cbv iota.
  destruct fn as [|c r]; [destruct Hn|]. destruct Hn as [Hc Hr].
  destruct (name_start_char c Hc) as (C1 & C2 & C3 & C4).
  cbn [app]. rewrite xrun_cons. unfold xstep. rewrite C1, Hc. cbn [negb].
  rewrite xrun_app. unfold st'. rewrite (run_end_name r _ _ _ _ Hr). cbn [app].
  rewrite xrun_cons. unfold xstep. change (negb (xml_char 62)) with false. change (name_char 62) with false. cbv iota.
  rewrite list_eqb_refl. reflexivity.
Qed.

(* the texts, without the exception flag *)
Lemma xrender_elm level tag attrs nle noadd inside :
  xrender level (CElm tag attrs nle noadd inside) =
  let '(t, raised) := xrender_list (S level) inside in
  let head := xwrite level (bs "<" ++ tag ++ bs " " ++ attr_text attrs ++ bs ">") (if noadd then [] else nl) sp in
  if raised then (head ++ t, true)
  else (head ++ t ++ xwrite level (bs "</" ++ tag ++ bs ">") (if nle then [] else nl) (if noadd then [] else sp), false).
Proof.
  cbn [xrender]. cbv zeta.
  match goal with |- match ?G inside with _ => _ end = _ => assert (E : forall l, G l = xrender_list (S level) l) end.
  { induction l as [|c r IH]; [reflexivity|]. cbn [xrender_list]. rewrite <- IH. reflexivity. }
  rewrite E. reflexivity.
Qed.

Lemma holds_app cs1 ks1 cs2 ks2 : Holds cs1 ks1 -> Holds cs2 ks2 -> Holds (cs1 ++ cs2) (ks1 ++ ks2).
Proof. induction 1; intro H2; cbn [app]; [assumption|apply Holds_white; auto|apply Holds_cons; auto]. Qed.
Lemma holds_text w : white w -> Holds [] (text_node w).
Proof. intro H. destruct w; [constructor|]. apply Holds_white; [exact H|constructor]. Qed.

Definition renders (c : xcall) : Prop := forall level w n a k st, white w ->
  exists ks w', white w' /\ Holds [c] ks /\ snd (xrender level c) = false /\
    xrun (MText w, (n, a, k) :: st) (fst (xrender level c)) = Some (MText w', (n, a, k ++ ks) :: st).
Lemma renders_list l : Forall renders l -> forall level w n a k st, white w ->
  exists ks w', white w' /\ Holds l ks /\ snd (xrender_list level l) = false /\
    xrun (MText w, (n, a, k) :: st) (fst (xrender_list level l)) = Some (MText w', (n, a, k ++ ks) :: st).
Proof.
  induction 1 as [|c l Hc _ IH]; intros level w n a k st Hw.
  - exists [], w. cbn [xrender_list fst snd xrun]. rewrite app_nil_r. repeat split; [assumption|constructor].
  - destruct (Hc level w n a k st Hw) as (ks1 & w1 & W1 & H1 & F1 & R1).
    cbn [xrender_list]. destruct (xrender level c) as [t raised]. cbn [fst snd] in *. subst raised.
    destruct (IH level w1 n a (k ++ ks1) st W1) as (ks2 & w2 & W2 & H2 & F2 & R2).
    destruct (xrender_list level l) as [t2 raised2]. cbn [fst snd] in *. subst raised2.
    exists (ks1 ++ ks2), w2. splits; [exact W2|apply (holds_app [c] ks1 l ks2 H1 H2)|reflexivity|].
    rewrite xrun_app, R1, R2, app_assoc. reflexivity.
Qed.
Lemma white_nl : white nl. Proof. reflexivity. Qed.
Lemma white_sp : white sp. Proof. reflexivity. Qed.
Lemma white_if (b : bool) x : white x -> white (if b then [] else x).
Proof. destruct b; [reflexivity|auto]. Qed.

Section xcall_ind2.
  Variable P : xcall -> Prop.
  Hypothesis HE : forall tag attrs b1 b2 l, Forall P l -> P (CElm tag attrs b1 b2 l).
  Hypothesis HS : forall tag attrs, P (CSingle tag attrs).
  Hypothesis HT : forall a b c, P (CText a b c).
  Hypothesis HR : P CRaise.
  Fixpoint xcall_ind2 (c : xcall) : P c :=
    match c with
    | CElm tag attrs b1 b2 l =>
        HE tag attrs b1 b2 l ((fix go (l : list xcall) : Forall P l :=
                                 match l with [] => Forall_nil P | c :: r => Forall_cons c (xcall_ind2 c) (go r) end) l)
    | CSingle tag attrs => HS tag attrs
    | CText a b c => HT a b c
    | CRaise => HR
    end.
End xcall_ind2.

Lemma expand_app x y t u : expand x = Some t -> expand y = Some u -> expand (x ++ y) = Some (t ++ u).
Proof.
  unfold expand. intros H1 H2. assert (G : forall x m t, expand_in m x = Some t -> expand_in m (x ++ y) = Some (t ++ u)); [|exact (G x None t H1)].
  clear x t H1. induction x as [|c x IH]; intros m t H; cbn [expand_in app] in *.
  - destruct m; [discriminate|]. injection H as <-. exact H2.
  - destruct m as [m|].
    + destruct (c =? 59); [|apply IH; exact H]. destruct (reference m) as [v|]; [|discriminate]. destruct (expand_in None x) as [t'|] eqn:E; [|discriminate]. injection H as <-. rewrite (IH _ _ E). reflexivity.
    + destruct (c =? 38); [apply IH; exact H|]. destruct (expand_in None x) as [t'|] eqn:E; [|discriminate]. injection H as <-. rewrite (IH _ _ E). reflexivity.
Qed.
Lemma good_renders c : Good c -> renders c.
Proof.
  revert c. apply (xcall_ind2 (fun c => Good c -> renders c)).
  - intros tag attrs nle noadd l IH G.
    assert (Wl : white (if noadd then [] else nl)) by (apply white_if; reflexivity).
    assert (Wl' : white (if nle then [] else nl)) by (apply white_if; reflexivity).
    assert (Wd : white (if noadd then [] else sp)) by (apply white_if; reflexivity).
    inversion G as [? ? ? ? ? Hn Ha Hin| ? ? ? t Hn Ha [Ht1 (t' & Ht2 & Ht3)] Ht4| ? ? ? t Hn Ha [Ht1 (t' & Ht2 & Ht3)] Ht4|]; subst.
    + assert (Hl : Forall renders l) by (apply Forall_forall; intros x Hx; rewrite Forall_forall in IH, Hin; auto).
      destruct (good_shows attrs Ha) as (attrs' & Hs).
      intros level w n a k st Hw. rewrite xrender_elm.
      set (w0 := w ++ times level sp).
      assert (W0 : white w0) by (apply white_app; [assumption|apply white_times; reflexivity]).
      destruct (renders_list l Hl (S level) (if noadd then [] else nl) tag attrs' [] ((n, a, k ++ text_node w0) :: st) Wl)
        as (ks & w1 & W1 & H1 & F1 & R1).
      destruct (xrender_list (S level) l) as [t raised]. cbn [fst snd] in *. subst raised. cbv zeta.
      set (w2 := w1 ++ times level (if noadd then [] else sp)).
      assert (W2 : white w2) by (apply white_app; [assumption|apply white_times; assumption]).
      exists (text_node w0 ++ [TElem tag attrs' (ks ++ text_node w2)]), (if nle then [] else nl).
      splits; [exact Wl'| |reflexivity|].
      { apply (holds_app [] _ [CElm tag attrs nle noadd l]); [apply holds_text; exact W0|].
        apply Holds_cons; [|constructor]. apply Shows_elem; [exact Hs|].
        rewrite <- (app_nil_r l). apply holds_app; [exact H1|apply holds_text; exact W2]. }
      cbn [fst]. unfold xwrite. rewrite <- !app_assoc.
      rewrite xrun_app, (run_white _ w _ _ (white_times level sp white_sp)). fold w0.
      replace (bs "<" ++ tag ++ bs " " ++ attr_text attrs ++ bs ">" ++ (if noadd then [] else nl) ++ t ++
        times level (if noadd then [] else sp) ++ bs "</" ++ tag ++ bs ">" ++ (if nle then [] else nl))
        with ((bs "<" ++ tag ++ bs " " ++ attr_text attrs ++ bs ">") ++ (if noadd then [] else nl) ++ t ++
        times level (if noadd then [] else sp) ++ (bs "</" ++ tag ++ bs ">") ++ (if nle then [] else nl))
        by (rewrite <- !app_assoc; reflexivity).
      rewrite xrun_app, (run_open w0 n a k st tag attrs attrs' W0 Hn Ha Hs).
      rewrite xrun_app, (run_white _ [] _ _ Wl). cbn [app].
      rewrite xrun_app, R1. cbn [app].
      rewrite xrun_app, (run_white _ w1 _ _ (white_times level _ Wd)). fold w2.
      rewrite xrun_app, (run_close w2 w2 tag attrs' ks n a (k ++ text_node w0) st Hn (flush_white w2 tag attrs' ks W2)).
      rewrite (run_white _ [] _ _ Wl'), <- app_assoc. reflexivity.
    + destruct (good_shows attrs Ha) as (attrs' & Hs).
      intros level w n a k st Hw. rewrite xrender_elm. cbn [xrender_list xrender fst snd]. cbv zeta.
      set (w0 := w ++ times level sp).
      assert (W0 : white w0) by (apply white_app; [assumption|apply white_times; reflexivity]).
      exists (text_node w0 ++ [TElem tag attrs' (text_node t')]), (if nle then [] else nl).
      splits; [exact Wl'| |reflexivity|].
      { apply (holds_app [] _ [CElm tag attrs nle true [CText t [] []]]); [apply holds_text; exact W0|].
        apply Holds_cons; [|constructor]. apply Shows_text; assumption. }
      cbn [fst]. unfold xwrite. rewrite !app_nil_r.
      assert (T : forall m, times m [] = []) by (induction m; [reflexivity|assumption]). rewrite !T. cbn [app].
      rewrite <- app_assoc.
      rewrite xrun_app, (run_white _ w _ _ (white_times level sp white_sp)). fold w0.
      rewrite xrun_app, (run_open w0 n a k st tag attrs attrs' W0 Hn Ha Hs).
      rewrite xrun_app, (run_text t [] _ _ Ht1 Ht4). cbn [app].
      rewrite xrun_app, (run_close t t' tag attrs' [] n a (k ++ text_node w0) st Hn).
      2: { destruct t as [|c t]; [injection Ht2 as <-; reflexivity|]. unfold flush. rewrite Ht2, Ht3.
           destruct t' as [|c' t']; [|reflexivity].
           exfalso. clear -Ht2. unfold expand in Ht2. cbn [expand_in] in Ht2. destruct (c =? 38).
           - assert (G : forall m, expand_in (Some m) t <> Some []); [|exact (G [] Ht2)]. clear. induction t as [|d t IH]; intros m E; [discriminate|].
             cbn [expand_in] in E. destruct (d =? 59); [|exact (IH _ E)].
             destruct (reference m); [|discriminate]. destruct (expand_in None t); discriminate.
           - destruct (expand_in None t); discriminate. }
      rewrite (run_white _ [] _ _ Wl'), <- app_assoc. reflexivity.
    + destruct (good_shows attrs Ha) as (attrs' & Hs).
      intros level w n a k st Hw. rewrite xrender_elm. cbn [xrender_list xrender fst snd]. cbv zeta.
      set (w0 := w ++ times level sp).
      assert (W0 : white w0) by (apply white_app; [assumption|apply white_times; reflexivity]).
      set (w1 := nl ++ times (S level) sp). set (w2 := nl ++ times level sp).
      assert (W1 : white w1) by (apply white_app; [reflexivity|apply white_times; reflexivity]).
      assert (W2 : white w2) by (apply white_app; [reflexivity|apply white_times; reflexivity]).
      exists (text_node w0 ++ [TElem tag attrs' [TText (w1 ++ t' ++ w2)]]), (if nle then [] else nl).
      splits; [exact Wl'| |reflexivity|].
      { apply (holds_app [] _ [CElm tag attrs nle false [CText t nl sp]]); [apply holds_text; exact W0|].
        apply Holds_cons; [|constructor]. apply Shows_line; assumption. }
      cbn [fst]. unfold xwrite. rewrite app_nil_r.
      replace ((times level sp ++ (bs "<" ++ tag ++ bs " " ++ attr_text attrs ++ bs ">") ++ nl) ++ (times (S level) sp ++ t ++ nl) ++ times level sp ++ (bs "</" ++ tag ++ bs ">") ++ (if nle then [] else nl))
        with (times level sp ++ (bs "<" ++ tag ++ bs " " ++ attr_text attrs ++ bs ">") ++ w1 ++ t ++ w2 ++ (bs "</" ++ tag ++ bs ">") ++ (if nle then [] else nl))
        by (unfold w1, w2; rewrite <- !app_assoc; reflexivity).
      rewrite xrun_app, (run_white _ w _ _ (white_times level sp white_sp)). fold w0.
      rewrite xrun_app, (run_open w0 n a k st tag attrs attrs' W0 Hn Ha Hs).
      rewrite xrun_app, (run_white _ [] _ _ W1). cbn [app].
      rewrite xrun_app, (run_text t w1 _ _ Ht1 Ht4).
      rewrite xrun_app, (run_white _ (w1 ++ t) _ _ W2).
      rewrite xrun_app, (run_close ((w1 ++ t) ++ w2) (w1 ++ t' ++ w2) tag attrs' [] n a (k ++ text_node w0) st Hn).
      2: { assert (E : expand ((w1 ++ t) ++ w2) = Some (w1 ++ t' ++ w2)).
           { rewrite <- app_assoc. apply expand_app; [apply expand_white, W1|]. apply expand_app; [exact Ht2|apply expand_white, W2]. }
           unfold flush. destruct ((w1 ++ t) ++ w2) as [|c r] eqn:EE; [unfold w1 in EE; discriminate EE|]. rewrite E.
           assert (X : forallb xml_char (w1 ++ t' ++ w2) = true) by (rewrite !forallb_app, Ht3, (white_chars _ W1), (white_chars _ W2); reflexivity).
           rewrite X. unfold put, text_node. destruct (w1 ++ t' ++ w2) eqn:F; [unfold w1 in F; discriminate F|reflexivity]. }
      rewrite (run_white _ [] _ _ Wl'), <- app_assoc. unfold text_node at 2. destruct (w1 ++ t' ++ w2) eqn:F; [unfold w1 in F; discriminate F|reflexivity].
  - intros tag attrs G. inversion G; subst. intros level w n a k st Hw.
    destruct (good_shows attrs) as (attrs' & Hs); [assumption|].
    set (w0 := w ++ times level sp).
    assert (W0 : white w0) by (apply white_app; [assumption|apply white_times; reflexivity]).
    exists (text_node w0 ++ [TElem tag attrs' []]), nl.
    splits; [reflexivity| |reflexivity|].
    { apply (holds_app [] _ [CSingle tag attrs]); [apply holds_text; exact W0|].
      apply Holds_cons; [|constructor]. apply Shows_single; assumption. }
    cbn [xrender fst]. unfold xwrite.
    rewrite xrun_app, (run_white _ w _ _ (white_times level sp white_sp)). fold w0.
    rewrite xrun_app, (run_single w0 n a k st tag attrs attrs'); try assumption.
    rewrite (run_white _ [] _ _ white_nl). reflexivity.
  - intros a b c G. inversion G.
  - intro G. inversion G.
Qed.

Lemma xml_read_good l : Forall Good l ->
  snd (xrender_list 0 l) = false /\ exists ks, xml_read (fst (xrender_list 0 l)) = Some ks /\ Holds l ks.
Proof.
  intro G. assert (R : Forall renders l) by (apply Forall_forall; intros x Hx; rewrite Forall_forall in G; apply good_renders; auto).
  destruct (renders_list l R 0%nat [] [] [] [] [] eq_refl) as (ks & w & W & H & F & E).
  split; [exact F|]. exists (ks ++ text_node w). unfold xml_read. rewrite E, (flush_white w [] [] _ W). cbn [app].
  split; [reflexivity|]. rewrite <- (app_nil_r l). apply holds_app; [exact H|apply holds_text; exact W].
Qed.
Lemma holds_document c ks : Holds [c] ks -> exists t, document ks = Some t /\ Shows c t.
Proof.
  intro H. remember [c] as l eqn:E. induction H as [|w cs ks Hw _ IH|c' t cs ks Hs Hk _]; [discriminate| |].
  - unfold document. cbn [filter]. rewrite Hw. cbn [negb]. exact (IH E).
  - injection E as -> ->. exists t. split; [|exact Hs]. unfold document. cbn [filter].
    assert (Ek : filter (fun t => negb (white_text t)) ks = []).
    { clear - Hk. remember [] as l eqn:E. induction Hk as [|w cs ks Hw _ IH|]; [reflexivity| |discriminate].
      cbn [filter]. rewrite Hw. exact (IH E). }
    rewrite Ek. inversion Hs; subst; reflexivity.
Qed.
Lemma xml_document_good c : Good c ->
  snd (xrender_list 0 [c]) = false /\ exists t, xml_document (fst (xrender_list 0 [c])) = Some t /\ Shows c t.
Proof.
  intro G. destruct (xml_read_good [c]) as (F & ks & E & H); [constructor; [assumption|constructor]|].
  split; [exact F|]. destruct (holds_document c ks H) as (t & D & S). exists t. unfold xml_document. rewrite E, D. auto.
Qed.
