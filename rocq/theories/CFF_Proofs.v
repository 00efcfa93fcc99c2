(* Lemmas about the reader of Compact Font Format data. *)
From Coq Require Import String Qcanon.
From Verif Require Import Base Num PNG_Model PNG_Spec PNG_Proofs LZW_Proofs CFF_Model CFF_Spec.
Open Scope Z_scope.

(* ---------- numbers ---------- *)
Lemma big_encode n v : big n v = be_encode n v. Proof. reflexivity. Qed.
Lemma big_length n v : length (big n v) = n.
Proof. rewrite big_encode. apply be_encode_length. Qed.
Lemma big_val n v : 0 <= v < 256 ^ Z.of_nat n -> be_val (big n v) = v.
Proof. rewrite big_encode. apply be_val_encode. Qed.
Lemma big_2 v : big 2 v = [v / 256 mod 256; v mod 256]. Proof. reflexivity. Qed.
Lemma big_4 v : big 4 v = [v / 256 / 256 / 256 mod 256; v / 256 / 256 mod 256; v / 256 mod 256; v mod 256]. Proof. reflexivity. Qed.

Definition cn (v : dval) : cnum := match v with DInt z => CInt z | DReal q => CReal q end.

Lemma two_complement k v n : 0 < k -> n = 256 ^ k -> - (n / 2) <= v < n / 2 -> n mod 2 = 0 ->
  let w := v mod n in (w < n / 2 /\ w = v) \/ (n / 2 <= w /\ w = v + n).
Proof.
  intros Hk Hn Hv He w. assert (0 < n) by (rewrite Hn; apply Z.pow_pos_nonneg; lia). assert (n = 2 * (n / 2)) by (pose proof (Z.div_mod n 2); lia).
  unfold w. destruct (Z_lt_le_dec v 0) as [L|L].
  - right. assert (E : v mod n = v + n) by (symmetry; apply Z.mod_unique with (-1); lia). lia.
  - left. rewrite Z.mod_small by lia. lia.
Qed.

Lemma int_operand v l rest : IntBytes v l -> exists b0 r, l ++ rest = b0 :: r /\ 21 < b0 /\ operand b0 r = Ok (CInt v, rest).
Proof.
  intros [w H|w b0 b1 H0 H1 E|w b0 b1 H0 H1 E|w H|w H]; clear v l.
  - eexists _, _. split; [reflexivity|]. split; [lia|]. unfold operand.
    replace (w + 139 =? 30) with false by (symmetry; apply Z.eqb_neq; lia).
    replace (32 <=? w + 139) with true by (symmetry; apply Z.leb_le; lia). replace (w + 139 <=? 246) with true by (symmetry; apply Z.leb_le; lia).
    cbn [andb]. do 3 f_equal. lia.
  - eexists _, _. split; [reflexivity|]. split; [lia|]. unfold operand. cbn [app byte1 bind].
    replace (b0 =? 30) with false by (symmetry; apply Z.eqb_neq; lia).
    replace (b0 <=? 246) with false by (symmetry; apply Z.leb_gt; lia). rewrite andb_false_r.
    replace (247 <=? b0) with true by (symmetry; apply Z.leb_le; lia). replace (b0 <=? 250) with true by (symmetry; apply Z.leb_le; lia).
    cbn [andb]. rewrite Z.shiftl_mul_pow2 by lia. do 3 f_equal. change (2 ^ 8) with 256. lia.
  - eexists _, _. split; [reflexivity|]. split; [lia|]. unfold operand. cbn [app byte1 bind].
    replace (b0 =? 30) with false by (symmetry; apply Z.eqb_neq; lia).
    replace (b0 <=? 246) with false by (symmetry; apply Z.leb_gt; lia). rewrite andb_false_r.
    replace (b0 <=? 250) with false by (symmetry; apply Z.leb_gt; lia). rewrite andb_false_r.
    replace (251 <=? b0) with true by (symmetry; apply Z.leb_le; lia). replace (b0 <=? 254) with true by (symmetry; apply Z.leb_le; lia).
    cbn [andb]. rewrite Z.shiftl_mul_pow2 by lia. do 3 f_equal. change (2 ^ 8) with 256. lia.
  - rewrite big_2. eexists _, _. split; [reflexivity|]. split; [lia|]. unfold operand. cbn [app byte1 bind].
    change (28 =? 30) with false. change ((32 <=? 28) && (28 <=? 246)) with false. change ((247 <=? 28) && (28 <=? 250)) with false.
    change ((251 <=? 28) && (28 <=? 254)) with false. cbv iota beta zeta. change (28 =? 28) with true. cbv iota.
    pose proof (two_complement 2 w 65536 eq_refl eq_refl ltac:(change (65536 / 2) with 32768; lia) eq_refl) as T. cbv zeta in T. change (65536 / 2) with 32768 in T.
    pose proof (Z.mod_pos_bound w 65536). set (u := w mod 65536) in *. clearbody u.
    rewrite lor_shift by (change (2 ^ 8) with 256; pose proof (Z.mod_pos_bound u 256); lia). change (2 ^ 8) with 256.
    assert (Hd : u / 256 mod 256 = u / 256) by (apply Z.mod_small; split; [apply Z.div_pos; lia|apply Z.div_lt_upper_bound; lia]). rewrite Hd.
    pose proof (Z.div_mod u 256). do 3 f_equal.
    destruct (128 <=? u / 256) eqn:E; [apply Z.leb_le in E|apply Z.leb_gt in E]; lia.
  - rewrite big_4. eexists _, _. split; [reflexivity|]. split; [lia|]. unfold operand. cbn [app byte1 bind].
    change (29 =? 30) with false. change ((32 <=? 29) && (29 <=? 246)) with false. change ((247 <=? 29) && (29 <=? 250)) with false.
    change ((251 <=? 29) && (29 <=? 254)) with false. cbv iota beta zeta. change (29 =? 28) with false. cbv iota. cbn [firstn skipn length].
    change (Nat.eqb 2 2) with true. cbv iota.
    pose proof (two_complement 4 w 4294967296 eq_refl eq_refl ltac:(change (4294967296 / 2) with 2147483648; lia) eq_refl) as T. cbv zeta in T. change (4294967296 / 2) with 2147483648 in T.
    pose proof (Z.mod_pos_bound w 4294967296). set (u := w mod 4294967296) in *. clearbody u.
    set (u1 := u / 256) in *. set (u2 := u1 / 256). set (u3 := u2 / 256).
    assert (A1 : u = 256 * u1 + u mod 256) by (apply Z.div_mod; lia). assert (A2 : u1 = 256 * u2 + u1 mod 256) by (apply Z.div_mod; lia).
    assert (A3 : u2 = 256 * u3 + u2 mod 256) by (apply Z.div_mod; lia).
    pose proof (Z.mod_pos_bound u 256 ltac:(lia)). pose proof (Z.mod_pos_bound u1 256 ltac:(lia)). pose proof (Z.mod_pos_bound u2 256 ltac:(lia)).
    set (m0 := u mod 256) in *. set (m1 := u1 mod 256) in *. set (m2 := u2 mod 256) in *. clearbody u1. clearbody u2. clearbody u3. clearbody m0 m1 m2.
    assert (B : 0 <= u3 < 256) by lia. rewrite (Z.mod_small u3) by lia.
    assert (V : be_val [m1; m0] = m1 * 256 + m0) by (unfold be_val; cbn [fold_left]; lia). rewrite V.
    set (h := if 128 <=? u3 then u3 - 256 else u3).
    rewrite (Z.shiftl_mul_pow2 h) by lia. rewrite (Z.shiftl_mul_pow2 m2) by lia.
    replace (h * 2 ^ 24) with ((h * 2 ^ 8) * 2 ^ 16) by (change (2 ^ 24) with (2 ^ 8 * 2 ^ 16); lia).
    rewrite <- !Z.shiftl_mul_pow2 by lia. rewrite <- Z.shiftl_lor. rewrite (lor_shift (Z.lor (Z.shiftl h 8) m2) 16) by (change (2 ^ 16) with 65536; lia).
    rewrite lor_shift by (change (2 ^ 8) with 256; lia). change (2 ^ 8) with 256. change (2 ^ 16) with 65536. do 3 f_equal. unfold h.
    destruct (128 <=? u3) eqn:E; [apply Z.leb_le in E|apply Z.leb_gt in E]; lia.
Qed.

(* ---------- real numbers ---------- *)
Definition nib_text (n : Z) : list Z :=
  if n <=? 9 then [48 + n] else if n =? 10 then [46] else if n =? 11 then [101] else if n =? 12 then [101; 45] else [45].
Definition is_nib (n : Z) : Prop := 0 <= n <= 12 \/ n = 14.
Lemma nibble_ok n : is_nib n -> nibble n = Ok (nib_text n, false).
Proof.
  intros H. unfold nibble, nib_text. replace (n =? 15) with false by (symmetry; apply Z.eqb_neq; destruct H; lia).
  replace (n =? 13) with false by (symmetry; apply Z.eqb_neq; destruct H; lia). reflexivity.
Qed.
Lemma split_byte a b : 0 <= b <= 15 -> Z.shiftr (a * 16 + b) 4 = a /\ Z.land (a * 16 + b) 15 = b.
Proof.
  intros H. split.
  - rewrite Z.shiftr_div_pow2 by lia. change (2 ^ 4) with 16. rewrite Z.div_add_l by lia. rewrite Z.div_small by lia. lia.
  - change 15 with (Z.ones 4). rewrite Z.land_ones by lia. change (2 ^ 4) with 16. rewrite Z.add_comm, Z_mod_plus_full. apply Z.mod_small. lia.
Qed.
Lemma real_text_packed ns l rest : Packed ns l -> Forall is_nib ns -> real_text (l ++ rest) = Ok (flat_map nib_text ns, rest).
Proof.
  induction 1 as [|a|a b r l P IH]; intros F.
  - reflexivity.
  - inversion F as [|? ? Ha _]; subst. cbn [app real_text]. destruct (split_byte a 15 ltac:(lia)) as [-> ->]. rewrite (nibble_ok _ Ha). cbn [bind].
    change (nibble 15) with (Ok (@nil Z, true)). cbn [bind orb flat_map]. reflexivity.
  - inversion F as [|? ? Ha F1]; subst. inversion F1 as [|? ? Hb F2]; subst. specialize (IH F2). cbn [app real_text].
    destruct (split_byte a b ltac:(destruct Hb; lia)) as [-> ->]. rewrite (nibble_ok _ Ha), (nibble_ok _ Hb). cbn [bind orb]. rewrite IH. cbn [bind flat_map]. reflexivity.
Qed.
Definition dtext (ds : list Z) : list Z := map (fun d => 48 + d) ds.
Lemma digits_text ds : Forall is_dig ds -> flat_map nib_text ds = dtext ds.
Proof.
  induction 1 as [|d r H F IH]; [reflexivity|]. cbn [flat_map dtext map]. rewrite IH. unfold nib_text, is_dig in *.
  replace (d <=? 9) with true by (symmetry; apply Z.leb_le; lia). reflexivity.
Qed.
Definition no_digit_first (s : list Z) : Prop := match s with [] => True | c :: _ => is_digit c = false end.
Lemma span_text ds rest : Forall is_dig ds -> no_digit_first rest -> span_digits (dtext ds ++ rest) = (dtext ds, rest).
Proof.
  induction 1 as [|d r H F IH]; intros N; cbn [dtext map app].
  - destruct rest as [|c rest]; [reflexivity|]. cbn in *. rewrite N. reflexivity.
  - cbn [span_digits]. replace (is_digit (48 + d)) with true.
    + fold (dtext r). rewrite (IH N). reflexivity.
    + symmetry. unfold is_digit, is_dig in *. apply andb_true_intro. split; apply Z.leb_le; lia.
Qed.
Lemma digits_dec_go ds : forall a, Forall is_dig ds -> fold_left (fun v c => v * 10 + (c - 48)) (dtext ds) a = fold_left (fun a d => 10 * a + d) ds a.
Proof. induction ds as [|d r IH]; intros a F; [reflexivity|]. inversion F; subst. cbn [dtext map fold_left]. fold (dtext r). rewrite IH by assumption. f_equal. lia. Qed.
Lemma digits_dec ds : Forall is_dig ds -> digits_val (dtext ds) = dec ds.
Proof. intros F. apply digits_dec_go. exact F. Qed.
Lemma minus_digits ds rest : Forall is_dig ds -> no_digit_first rest -> (ds <> [] \/ forall c r, rest = c :: r -> c <> 45) -> minus_sign (dtext ds ++ rest) = (false, dtext ds ++ rest).
Proof.
  intros F N E. destruct ds as [|d ds]; cbn [dtext map app].
  - destruct E as [E|E]; [congruence|]. destruct rest as [|c rest]; [reflexivity|]. cbn. specialize (E c rest eq_refl).
    replace (c =? 45) with false by (symmetry; apply Z.eqb_neq; lia). reflexivity.
  - inversion F as [|? ? H _]; subst. cbn. unfold is_dig in H. replace (48 + d =? 45) with false by (symmetry; apply Z.eqb_neq; lia). reflexivity.
Qed.
Lemma dtext_app a b : dtext (a ++ b) = dtext a ++ dtext b. Proof. apply map_app. Qed.
Lemma dtext_length a : length (dtext a) = length a. Proof. apply map_length. Qed.
Lemma Forall_digs_nibs ds : Forall is_dig ds -> Forall is_nib ds.
Proof. apply Forall_impl. unfold is_dig, is_nib. intros a H. lia. Qed.

Lemma exponent_text e en : Exponent e en -> no_digit_first (flat_map nib_text en) /\ Forall is_nib en /\
  match flat_map nib_text en with
  | [] => e = 0
  | c :: r => c = 101 /\ exists eneg r1 ed, minus_sign r = (eneg, r1) /\ span_digits r1 = (ed, []) /\ ed <> [] /\ e = (if eneg : bool then - digits_val ed else digits_val ed)
  end.
Proof.
  assert (NE : forall e : list Z, e <> [] -> dtext e <> []) by (intros [|? ?]; cbn; congruence).
  intros [|e0 F N|e0 F N]; clear e en.
  - splits; cbn; auto.
  - cbn [flat_map]. change (nib_text 11) with [101]. rewrite digits_text by assumption. splits; cbn [app no_digit_first]; auto.
    { constructor; [left; lia|apply Forall_digs_nibs; exact F]. }
    split; [reflexivity|]. exists false, (dtext e0), (dtext e0). rewrite <- (app_nil_r (dtext e0)) at 1. rewrite minus_digits by (try assumption; try exact I; left; exact N).
    rewrite app_nil_r. splits; auto; try exact (NE _ N).
    + rewrite <- (app_nil_r (dtext e0)) at 1. apply span_text; [assumption|exact I].
    + symmetry. apply digits_dec. exact F.
  - cbn [flat_map]. change (nib_text 12) with [101; 45]. rewrite digits_text by assumption. splits; cbn [app no_digit_first]; auto.
    { constructor; [left; lia|apply Forall_digs_nibs; exact F]. }
    split; [reflexivity|]. exists true, (dtext e0), (dtext e0). splits; auto; try exact (NE _ N).
    + rewrite <- (app_nil_r (dtext e0)) at 1. apply span_text; [assumption|exact I].
    + rewrite digits_dec by assumption. reflexivity.
Qed.

Lemma fraction_text f fn tl : Fraction f fn -> no_digit_first tl -> (forall c r, tl = c :: r -> c <> 46) ->
  no_digit_first (flat_map nib_text fn ++ tl) /\ Forall is_nib fn /\ Forall is_dig f /\ (flat_map nib_text fn ++ tl = [] \/ exists c r, flat_map nib_text fn ++ tl = c :: r /\ (c = 46 \/ tl = c :: r)) /\
  match flat_map nib_text fn ++ tl with c :: r => if c =? 46 then span_digits r else ([], flat_map nib_text fn ++ tl) | [] => ([], []) end = (dtext f, tl).
Proof.
  intros [|f' F] N D; clear fn.
  - cbn [flat_map app dtext map]. splits; auto; destruct tl as [|c r]; auto.
    { right. exists c, r. auto. }
    specialize (D c r eq_refl). replace (c =? 46) with false by (symmetry; apply Z.eqb_neq; lia). reflexivity.
  - cbn [flat_map]. change (nib_text 10) with [46]. rewrite digits_text by assumption. cbn [app]. splits; auto.
    + reflexivity.
    + constructor; [left; lia|apply Forall_digs_nibs; exact F].
    + right. eexists _, _. split; [reflexivity|]. left. reflexivity.
    + change (46 =? 46) with true. cbv iota. apply span_text; assumption.
Qed.

Lemma real_operand q ns l rest : RealNibbles q ns -> Packed ns l -> real_text (l ++ rest) = Ok (flat_map nib_text ns, rest) /\ py_float (flat_map nib_text ns) = Ok q.
Proof.
  intros [neg i f e fn en Fi Ff Fe NE] P. destruct (exponent_text e en Fe) as (N1 & B1 & X1).
  assert (D46 : forall c r, flat_map nib_text en = c :: r -> c <> 46).
  { intros c r E. rewrite E in X1. destruct X1 as [-> _]. lia. }
  destruct (fraction_text f fn (flat_map nib_text en) Ff N1 D46) as (N2 & B2 & Dg & S2 & X2).
  split.
  - apply real_text_packed; [exact P|]. rewrite !Forall_app. splits; auto; [|apply Forall_digs_nibs; exact Fi]. destruct neg; constructor; [right; reflexivity|constructor].
  - rewrite !flat_map_app, (digits_text i Fi).
    assert (M : minus_sign (flat_map nib_text (if neg then [14] else []) ++ dtext i ++ flat_map nib_text fn ++ flat_map nib_text en) =
      (neg, dtext i ++ flat_map nib_text fn ++ flat_map nib_text en)).
    { destruct neg; [reflexivity|]. cbn [flat_map app]. apply minus_digits; [exact Fi|exact N2|]. right. intros c r E.
      destruct S2 as [S2|(c' & r' & S2 & S3)]; [congruence|]. rewrite S2 in E. injection E as -> ->. destruct S3 as [->|S3]; [lia|]. rewrite S3 in X1. destruct X1 as [-> _]. lia. }
    unfold py_float. rewrite M. rewrite (span_text i _ Fi N2). rewrite X2.
    replace (length (dtext i ++ dtext f) =? 0)%nat with false.
    2:{ symmetry. apply Nat.eqb_neq. rewrite <- dtext_app, dtext_length. destruct (i ++ f); [congruence|]. cbn. lia. }
    rewrite <- dtext_app. rewrite (digits_dec (i ++ f)) by (apply Forall_app; split; assumption). rewrite dtext_length. cbv zeta.
    assert (V : forall k, (qz (if neg then - dec (i ++ f) else dec (i ++ f)) * ten_to k)%Qc = (qz (minus_one neg) * qz (dec (i ++ f)) * power k)%Qc).
    { intros k. rewrite <- qz_mul. unfold power, ten_to. f_equal. f_equal. destruct neg; unfold minus_one; lia. }
    destruct (flat_map nib_text en) as [|c r].
    + subst e. rewrite V. reflexivity.
    + destruct X1 as (-> & eneg & r1 & ed & M1 & SP & NE1 & ->). change (101 =? 101) with true. cbv iota. rewrite M1, SP.
      replace (length ed =? 0)%nat with false by (symmetry; apply Nat.eqb_neq; destruct ed; [congruence|cbn; lia]). cbn [length Nat.eqb negb orb].
      rewrite V. reflexivity.
Qed.

Lemma operand_ok v l rest : Operand v l -> exists b0 r, l ++ rest = b0 :: r /\ 21 < b0 /\ operand b0 r = Ok (cn v, rest).
Proof.
  intros [z b H|q ns b R P].
  - apply int_operand. exact H.
  - exists 30, (b ++ rest). splits; [reflexivity|lia|]. destruct (real_operand q ns b rest R P) as [E1 E2].
    unfold operand. change (30 =? 30) with true. cbv iota. rewrite E1. cbn [bind]. rewrite E2. reflexivity.
Qed.

(* ---------- DICT ---------- *)
Lemma operand_nonempty v l : Operand v l -> (1 <= length l)%nat.
Proof. intros H. destruct (operand_ok v l [] H) as (b0 & r & E & _). rewrite app_nil_r in E. rewrite E. cbn. lia. Qed.
Lemma operands_go vs b : Operands vs b -> forall f rest d st, (length (b ++ rest) < f)%nat ->
  exists f', (length rest < f')%nat /\ getdict_go f (b ++ rest) d st = getdict_go f' rest d (st ++ map cn vs).
Proof.
  induction 1 as [|v vs b l O Os IH]; intros f rest d st L.
  - exists f. split; [exact L|]. cbn [map app]. rewrite app_nil_r. reflexivity.
  - rewrite <- app_assoc in *. destruct (operand_ok v b (l ++ rest) O) as (b0 & r & E & G & OP). pose proof (operand_nonempty v b O) as NE.
    destruct f as [|f]; [lia|]. rewrite E. cbn [getdict_go]. replace (b0 <=? 21) with false by (symmetry; apply Z.leb_gt; lia). rewrite OP. cbn [bind].
    destruct (IH f rest d (st ++ [cn v])) as (f' & L' & E').
    { rewrite app_length in L. lia. }
    exists f'. split; [exact L'|]. rewrite E'. cbn [map]. rewrite <- app_assoc. reflexivity.
Qed.
Lemma dset_new {A} (d : list (Z * A)) k v : ~ In k (map fst d) -> dset Z.eqb d k v = d ++ [(k, v)].
Proof.
  induction d as [|[k' v'] r IH]; intros N; [reflexivity|]. cbn [dset map fst In app] in *.
  replace (k' =? k) with false by (symmetry; apply Z.eqb_neq; intros E; apply N; auto). rewrite IH by tauto. reflexivity.
Qed.
Definition cents (es : list (Z * list dval)) : list (Z * list cnum) := map (fun e => (fst e, map cn (snd e))) es.
Lemma dict_go es l : DictData es l -> forall f d, (length l < f)%nat -> NoDup (map fst d ++ map fst es) -> getdict_go f l d [] = Ok (d ++ cents es).
Proof.
  induction 1 as [|op vs b es l R N O D IH]; intros f d L ND.
  - destruct f; [lia|]. cbn. rewrite app_nil_r. reflexivity.
  - destruct (operands_go vs b O f (op :: l) d [] L) as (f' & L' & E). rewrite E. clear E. destruct f' as [|f']; [lia|]. cbn [getdict_go app].
    replace (op <=? 21) with true by (symmetry; apply Z.leb_le; lia). cbn [map fst] in ND.
    rewrite dset_new.
    + rewrite IH.
      * rewrite <- app_assoc. reflexivity.
      * cbn in L'. lia.
      * rewrite map_app. cbn [map fst]. rewrite <- app_assoc. exact ND.
    + intros I. apply NoDup_remove_2 in ND. apply ND. apply in_or_app. left. exact I.
Qed.
Lemma getdict_ok es l : DictData es l -> NoDup (map fst es) -> getdict l = Ok (cents es).
Proof. intros D N. unfold getdict. rewrite (dict_go es l D) by (cbn; auto; lia). reflexivity. Qed.

(* ---------- the file ---------- *)
Definition Here (data : list Z) (pos : Z) (s : list Z) : Prop := 0 <= pos /\ skipn (Z.to_nat pos) data = s.
Lemma here_app data pos a r n : Here data pos (a ++ r) -> n = Z.of_nat (length a) -> fread data pos n = (a, pos + n) /\ Here data (pos + n) r.
Proof.
  intros [P E] ->. unfold fread. replace (Z.of_nat (length a) <? 0) with false by (symmetry; apply Z.ltb_ge; lia). rewrite E, Nat2Z.id.
  rewrite firstn_app, Nat.sub_diag, firstn_O, firstn_all, app_nil_r. split; [reflexivity|]. split; [lia|].
  rewrite Z2Nat.inj_add by lia. rewrite Nat2Z.id, Nat.add_comm, <- skipn_skipn, E, skipn_app, skipn_all, Nat.sub_diag. reflexivity.
Qed.
Lemma at_here data off part : At data off part -> exists rest, Here data off (part ++ rest).
Proof. intros (P & rest & E). exists rest. split; assumption. Qed.

(* ---------- INDEX ---------- *)
Lemma nunpack_big n v : (1 <= n <= 4)%nat -> 0 <= v < 256 ^ Z.of_nat n -> nunpack (big n v) 0 = Ok v.
Proof. intros H V. rewrite big_encode. apply nunpack_lemma; [|exact V]. cbn. lia. Qed.
Lemma offsets_ok size (os : list Z) : (1 <= size <= 4)%nat -> Forall (fun o => 0 <= o < 256 ^ Z.of_nat size) os ->
  forall data pos r, Here data pos (flat_map (big size) os ++ r) ->
  read_offsets data (length os) (Z.of_nat size) pos = Ok (os, pos + Z.of_nat size * Z.of_nat (length os)) /\
  Here data (pos + Z.of_nat size * Z.of_nat (length os)) r.
Proof.
  intros S F. induction F as [|o os Ho F IH]; intros data pos r H.
  - cbn [length read_offsets]. change (Z.of_nat 0) with 0. rewrite Z.mul_0_r, Z.add_0_r. cbn in H. auto.
  - cbn [flat_map length] in *. rewrite <- app_assoc in H.
    destruct (here_app data pos _ _ (Z.of_nat size) H ltac:(rewrite big_length; reflexivity)) as [E H']. specialize (IH data _ r H') as [E2 H2].
    cbn [read_offsets]. rewrite E. rewrite nunpack_big by assumption. cbn [bind]. rewrite E2. cbn [bind].
    replace (pos + Z.of_nat size * Z.of_nat (Datatypes.S (length os))) with (pos + Z.of_nat size + Z.of_nat size * Z.of_nat (length os)) by lia. auto.
Qed.
Lemma offsets_from_length objs : forall o, length (offsets_from o objs) = S (length objs).
Proof. induction objs as [|x r IH]; intros o; [reflexivity|]. cbn [offsets_from length]. rewrite IH. reflexivity. Qed.
Lemma offsets_from_last objs : forall o d, last (offsets_from o objs) d = o + Z.of_nat (length (concat objs)).
Proof.
  induction objs as [|x r IH]; intros o d; [cbn; lia|]. cbn [offsets_from concat]. rewrite app_length.
  destruct (offsets_from (o + Z.of_nat (length x)) r) eqn:E; [destruct r; discriminate|]. rewrite <- E. change (last (o :: z :: l) d) with (last (z :: l) d) in *.
  transitivity (last (offsets_from (o + Z.of_nat (length x)) r) d); [rewrite E; reflexivity|]. rewrite IH. lia.
Qed.
Lemma offsets_from_bounds objs : forall o m, 0 <= o -> o + Z.of_nat (length (concat objs)) < m -> Forall (fun v => 0 <= v < m) (offsets_from o objs).
Proof.
  induction objs as [|x r IH]; intros o m P B; cbn [offsets_from concat] in *.
  - constructor; [cbn in B; lia|constructor].
  - rewrite app_length in B. constructor; [lia|]. apply IH; lia.
Qed.
Lemma offsets_from_nth objs : forall i o x, nth_error objs i = Some x ->
  nth_error (offsets_from o objs) i = Some (o + Z.of_nat (length (concat (firstn i objs)))) /\
  nth_error (offsets_from o objs) (S i) = Some (o + Z.of_nat (length (concat (firstn i objs))) + Z.of_nat (length x)) /\
  exists r, concat objs = concat (firstn i objs) ++ x ++ r.
Proof.
  induction objs as [|y r IH]; intros [|i] o x E; try discriminate.
  - injection E as ->. cbn [offsets_from firstn concat nth_error length]. change (Z.of_nat 0) with 0. rewrite Z.add_0_r.
    splits; auto; [destruct r; reflexivity|exists (concat r); reflexivity].
  - cbn [nth_error] in E. destruct (IH i (o + Z.of_nat (length y)) x E) as (A & B & t & C). cbn [offsets_from nth_error firstn concat]. rewrite app_length.
    splits.
    + rewrite A. f_equal. lia.
    + change (nth_error (offsets_from (o + Z.of_nat (length y)) r) (S i) = Some (o + Z.of_nat (length y + length (concat (firstn i r))) + Z.of_nat (length x))).
      rewrite B. f_equal. lia.
    + exists t. rewrite C, <- app_assoc. reflexivity.
Qed.

Definition Reading (data : list Z) (ix : index) (objs : list (list Z)) : Prop :=
  index_len ix = Z.of_nat (length objs) /\ forall i x, nth_error objs i = Some x -> exists p, index_get data ix i = Ok (x, p).
Lemma reading_list data ix objs : Reading data ix objs -> index_list data ix = Ok objs.
Proof.
  intros [L G]. unfold index_list. rewrite L, Nat2Z.id.
  assert (K : forall n i, (i + n = length objs)%nat -> index_from data ix i n = Ok (skipn i objs)).
  { induction n as [|n IH]; intros i E.
    - rewrite skipn_all2 by lia. reflexivity.
    - cbn [index_from]. destruct (nth_error objs i) as [x|] eqn:X.
      + destruct (G i x X) as [p ->]. cbn [bind]. rewrite IH by lia. cbn [bind]. f_equal.
        apply nth_error_split in X as (l1 & l2 & -> & <-). clear. induction l1 as [|y l1 IH]; [reflexivity|]. cbn [length app skipn] in *. exact IH.
      + apply nth_error_None in X. lia. }
  rewrite (K _ 0%nat) by lia. reflexivity.
Qed.
Lemma index_ok data pos objs b r : IndexData objs b -> objs <> [] -> Here data pos (b ++ r) ->
  exists ix, read_index data pos = Ok (ix, pos + Z.of_nat (length b)) /\ Here data (pos + Z.of_nat (length b)) r /\ Reading data ix objs.
Proof.
  intros [|objs' size NE C S B]; [congruence|]. clear objs b. intros _ H.
  assert (H0 : Here data pos ((big 2 (Z.of_nat (length objs')) ++ [Z.of_nat size]) ++ flat_map (big size) (offsets_from 1 objs') ++ concat objs' ++ r)).
  { repeat rewrite <- app_assoc in H. repeat rewrite <- app_assoc. exact H. }
  destruct (here_app data pos _ _ 3 H0) as [E1 H1]; [rewrite app_length, big_length; reflexivity|].
  pose proof (offsets_from_bounds objs' 1 (256 ^ Z.of_nat size) ltac:(lia) ltac:(lia)) as OB.
  destruct (offsets_ok size (offsets_from 1 objs') S OB data (pos + 3) _ H1) as [E2 H2].
  set (p2 := pos + 3 + Z.of_nat size * Z.of_nat (length (offsets_from 1 objs'))) in *.
  destruct (here_app data p2 _ _ _ H2 eq_refl) as [_ H3].
  assert (FL : forall os : list Z, length (flat_map (big size) os) = (size * length os)%nat).
  { induction os as [|o os IH]; [cbn; lia|]. cbn [flat_map length]. rewrite app_length, big_length, IH. lia. }
  assert (P3 : pos + Z.of_nat (length (big 2 (Z.of_nat (length objs')) ++ [Z.of_nat size] ++ flat_map (big size) (offsets_from 1 objs') ++ concat objs')) =
    p2 + Z.of_nat (length (concat objs'))).
  { rewrite !app_length, big_length, FL. cbn [length]. unfold p2. lia. }
  exists (mkIndex (offsets_from 1 objs') (p2 - 1)). rewrite P3. splits; [|exact H3|].
  - unfold read_index. rewrite E1. rewrite big_2. cbn [app]. rewrite <- big_2. rewrite big_val by (change (256 ^ Z.of_nat 2) with 65536; lia). rewrite Nat2Z.id.
    rewrite <- (offsets_from_length objs' 1). rewrite E2. cbn [bind]. rewrite offsets_from_last. unfold fseek.
    assert (0 <= p2) by apply H2. replace (p2 - 1 + (1 + Z.of_nat (length (concat objs'))) <? 0) with false by (symmetry; apply Z.ltb_ge; lia). cbn [bind]. f_equal. f_equal. lia.
  - split.
    + unfold index_len. cbn [i_offsets]. rewrite offsets_from_length. lia.
    + intros i x X. destruct (offsets_from_nth objs' i 1 x X) as (A & A' & t & T). unfold index_get. cbn [i_offsets i_base]. rewrite A, A'. unfold fseek.
      assert (0 <= p2) by apply H2. set (k := Z.of_nat (length (concat (firstn i objs')))) in *.
      replace (p2 - 1 + (1 + k) <? 0) with false by (symmetry; apply Z.ltb_ge; lia). cbn [bind].
      rewrite T in H2. repeat rewrite <- app_assoc in H2. destruct (here_app data p2 _ _ k H2 eq_refl) as [_ H7].
      replace (p2 - 1 + (1 + k)) with (p2 + k) by lia. replace (1 + k + Z.of_nat (length x) - (1 + k)) with (Z.of_nat (length x)) by lia.
      destruct (here_app data (p2 + k) _ _ _ H7 eq_refl) as [E5 _]. rewrite E5. eexists. reflexivity.
Qed.
(* an empty INDEX is read rightly before a byte 0 ... *)
Lemma index_empty_zero data pos r : Here data pos ([0; 0] ++ 0 :: r) ->
  exists ix, read_index data pos = Ok (ix, pos + 2) /\ Reading data ix [].
Proof.
  intros H. change ([0; 0] ++ 0 :: r) with ([0; 0; 0] ++ r) in H. destruct (here_app data pos _ _ 3 H eq_refl) as [E H1].
  exists (mkIndex [0] (pos + 2)). unfold read_index. rewrite E. change (S (Z.to_nat (be_val [0; 0]))) with 1%nat. cbn [read_offsets].
  destruct (here_app data (pos + 3) [] r 0 H1 eq_refl) as [E2 _]. rewrite E2. cbn [nunpack length bind]. cbn [last]. assert (0 <= pos) by apply H.
  unfold fseek. replace (pos + 3 + 0 - 1 + 0) with (pos + 2) by lia. replace (pos + 2 <? 0) with false by (symmetry; apply Z.ltb_ge; lia). cbn [bind].
  split; [do 3 f_equal; lia|]. split; [reflexivity|]. intros [|i] x X; discriminate X.
Qed.
(* ... and without an exception before a byte up to 4 *)
Lemma be_val_nonneg s : bytes s -> 0 <= be_val s.
Proof.
  unfold be_val. intros B. assert (K : forall a, 0 <= a -> 0 <= fold_left (fun a b => a * 256 + b) s a); [|apply K; lia].
  induction B as [|b s Hb B IH]; intros a A; cbn [fold_left]; [exact A|]. apply IH. unfold is_byte in Hb. lia.
Qed.
Lemma bytes_part a n s : bytes s -> bytes (firstn n (skipn a s)).
Proof.
  unfold bytes. intros F. rewrite Forall_forall in *. intros x X. apply F. rewrite <- (firstn_skipn a s). apply in_or_app. right.
  rewrite <- (firstn_skipn n (skipn a s)). apply in_or_app. left. exact X.
Qed.
Lemma index_empty_small data pos b r : bytes data -> Here data pos ([0; 0] ++ b :: r) -> 0 <= b <= 4 ->
  exists ix p, read_index data pos = Ok (ix, p) /\ Reading data ix [].
Proof.
  intros BD H Hb. change ([0; 0] ++ b :: r) with ([0; 0; b] ++ r) in H. destruct (here_app data pos _ _ 3 H eq_refl) as [E H1].
  unfold read_index. rewrite E. change (S (Z.to_nat (be_val [0; 0]))) with 1%nat. cbn [read_offsets].
  destruct (fread data (pos + 3) b) as [s p1] eqn:F. assert (0 <= pos) by apply H. unfold fread in F. replace (b <? 0) with false in F by (symmetry; apply Z.ltb_ge; lia).
  assert (L : (length s <= 4)%nat) by (injection F as <- _; rewrite firstn_length; lia). assert (Hp : pos + 3 <= p1) by (injection F as <- <-; lia).
  assert (BS : bytes s) by (injection F as <- _; apply bytes_part; exact BD).
  assert (N : exists o, nunpack s 0 = Ok o /\ 0 <= o).
  { pose proof (be_val_nonneg s BS). unfold nunpack.
    destruct s as [|a [|a1 [|a2 [|a3 [|a4 s]]]]]; cbn [length] in *; try lia; eexists; (split; [reflexivity|]); lia. }
  destruct N as (o & -> & O). cbn [bind last]. unfold fseek. replace (p1 - 1 + o <? 0) with false by (symmetry; apply Z.ltb_ge; lia). cbn [bind].
  eexists _, _. split; [reflexivity|]. split; [reflexivity|]. intros [|i] x X; discriminate X.
Qed.
