(* Properties C72 and C73: what the text converter writes. *)
From Coq Require Import String ZifyBool ZifyNat.
From Verif Require Import Base Obj Stream_Model Num Geom_Model Page_Model Interp_Model Interp_Spec Interp_Proofs Text_Proofs Interp_Props Sec_Model.
From Verif Require Import Markup_Model Markup_Spec Markup_Proofs Convert_Model Convert_Spec Font_Proofs Interp_Witness Forms_Props Stream_Spec Markup_Props.
From Coq Require Import Qcanon.
Open Scope Z_scope.
Import ListNotations.

(* ---------- UTF-8 ---------- *)
Lemma utf8_char_decode c x : scalar c -> exists b, utf8_char c = Ok b /\ utf8_decode (b ++ x) = ocons c (utf8_decode x).
Proof.
  intros H. unfold utf8_char. destruct (c <? 128) eqn:E1.
  { exists [c]. split; [reflexivity|]. cbn [app utf8_decode]. unfold in_range. replace ((0 <=? c) && (c <=? 127)) with true by (unfold scalar in H; lia). reflexivity. }
  destruct (c <? 2048) eqn:E2.
  { eexists. split; [reflexivity|]. cbn [app utf8_decode]. unfold in_range, utf8_tail.
    assert (2 <= c / 64 < 32 /\ 0 <= c mod 64 < 64 /\ c = 64 * (c / 64) + c mod 64) by (Z.div_mod_to_equations; lia).
    replace ((0 <=? 192 + c / 64) && (192 + c / 64 <=? 127)) with false by lia.
    replace ((194 <=? 192 + c / 64) && (192 + c / 64 <=? 223)) with true by lia.
    replace ((128 <=? 128 + c mod 64) && (128 + c mod 64 <=? 191)) with true by lia.
    apply (f_equal2 ocons); [lia|reflexivity]. }
  replace ((55296 <=? c) && (c <? 57344)) with false by (unfold scalar in H; lia).
  destruct (c <? 65536) eqn:E3.
  { eexists. split; [reflexivity|]. cbn [app utf8_decode]. unfold in_range, utf8_tail. unfold scalar in H.
    assert (exists p q r, c / 4096 = p /\ c / 64 mod 64 = q /\ c mod 64 = r /\ 0 <= p < 16 /\ 0 <= q < 64 /\ 0 <= r < 64 /\ c = 4096 * p + 64 * q + r) as (p & q & r & -> & -> & -> & Hp & Hq & Hr & Hc).
    { exists (c / 4096), (c / 64 mod 64), (c mod 64). splits; try reflexivity; Z.div_mod_to_equations; lia. }
    replace ((0 <=? 224 + p) && (224 + p <=? 127)) with false by lia.
    replace ((194 <=? 224 + p) && (224 + p <=? 223)) with false by lia.
    replace ((224 <=? 224 + p) && (224 + p <=? 239)) with true by lia.
    match goal with |- (if ?b then _ else _) = _ => replace b with true end.
    2:{ symmetry. repeat (apply andb_true_iff; split); lia. }
    apply (f_equal2 ocons); [lia|reflexivity]. }
  eexists. split; [reflexivity|]. cbn [app utf8_decode]. unfold in_range, utf8_tail. unfold scalar in H.
  assert (exists p q r s, c / 262144 = p /\ c / 4096 mod 64 = q /\ c / 64 mod 64 = r /\ c mod 64 = s /\ 0 <= p <= 4 /\ 0 <= q < 64 /\ 0 <= r < 64 /\ 0 <= s < 64 /\
    c = 262144 * p + 4096 * q + 64 * r + s) as (p & q & r & s & -> & -> & -> & -> & Hp & Hq & Hr & Hs & Hc).
  { exists (c / 262144), (c / 4096 mod 64), (c / 64 mod 64), (c mod 64). splits; try reflexivity; Z.div_mod_to_equations; lia. }
  replace ((0 <=? 240 + p) && (240 + p <=? 127)) with false by lia.
  replace ((194 <=? 240 + p) && (240 + p <=? 223)) with false by lia.
  replace ((224 <=? 240 + p) && (240 + p <=? 239)) with false by lia.
  replace ((240 <=? 240 + p) && (240 + p <=? 244)) with true by lia.
  match goal with |- (if ?b then _ else _) = _ => replace b with true end.
  2:{ symmetry. repeat (apply andb_true_iff; split); lia. }
  apply (f_equal2 ocons); [lia|reflexivity].
Qed.
Definition oapp (a : list Z) (b : option (list Z)) : option (list Z) := match b with Some l => Some (a ++ l) | None => None end.
Lemma enc_utf8_decode t x : Forall scalar t -> exists b, enc_utf8 t = Ok b /\ utf8_decode (b ++ x) = oapp t (utf8_decode x).
Proof.
  induction 1 as [|c t Hc _ (b & E1 & E2)]; cbn [enc_utf8].
  - exists []. split; [reflexivity|]. cbn [app]. destruct (utf8_decode x); reflexivity.
  - destruct (utf8_char_decode c (b ++ x) Hc) as (a & A1 & A2). rewrite A1, E1. cbn [bind]. exists (a ++ b). split; [reflexivity|].
    rewrite <- app_assoc, A2, E2. destruct (utf8_decode x); reflexivity.
Qed.
Lemma decode_ascii t x : forallb (fun c => (0 <=? c) && (c <? 128)) t = true -> utf8_decode (t ++ x) = oapp t (utf8_decode x).
Proof.
  induction t as [|c t IH]; cbn [forallb app]; intros H; [destruct (utf8_decode x); reflexivity|].
  apply andb_true_iff in H as [H1 H2]. cbn [utf8_decode]. unfold in_range. replace ((0 <=? c) && (c <=? 127)) with true by lia.
  rewrite (IH H2). destruct (utf8_decode x); reflexivity.
Qed.
Lemma utf8_char_total c : 0 <= c < 1114112 -> ~ scalar c -> utf8_char c = Err UnicodeError.
Proof.
  intros H1 H2. unfold utf8_char, scalar in *. replace (c <? 128) with false by lia. replace (c <? 2048) with false by lia.
  replace ((55296 <=? c) && (c <? 57344)) with true by lia. reflexivity.
Qed.

(* ---------- the file ---------- *)
(* a piece of the file: it decodes to t *)
Definition spells (g : gen Z) (t : list Z) : Prop := snd g = None /\ forall x, utf8_decode (fst g ++ x) = oapp t (utf8_decode x).
Lemma oapp_oapp a b x : oapp a (oapp b x) = oapp (a ++ b) x.
Proof. destruct x; cbn; [rewrite app_assoc|]; reflexivity. Qed.
Lemma spells_app g1 g2 t1 t2 : spells g1 t1 -> spells g2 t2 -> spells (gapp g1 g2) (t1 ++ t2).
Proof.
  intros [A1 A2] [B1 B2]. unfold gapp. rewrite A1. split; [exact B1|]. intros x. cbn [fst]. rewrite <- app_assoc, A2, B2, oapp_oapp. reflexivity.
Qed.
Lemma spells_nil : spells gnil [].
Proof. split; [reflexivity|]. intros x. cbn. destruct (utf8_decode x); reflexivity. Qed.
Lemma spells_flat {A} (f : A -> gen Z) (t : A -> list Z) l : (forall a, In a l -> spells (f a) (t a)) -> spells (gflat f l) (flat_map t l).
Proof.
  induction l as [|a l IH]; intros H; cbn [gflat flat_map]; [apply spells_nil|].
  apply spells_app; [apply H; left; reflexivity|apply IH; intros; apply H; right; assumption].
Qed.
Lemma spells_ascii t : forallb (fun c => (0 <=? c) && (c <? 128)) t = true -> spells (t, None) t.
Proof. intros H. split; [reflexivity|]. intros x. apply decode_ascii. exact H. Qed.
Lemma spells_char c : Forall scalar (fst c) -> spells (text_char c) (fst c).
Proof.
  intros H. destruct (enc_utf8_decode (fst c) [] H) as (b & E & _). unfold text_char. rewrite E. split; [reflexivity|].
  intros x. destruct (enc_utf8_decode (fst c) x H) as (b' & E' & D). rewrite E in E'. injection E' as <-. exact D.
Qed.
Lemma text_form s b k : text_item (IXObj s b k) = gflat text_item k.
Proof. cbn [text_item]. induction k as [|i k IH]; [reflexivity|]. cbn [gflat]. rewrite <- IH. reflexivity. Qed.
Lemma spells_items items cs : Reads items cs -> Forall (Forall scalar) cs -> spells (gflat text_item items) (concat cs).
Proof.
  induction 1 as [|b r cs _ IH|s b k r c1 c2 _ IH1 _ IH2|r cs _ IH|k w p b st f e r cs _ IH|s b r cs _ IH]; intros HS; cbn [gflat concat].
  - apply spells_nil.
  - apply Forall_app in HS as [H1 H2]. rewrite concat_app. apply spells_app; [|apply IH; exact H2]. cbn [text_item].
    assert (G : spells (gflat (fun cb => gflat text_char (cb_chars cb)) (tb_blocks b)) (flat_map (fun cb => flat_map fst (cb_chars cb)) (tb_blocks b))).
    { apply spells_flat. intros cb Hcb. apply spells_flat. intros c Hc. apply spells_char. rewrite Forall_forall in H1. apply H1.
      apply in_flat_map. exists cb. split; [exact Hcb|]. apply in_map. exact Hc. }
    replace (concat (flat_map (fun cb => map fst (cb_chars cb)) (tb_blocks b))) with (flat_map (fun cb => flat_map fst (cb_chars cb)) (tb_blocks b)); [exact G|].
    clear. induction (tb_blocks b) as [|cb l IH]; [reflexivity|]. cbn [flat_map]. rewrite concat_app, IH, flat_map_concat_map. reflexivity.
  - apply Forall_app in HS as [H1 H2]. rewrite concat_app. apply spells_app; [|apply IH2; exact H2]. rewrite text_form. apply IH1. exact H1.
  - change (spells (gapp gnil (gflat text_item r)) (concat cs)). rewrite gapp_nil. apply IH. exact HS.
  - change (spells (gapp gnil (gflat text_item r)) (concat cs)). rewrite gapp_nil. apply IH. exact HS.
  - change (spells (gapp gnil (gflat text_item r)) (concat cs)). rewrite gapp_nil. apply IH. exact HS.
Qed.
Lemma decimal_py n : 0 <= n -> is_decimal (py_str_int n) n.
Proof.
  intros Hn. unfold py_str_int. replace (n <? 0) with false by lia. destruct (py_str_nat_spec n Hn) as (P1 & P2 & P3 & P4).
  unfold is_decimal. splits; try assumption. destruct (py_str_nat n) as [|c r]; [discriminate|]. cbn [hd]. intros ->. rewrite (P4 48 r eq_refl eq_refl). reflexivity.
Qed.
Lemma items_read l : exists cs, Reads l cs.
Proof.
  assert (K : forall n l, (list_sum (map (fix sz (i : item) : nat := match i with IXObj _ _ k => S (list_sum (map sz k)) | _ => 1%nat end) l) < n)%nat -> exists cs, Reads l cs).
  { induction n as [|n IH]; intros k Hk; [lia|]. destruct k as [|i k]; [exists []; constructor|].
    set (sz := fix sz (i : item) : nat := match i with IXObj _ _ k => S (list_sum (map sz k)) | _ => 1%nat end) in *.
    cbn [map list_sum fold_right] in Hk. fold (list_sum (map sz k)) in Hk.
    destruct i as [|kd w p b st f e|b|s b|s b kids].
    1,2,3,4: (destruct (IH k ltac:(cbn [sz] in Hk; lia)) as (cs & H); eexists; constructor; exact H).
    destruct (IH k ltac:(cbn [sz] in Hk; lia)) as (c2 & H2). destruct (IH kids ltac:(cbn [sz] in Hk; lia)) as (c1 & H1). eexists. constructor; eassumption. }
  apply (K (S (list_sum (map (fix sz (i : item) : nat := match i with IXObj _ _ k => S (list_sum (map sz k)) | _ => 1%nat end) l)))). lia.
Qed.
Lemma reads_unique l cs : Reads l cs -> forall cs', Reads l cs' -> cs = cs'.
Proof.
  induction 1 as [|b r cs _ IH|s b k r c1 c2 _ IH1 _ IH2|r cs _ IH|k w p b st f e r cs _ IH|s b r cs _ IH]; intros cs' H; inversion H; subst; f_equal; auto.
Qed.
Lemma title_spells n : 0 <= n -> spells (bs "========== [ page " ++ py_str_int n ++ bs " ] ==========" ++ nl, None) (page_title (py_str_int n)).
Proof.
  intros Hn. unfold page_title. apply spells_ascii. destruct (decimal_py n Hn) as (_ & D & _). rewrite !forallb_app. repeat (apply andb_true_iff; split); try reflexivity.
  apply forallb_forall. intros c Hc. rewrite forallb_forall in D. specialize (D c Hc). unfold is_digit in D. lia.
Qed.
(* the text files: whatever the document holds, also when an exception ends it *)
Definition encodable (d : odoc) : Prop :=
  forall p cs, In p (fst d) -> Reads (fst (pg_items p)) cs -> Forall (Forall scalar) cs.
Theorem C72_text_file d : Forall (fun p => 0 <= pg_num p) (fst d) -> encodable d ->
  exists text, TextOf d text /\ utf8_decode (fst (text_file d)) = Some text /\ Ends d (snd (text_file d)).
Proof.
  destruct d as [ps e]. cbn [fst]. unfold text_file. cbn [fst snd].
  induction ps as [|p ps IH]; intros HN HE.
  - exists []. split; [constructor|]. split; [reflexivity|constructor].
  - inversion HN as [|? ? HN1 HN2]; subst. destruct p as [n w h [items err]]. cbn [pg_num] in HN1.
    destruct (items_read items) as (cs & Hcs). assert (S : Forall (Forall scalar) cs) by (eapply HE; [left; reflexivity|exact Hcs]).
    pose proof (spells_app _ _ _ _ (title_spells n HN1) (spells_items items cs Hcs S)) as Q.
    cbn [gflat]. unfold text_page at 1 3. cbn [pg_num pg_items fst snd].
    destruct err as [err|].
    + exists (page_title (py_str_int n) ++ concat cs). split; [apply tx_cut; [apply decimal_py; assumption|assumption]|].
      destruct Q as [Q1 Q2].
      assert (E : forall a b : gen Z, snd (gapp a b) = None -> gapp a (gapp b (gfail err)) = (fst (gapp a b), Some err)).
      { intros [a ea] [b eb]. unfold gapp, gfail. cbn [fst snd]. destruct ea; [discriminate|]. cbn [fst snd]. intros ->. cbn. rewrite app_nil_r. reflexivity. }
      rewrite (E _ _ Q1). unfold gapp at 1. cbn [fst snd]. unfold gapp at 1 3. cbn [fst snd].
      split; [|constructor].
      specialize (Q2 []). rewrite app_nil_r in Q2. rewrite Q2. cbn. rewrite app_nil_r. reflexivity.
    + destruct IH as (x & X1 & X2 & X3); [assumption|intros p' cs' Hp; apply HE; right; exact Hp|].
      exists (page_title (py_str_int n) ++ concat cs ++ [10] ++ x). split; [apply tx_page; [apply decimal_py; assumption|assumption|assumption]|].
      assert (NL : spells (nl, None) [10]) by (apply spells_ascii; reflexivity).
      pose proof (spells_app _ _ _ _ (title_spells n HN1) (spells_app _ _ _ _ (spells_items items cs Hcs S) NL)) as R.
      set (pg := gapp _ (gapp _ (nl, None))) in *. destruct R as [R1 R2].
      assert (E : gapp (gapp pg (gflat text_page ps)) ([], e) = gapp pg (gapp (gflat text_page ps) ([], e))).
      { unfold gapp. rewrite R1. cbn [fst snd]. destruct (gflat text_page ps) as [b [eb|]]; cbn [fst snd]; [reflexivity|]. rewrite app_assoc. reflexivity. }
      rewrite E. assert (E2 : gapp pg (gapp (gflat text_page ps) ([], e)) = (fst pg ++ fst (gapp (gflat text_page ps) ([], e)), snd (gapp (gflat text_page ps) ([], e)))).
      { unfold gapp at 1. rewrite R1. reflexivity. }
      rewrite E2. cbn [fst snd]. rewrite R2, X2. cbn [oapp]. split; [f_equal; rewrite <- !app_assoc; reflexivity|].
      constructor. exact X3.
Qed.
(* the text of a document is one text *)
Lemma decimal_unique a b n : is_decimal a n -> is_decimal b n -> a = b.
Proof.
  assert (V : forall l a, forallb is_digit l = true -> fold_left (fun a c => 10 * a + (c - 48)) l a = a * 10 ^ Z.of_nat (length l) + decimal_value l /\ 0 <= decimal_value l < 10 ^ Z.of_nat (length l)).
  { induction l as [|c l IH] using rev_ind; intros x H.
    - cbn. lia.
    - rewrite forallb_app in H. apply andb_true_iff in H as [H1 H2]. cbn [forallb] in H2. rewrite andb_true_r in H2. unfold is_digit in H2.
      unfold decimal_value. rewrite !fold_left_app. cbn [fold_left]. destruct (IH x H1) as [E1 E2], (IH 0 H1) as [E3 _]. rewrite E1, E3.
      rewrite app_length, Nat2Z.inj_add, Z.pow_add_r by lia. cbn [length]. change (10 ^ Z.of_nat 1) with 10. unfold decimal_value in *. nia. }
  assert (U : forall l1 l2, length l1 = length l2 -> forallb is_digit l1 = true -> forallb is_digit l2 = true -> decimal_value l1 = decimal_value l2 -> l1 = l2).
  { induction l1 as [|c l1 IH] using rev_ind; intros l2 HL H1 H2 HV.
    - destruct l2; [reflexivity|discriminate].
    - destruct l2 as [|c2 l2 _] using rev_ind; [rewrite app_length in HL; cbn in HL; lia|].
      rewrite !app_length in HL. cbn [length] in HL. rewrite forallb_app in H1, H2. apply andb_true_iff in H1 as [H1 H1'], H2 as [H2 H2'].
      cbn [forallb] in H1', H2'. rewrite andb_true_r in H1', H2'. unfold is_digit in H1', H2'. unfold decimal_value in HV. rewrite !fold_left_app in HV. cbn [fold_left] in HV.
      assert (E : decimal_value l1 = decimal_value l2) by (unfold decimal_value; lia). rewrite (IH l2 ltac:(lia) H1 H2 E). f_equal. f_equal. unfold decimal_value in E. lia. }
  assert (L : forall l, l <> [] -> forallb is_digit l = true -> (hd 0 l = 48 -> l = [48]) -> l = [48] \/ 10 ^ (Z.of_nat (length l) - 1) <= decimal_value l).
  { intros [|c l] H1 H2 H3; [congruence|]. cbn [forallb] in H2. apply andb_true_iff in H2 as [H2 H2']. cbn [hd] in H3.
    destruct (Z.eq_dec c 48) as [Hc|Hc]; [left; auto|right].
    unfold decimal_value. cbn [fold_left]. destruct (V l (10 * 0 + (c - 48)) H2') as [-> E]. cbn [length]. replace (Z.of_nat (S (length l)) - 1) with (Z.of_nat (length l)) by lia.
    unfold is_digit in H2. assert (0 < 10 ^ Z.of_nat (length l)) by (apply Z.pow_pos_nonneg; lia). nia. }
  intros (A1 & A2 & A3 & A4) (B1 & B2 & B3 & B4).
  destruct (V a 0 A2) as [_ VA], (V b 0 B2) as [_ VB]. rewrite A3 in VA. rewrite B3 in VB.
  assert (P : forall k, 0 < 10 ^ Z.of_nat k) by (intros; apply Z.pow_pos_nonneg; lia).
  assert (Q : forall l : list Z, l <> [] -> 0 < 10 ^ (Z.of_nat (length l) - 1)) by (intros [|? ?] ?; [congruence|]; apply Z.pow_pos_nonneg; cbn [length]; lia).
  destruct (L a A1 A2 A4) as [->|LA], (L b B1 B2 B4) as [->|LB]; [reflexivity| | |].
  - exfalso. specialize (Q b B1). cbn in A3. lia.
  - exfalso. specialize (Q a A1). cbn in B3. lia.
  - apply U; try assumption; [|congruence]. rewrite A3 in LA. rewrite B3 in LB.
    destruct (Nat.lt_trichotomy (length a) (length b)) as [H|[H|H]]; [|exact H|]; exfalso.
    + assert (10 ^ Z.of_nat (length a) <= 10 ^ (Z.of_nat (length b) - 1)) by (apply Z.pow_le_mono_r; lia). lia.
    + assert (10 ^ Z.of_nat (length b) <= 10 ^ (Z.of_nat (length a) - 1)) by (apply Z.pow_le_mono_r; lia). lia.
Qed.
Theorem C72_one_text d x : TextOf d x -> forall y, TextOf d y -> x = y.
Proof.
  induction 1 as [e|n dn w h items cs ps e x D R T IH|n dn w h items cs ps e err D R]; intros y H; inversion H as [|? dn' ? ? ? cs' ? ? y' D' R' T'|? dn' ? ? ? cs' ? ? ? D' R']; subst; try reflexivity.
  - rewrite (decimal_unique _ _ _ D D'), (reads_unique _ _ R _ R'), (IH _ T'). reflexivity.
  - rewrite (decimal_unique _ _ _ D D'), (reads_unique _ _ R _ R'). reflexivity.
Qed.
(* not for a character that is not a Unicode scalar value: the conversion stops there with UnicodeEncodeError *)
Theorem C72_surrogate_refuted : exists d, Forall (fun p => 0 <= pg_num p) (fst d) /\ snd d = None /\
  Forall (fun p => snd (pg_items p) = None) (fst d) /\ snd (text_file d) = Some UnicodeError.
Proof.
  exists ([mkPage 0 (qz 1) (qz 1) ([IText (mkTB None [mkCB [([55296], mkBox (qz 0) (qz 0) (qz 0) (qz 0))] (mkBox (qz 0) (qz 0) (qz 0) (qz 0)) (mkColor None []) t0])], None)], None).
  splits; [repeat constructor; cbn; lia|reflexivity|repeat constructor|reflexivity].
Qed.

(* ---------- C73: from the content stream to the text ---------- *)
Definition block_texts (b : option textblock) : list (list Z) :=
  match b with Some b => flat_map (fun cb => map fst (cb_chars cb)) (tb_blocks b) | None => [] end.
Definition no_text (p : pending) : Prop := match p with PItem INone | PItem (ICurve _ _ _ _ _ _ _) | PItem (IImage _ _) => True | _ => False end.
Lemma render_cids_texts f ts cids : forall lm need lm' cs n, render_cids f ts lm need cids = (lm', cs, n, None) ->
  map fst cs = map (fun c => match f_unichr f c with Some t => t | None => [] end) cids.
Proof.
  induction cids as [|c cids IH]; intros lm need lm' cs n; cbn [render_cids map].
  - intros [= <- <- <-]. reflexivity.
  - unfold ts_unichr. destruct (f_unichr f c) as [t|] eqn:E.
    + destruct (char_box f ts _ c) as [adv box]. destruct (render_cids f ts _ true cids) as [[[lm4 cs4] n4] e4] eqn:R.
      intros [= <- <- <- ->]. cbn [map fst]. f_equal. eapply IH. exact R.
    + destruct (t_ignore ts); [|discriminate]. destruct (char_box f ts _ c) as [adv box]. destruct (render_cids f ts _ true cids) as [[[lm4 cs4] n4] e4] eqn:R.
      intros [= <- <- <- ->]. cbn [map fst]. f_equal. eapply IH. exact R.
Qed.
Lemma render_seq_texts f ts dx seq ts' : said f seq ts' -> forall lm need lm' cs, render_seq f ts dx lm need seq = (lm', cs, None) -> map fst cs = ts'.
Proof.
  induction 1 as [|o v l ts' Hv _ IH|b cids l ts' Hd _ IH]; intros lm need lm' cs; cbn [render_seq].
  - intros [= <- <-]. reflexivity.
  - rewrite Hv. apply IH.
  - cbn [num_of]. rewrite Hd. destruct (render_cids f ts lm need cids) as [[[lm1 cs1] n1] [e1|]] eqn:R; [discriminate|].
    destruct (render_seq f ts dx lm1 n1 l) as [[lm2 cs2] e2] eqn:R2. intros [= <- <- ->]. rewrite map_app, (render_cids_texts _ _ _ _ _ _ _ _ R). f_equal. eapply IH. exact R2.
Qed.
Section says_props.
Context (getobj : Z -> option obj) (depth : nat) (mkfont : obj -> res font) (nested : istate -> list obj -> gen item * istate).
Notation step := (step getobj depth).
Notation exec := (exec getobj depth).
Notation run := (run getobj depth mkfont nested).
(* what an operator that is not of text leaves *)
Definition same_text (s s1 : istate) : Prop :=
  t_font (s_text s1) = t_font (s_text s) /\ s_gstack s1 = s_gstack s /\ s_block s1 = s_block s /\ s_fonts s1 = s_fonts s /\
  s_xobjs s1 = s_xobjs s /\ s_resources s1 = s_resources s /\ exists p, s_done s1 = s_done s ++ p /\ Forall no_text p.
Definition speech_op (c : op) : bool :=
  match c with o_q | o_Q | o_BT | o_ET | o_Tf | o_TJ | o_Tj | o_quote | o_dquote | o_Do => true | _ => false end.
Lemma same_text_refl s : same_text s s.
Proof. repeat split. exists []. rewrite app_nil_r. split; [reflexivity|constructor]. Qed.
Lemma make_curve_no_text ctm g eo p : no_text (PItem (make_curve ctm g eo p)).
Proof. destruct (make_curve_spec ctm g eo p) as [(k & w & b & st & fi & ->)|[-> _]]; exact Logic.I. Qed.
Ltac same0 := repeat split; cbn; exists []; rewrite app_nil_r; (split; [reflexivity|constructor]).
Lemma exec_same_text c args s : speech_op c = false -> same_text s (fst (exec c args s)).
Proof.
  intros H. destruct c; try discriminate; unfold Interp_Model.exec, with_num, device, paint, nextline, fresh_lm, ok, fail;
    try (destruct args as [|? [|? [|? [|]]]]; try apply same_text_refl);
    try solve [same0]; try solve [brk; same0].
  all: try solve [destruct (nums _) as [v|]; [|same0]; brk; same0].
  all: try solve [repeat split; eexists [_]; (split; [reflexivity|]); (constructor; [apply make_curve_no_text|constructor])].
  - brk; try same0; pose proof (pop_other s z) as P; rewrite Heqp in P; destruct P as (k & -> & _); same0.
  - brk; try same0; pose proof (pop_other s z) as P; rewrite Heqp in P; destruct P as (k & -> & _); same0.
  - unfold add_item, item_EI. destruct o; try same0.
    + brk; same0.
    + destruct (dget attrs "W"), (dget attrs "H"); try same0. repeat split; eexists [_]; (split; [reflexivity|]); (constructor; [exact Logic.I|constructor]).
Qed.
Lemma step_same_text s o s1 : ~ among o text_words -> step s o = (s1, None) -> same_text s s1.
Proof.
  intros Ho E. destruct (step_cases getobj depth s o) as [(k & args & b & Hk & c & C1 & C2)|[(b & C1)|(b & k & Hk & C1)]].
  - rewrite C2 in E. subst o. destruct (speech_op c) eqn:Es.
    + exfalso. apply Ho. apply (not_among_ops _ k c C1). destruct c; try discriminate; vm_compute; reflexivity.
    + pose proof (exec_same_text c args (with_args s b) Es) as K. rewrite E in K. exact K.
  - rewrite C1 in E. injection E as <-. same0.
  - rewrite C1 in E. discriminate.
Qed.
Lemma reads_silent p : Forall no_text p -> forall g, exists items, gflat (finish getobj depth mkfont nested g) p = (items, None) /\
  forall r cs, Reads r cs -> Reads (items ++ r) cs.
Proof.
  induction 1 as [|i p Hi _ IH]; intros g; cbn [gflat]; [exists []; split; [reflexivity|intros; assumption]|].
  destruct (IH g) as (items & E & K). rewrite E. destruct i as [[| | | |]|]; try destruct Hi; cbn [finish gapp fst snd app]; eexists; (split; [reflexivity|]);
    intros r cs Hr; cbn [app]; constructor; apply K; exact Hr.
Qed.
(* one token that says nothing *)
Lemma run_silent s o s1 l items s' : step s o = (s1, None) -> (exists p, s_done s1 = p /\ Forall no_text p) -> run s (o :: l) = ((items, None), s') ->
  exists i1 i2, items = i1 ++ i2 /\ run (with_done s1 []) l = ((i2, None), s') /\ forall cs, Reads i2 cs -> Reads (i1 ++ i2) cs.
Proof.
  intros E (p & Hp & Hn). cbn [Interp_Model.run]. rewrite E, Hp. destruct (reads_silent p Hn (s_g s1)) as (i1 & E1 & K). rewrite E1. cbn [snd].
  destruct (run (with_done s1 []) l) as [[i2 e] s2]. cbn [gapp fst snd]. intros [= <- -> <-]. exists i1, i2. split; [reflexivity|]. split; [reflexivity|]. apply K.
Qed.
Definition shown_fonts (s : istate) : list (option font) := rev (map (fun x => t_font (snd (fst x))) (s_gstack s)).
(* what a showing operator leaves *)
Lemma show_says s f seq ts s1 : t_font (s_text s) = Some f -> said f seq ts -> show s seq = (s1, None) ->
  s_text s1 = s_text s /\ s_gstack s1 = s_gstack s /\ s_fonts s1 = s_fonts s /\ s_done s1 = s_done s /\
  s_xobjs s1 = s_xobjs s /\ s_resources s1 = s_resources s /\ (exists b, s_block s1 = Some b) /\ (exists b, s_block s = Some b) /\ block_texts (s_block s1) = block_texts (s_block s) ++ ts.
Proof.
  intros Hf Hs. unfold show. rewrite Hf. destruct (s_block s) as [b|] eqn:Eb; [|discriminate].
  destruct (render_seq _ _ _ _ _ _) as [[lm cs] [e|]] eqn:R; [discriminate|].
  destruct (char_block cs _ _) as [cb|e] eqn:C; [|discriminate]. intros [= <-]. cbn.
  splits; try reflexivity; try solve [eexists; reflexivity]. rewrite flat_map_app. f_equal. cbn [flat_map]. rewrite app_nil_r.
  rewrite <- (render_seq_texts _ _ _ _ _ Hs _ _ _ _ R). unfold char_block in C. destruct cs as [|[c [[x0 y0] [x1 y1]]] cs]; [discriminate|].
  destruct (cb_union _ _ _ _ _) as [[[? ?] ?] ?]. injection C as <-. cbn [cb_chars map fst]. f_equal. rewrite map_map. reflexivity.
Qed.
Lemma said_not_kwd f o ts : said f [o] ts -> forall k, o <> OKwd k.
Proof. intros H k ->. inversion H; discriminate. Qed.
Lemma run_show s s0 f seq t1 args k l items s' : Forall (fun o => forall k, o <> OKwd k) args -> s_done s = [] ->
  step (with_args s (s_args s ++ args)) (OK k) = show s0 seq ->
  t_font (s_text s0) = Some f -> s_gstack s0 = s_gstack s -> s_fonts s0 = s_fonts s -> s_done s0 = s_done s -> s_block s0 = s_block s ->
  s_xobjs s0 = s_xobjs s -> s_resources s0 = s_resources s -> said f seq t1 -> run s (args ++ OK k :: l) = ((items, None), s') ->
  exists s1, run s1 l = ((items, None), s') /\ t_font (s_text s1) = Some f /\ shown_fonts s1 = shown_fonts s /\ s_fonts s1 = s_fonts s /\
    s_xobjs s1 = s_xobjs s /\ s_resources s1 = s_resources s /\ s_block s1 <> None /\ s_done s1 = [] /\ block_texts (s_block s1) = block_texts (s_block s) ++ t1.
Proof.
  intros Ha HD Hst B1 B2 B3 B4 B5 B6 B7 Hs E. rewrite (run_push getobj depth mkfont nested args Ha s _ HD) in E.
  cbn [Interp_Model.run] in E. rewrite Hst in E. destruct (show s0 seq) as [s1 [e|]] eqn:S; [discriminate|].
  destruct (show_says s0 f seq t1 s1 B1 Hs S) as (A1 & A2 & A3 & A4 & A8 & A9 & (b1 & A5) & A6 & A7).
  rewrite A4, B4, HD in E. cbn [gflat gnil snd] in E. destruct (run (with_done s1 []) l) as [[i2 e] s2] eqn:R. rewrite gapp_nil in E. injection E as -> -> ->.
  exists (with_done s1 []). split; [exact R|]. cbn [s_text with_done s_block s_gstack s_fonts s_done s_xobjs s_resources]. splits; try congruence.
  unfold shown_fonts. cbn. congruence.
Qed.
(* what the operator Do shows in a state with these XObjects and resources, whatever the transformation and the graphics
   state are *)
Definition form_says (xobjs : list (obj * obj)) (resources : obj) (n : list Z) (t : list (list Z)) : Prop :=
  forall ctm g p items, item_Do getobj depth xobjs ctm resources (OName n) = Ok p ->
    gflat (finish getobj depth mkfont nested g) (match p with Some p => [p] | None => [] end) = (items, None) -> Reads items t.
Lemma reads_app a ta b tb : Reads a ta -> Reads b tb -> Reads (a ++ b) (ta ++ tb).
Proof. induction 1; intros Hb; cbn [app]; rewrite <- ?app_assoc; try constructor; auto. Qed.
Theorem C73_content_text fonts (forms : list Z -> list (list Z) -> Prop) xobjs resources open F st l ts : (forall n t, forms n t -> form_says xobjs resources n t) ->
  Says fonts forms open F st l ts -> forall s items s', s_xobjs s = xobjs -> s_resources s = resources ->
  t_font (s_text s) = F -> shown_fonts s = st -> (forall n, assoc_get (s_fonts s) (OName n) = fonts n) ->
  (if open then s_block s <> None else s_block s = None) -> s_done s = [] ->
  run s l = ((items, None), s') -> Reads items (block_texts (s_block s) ++ ts).
Proof.
  intros HForm.
  induction 1 as [F st|b F st o l ts Ho _ IH|b F st n x f l ts Hf Hx _ IH|b F st l ts _ IH|b F F' st l ts _ IH|F st l ts _ IH|F st l ts _ IH
    |F st n t l ts Hn _ IH|f st o l t1 ts Hs _ IH|f st seq l t1 ts Hs _ IH|f st o l t1 ts Hs _ IH|f st w c o l t1 ts Hw Hc Hs _ IH]; intros s items s' HX HR HF HS HM HO HD E.
  - injection E as <- <-. rewrite HO. constructor.
  - destruct (step s o) as [s1 [e|]] eqn:E1; [cbn [Interp_Model.run] in E; rewrite E1 in E; discriminate|].
    destruct (step_same_text s o s1 Ho E1) as (A1 & A2 & A3 & A4 & A7 & A8 & p & A5 & A6). rewrite HD in A5.
    destruct (run_silent s o s1 l items s' E1) as (i1 & i2 & -> & R & K); [exists p; split; assumption|exact E|].
    apply K. rewrite <- A3. apply (IH (with_done s1 []) i2 s'); cbn; try congruence; try reflexivity; try exact R.
    + unfold shown_fonts in *. cbn. congruence.
    + destruct b; congruence.
  - change ([OName n; x; OK "Tf"] ++ l) with ([OName n; x] ++ OK "Tf" :: l) in E.
    destruct (num_of x) as [size|] eqn:Ex.
    + rewrite (run_instr getobj depth mkfont nested "Tf" 2 o_Tf s (with_text (with_text s (t_with_size (s_text s) size)) (t_with_font (t_with_size (s_text s) size) (Some f))) [OName n; x] l) in E;
        try reflexivity; try assumption.
      2:{ repeat constructor; [discriminate|exact Hx]. }
      2:{ cbn [Interp_Model.exec]. rewrite Ex. cbn [hashable negb]. rewrite HM, Hf. reflexivity. }
      apply IH in E; try assumption; reflexivity.
    + exfalso. rewrite (run_push getobj depth mkfont nested [OName n; x]) in E; [|repeat constructor; [discriminate|exact Hx]|assumption].
      cbn [Interp_Model.run] in E. rewrite (step_op getobj depth "Tf" 2 o_Tf s (s_args s) [OName n; x]) in E by reflexivity.
      cbn [Interp_Model.exec] in E. rewrite Ex in E. discriminate.
  - rewrite (run_quiet getobj depth mkfont nested s (OK "q") _ l (step_q getobj depth s)) in E by exact HD.
    apply IH in E; try assumption. unfold shown_fonts in *. cbn. rewrite map_app, rev_app_distr. cbn. congruence.
  - destruct (s_gstack s) as [|x g _] eqn:Eg using rev_ind; [unfold shown_fonts in HS; rewrite Eg in HS; discriminate|]. destruct x as [[m t] g0].
    rewrite (run_quiet getobj depth mkfont nested s (OK "Q") _ l (step_Q getobj depth s g m t g0 Eg)) in E by exact HD.
    unfold shown_fonts in HS. rewrite Eg, map_app, rev_app_distr in HS. cbn in HS. injection HS as <- <-.
    apply IH in E; try assumption; reflexivity.
  - assert (E1 : step s (OK "BT") = (with_block (fresh_lm s (t_with_matrix (s_text s) matrix_identity)) (Some (mkTB None [])), None)).
    { unfold Interp_Model.step, OK. replace (command (bs "BT")) with (Some o_BT) by reflexivity. cbn [arity Nat.eqb Interp_Model.exec]. rewrite HO. reflexivity. }
    rewrite (run_quiet getobj depth mkfont nested s (OK "BT") _ l E1) in E by exact HD. apply IH in E; try assumption; [|discriminate].
    rewrite HO. exact E.
  - destruct (s_block s) as [b|] eqn:Eb; [|congruence].
    assert (E1 : step s (OK "ET") = (with_block (with_done s [PItem (IText b)]) None, None)).
    { unfold Interp_Model.step, OK. replace (command (bs "ET")) with (Some o_ET) by reflexivity. cbn [arity Nat.eqb Interp_Model.exec]. rewrite Eb, HD. reflexivity. }
    rewrite (run_item getobj depth mkfont nested s (OK "ET") _ (IText b) l E1) in E by reflexivity.
    destruct (run (with_done _ []) l) as [[i2 e] s2] eqn:R. injection E as <- -> <-.
    apply rd_text. apply IH in R; try assumption; reflexivity.
  - rewrite HO. cbn [block_texts app]. change ([OName n; OK "Do"] ++ l) with ([OName n] ++ OK "Do" :: l) in E.
    rewrite (run_push getobj depth mkfont nested [OName n]) in E; [|repeat constructor; discriminate|assumption].
    cbn [Interp_Model.run] in E. rewrite (step_op getobj depth "Do" 1 o_Do s (s_args s) [OName n]) in E by reflexivity.
    replace (with_args s (s_args s)) with s in E by (destruct s; reflexivity). cbn [Interp_Model.exec] in E. unfold add_item in E. rewrite HX, HR, HD in E.
    destruct (item_Do getobj depth xobjs (s_ctm s) resources (OName n)) as [p|e] eqn:Ep; [|discriminate].
    set (s1 := match p with Some p0 => with_done s ([] ++ [p0]) | None => s end).
    assert (X : match p with Some p0 => ok (with_done s ([] ++ [p0])) | None => ok s end = (s1, None)) by (unfold s1; destruct p; reflexivity).
    rewrite X in E. assert (D1 : s_done s1 = match p with Some p0 => [p0] | None => [] end) by (unfold s1; destruct p; cbn; auto). rewrite D1 in E.
    destruct (gflat (finish getobj depth mkfont nested (s_g s1)) (match p with Some p0 => [p0] | None => [] end)) as [i1 [e1|]] eqn:Eg; cbn [snd] in E; [discriminate|].
    destruct (run (with_done s1 []) l) as [[i2 e] s2] eqn:R. cbn [gapp fst snd] in E. injection E as <- -> <-.
    apply reads_app; [exact (HForm n t Hn _ _ _ _ Ep Eg)|].
    assert (K : s_text s1 = s_text s /\ s_gstack s1 = s_gstack s /\ s_fonts s1 = s_fonts s /\ s_block s1 = s_block s /\ s_xobjs s1 = s_xobjs s /\ s_resources s1 = s_resources s)
      by (unfold s1; destruct p; repeat split).
    destruct K as (K1 & K2 & K3 & K4 & K5 & K6). apply IH in R; cbn; try congruence; try reflexivity.
    + cbn [s_block with_done] in R. rewrite K4, HO in R. exact R.
    + unfold shown_fonts in *. cbn. congruence.
  - pose proof (said_not_kwd f o t1 Hs) as Hk. change ([o; OK "Tj"] ++ l) with ([o] ++ OK "Tj" :: l) in E.
    destruct (run_show s s f [o] t1 [o] "Tj" l items s') as (s1 & R & C1 & C2 & C3 & C7 & C8 & C4 & C5 & C6); try assumption; try reflexivity; try (repeat constructor; assumption).
    { rewrite (step_op getobj depth "Tj" 1 o_Tj s (s_args s) [o]) by reflexivity. cbn [Interp_Model.exec]. replace (with_args s (s_args s)) with s by (destruct s; reflexivity). reflexivity. }
    apply IH in R; try assumption; try congruence. rewrite C6, <- app_assoc in R; exact R.
  - change ([OArr seq; OK "TJ"] ++ l) with ([OArr seq] ++ OK "TJ" :: l) in E.
    destruct (run_show s s f seq t1 [OArr seq] "TJ" l items s') as (s1 & R & C1 & C2 & C3 & C7 & C8 & C4 & C5 & C6); try assumption; try reflexivity; try (repeat constructor; discriminate).
    { rewrite (step_op getobj depth "TJ" 1 o_TJ s (s_args s) [OArr seq]) by reflexivity. cbn [Interp_Model.exec]. replace (with_args s (s_args s)) with s by (destruct s; reflexivity). reflexivity. }
    apply IH in R; try assumption; try congruence. rewrite C6, <- app_assoc in R; exact R.
  - pose proof (said_not_kwd f o t1 Hs) as Hk. change ([o; OK "'"] ++ l) with ([o] ++ OK "'" :: l) in E.
    destruct (run_show s (nextline s) f [o] t1 [o] "'" l items s') as (s1 & R & C1 & C2 & C3 & C7 & C8 & C4 & C5 & C6); try assumption; try reflexivity; try (repeat constructor; assumption).
    { rewrite (step_op getobj depth "'" 1 o_quote s (s_args s) [o]) by reflexivity. cbn [Interp_Model.exec]. replace (with_args s (s_args s)) with s by (destruct s; reflexivity). reflexivity. }
    apply IH in R; try assumption; try congruence. rewrite C6, <- app_assoc in R; exact R.
  - pose proof (said_not_kwd f o t1 Hs) as Hk. change ([w; c; o; OK """"] ++ l) with ([w; c; o] ++ OK """" :: l) in E.
    assert (X : step (with_args s (s_args s ++ [w; c; o])) (OK """") = exec o_dquote [w; c; o] s).
    { rewrite (step_op getobj depth """" 3 o_dquote s (s_args s) [w; c; o]) by reflexivity. replace (with_args s (s_args s)) with s by (destruct s; reflexivity). reflexivity. }
    cbn [Interp_Model.exec] in X. destruct (num_of w) as [w'|] eqn:Ew; [destruct (num_of c) as [c'|] eqn:Ec|].
    + destruct (run_show s (with_text s (t_with_charspace (t_with_wordspace (s_text s) w') c')) f [o] t1 [w; c; o] """" l items s')
        as (s1 & R & C1 & C2 & C3 & C7 & C8 & C4 & C5 & C6); try assumption; try reflexivity; try (repeat constructor; assumption).
      apply IH in R; try assumption; try congruence. rewrite C6, <- app_assoc in R; exact R.
    + exfalso. rewrite (run_push getobj depth mkfont nested [w; c; o]) in E; [|repeat constructor; assumption|assumption].
      cbn [Interp_Model.run] in E. rewrite X in E. discriminate.
    + exfalso. rewrite (run_push getobj depth mkfont nested [w; c; o]) in E; [|repeat constructor; assumption|assumption].
      cbn [Interp_Model.run] in E. rewrite X in E. discriminate.
Qed.
End says_props.

(* ---------- pages ---------- *)
Section page_props.
Context (getobj : Z -> option obj) (depth : nat) (mkfont : obj -> res font) (parse : list obj -> gen obj).
Notation process := (process getobj depth mkfont parse).
Definition font_at (o : obj) : option font := match mkfont o with Ok f => Some f | Err _ => None end.
Definition tokens_of (l : list obj) : option (list obj) := match parse l with (objs, None) => Some objs | _ => None end.

Lemma named_cons k v d : named ((k, v) :: d) -> (exists n, k = OName n) /\ (forall v', ~ In (k, v') d) /\ named d.
Proof.
  intros [H1 H2]. inversion H1 as [|? ? A B]; subst. inversion H2 as [|? ? C D]; subst. splits; [exact C| |split; assumption].
  intros v' Hin. apply A. cbn. apply (in_map fst) in Hin. exact Hin.
Qed.
Lemma assoc_get_set {A} (l : list (obj * A)) n m v : assoc_get (assoc_set l (OName n) v) (OName m) = if list_eqb n m then Some v else assoc_get l (OName m).
Proof.
  induction l as [|[k x] l IH]; cbn [assoc_set assoc_get].
  - cbn [key_eqb]. reflexivity.
  - destruct (key_eqb k (OName n)) eqn:E; cbn [assoc_get].
    + destruct k; try discriminate E. cbn [key_eqb] in *. apply list_eqb_eq in E as ->. destruct (list_eqb n m); reflexivity.
    + rewrite IH. destruct (list_eqb n m) eqn:E2; [|reflexivity]. apply list_eqb_eq in E2 as <-. rewrite E. reflexivity.
Qed.
Lemma dict_get_absent d n v' : (forall v, ~ In (OName n, v) d) -> Forall (fun e : obj * obj => exists n, fst e = OName n) d -> dict_get d (OName n) = Some v' -> False.
Proof.
  induction d as [|[k v] d IH]; cbn [dict_get]; intros H1 H2 E; [discriminate|]. inversion H2 as [|? ? [m Hm] H4]; subst. cbn in Hm. subst k.
  cbn [key_eqb] in E. destruct (list_eqb m n) eqn:En; [apply list_eqb_eq in En as ->; apply (H1 v); left; reflexivity|].
  apply IH; [intros w Hw; apply (H1 w); right; exact Hw|exact H4|exact E].
Qed.
Lemma dict_get_gone d n : (forall v, ~ In (OName n, v) d) -> named d -> dict_get d (OName n) = None.
Proof. intros H [_ H2]. destruct (dict_get d (OName n)) eqn:E; [|reflexivity]. destruct (dict_get_absent _ _ _ H H2 E). Qed.
Lemma fold_fonts fs : named fs -> forall s s', fold_res (fun s e => do f <- mkfont (snd e); Ok (with_fonts s (assoc_set (s_fonts s) (fst e) f))) s fs = Ok s' ->
  s_xobjs s' = s_xobjs s /\ forall n, assoc_get (s_fonts s') (OName n) = match dict_get fs (OName n) with Some x => font_at x | None => assoc_get (s_fonts s) (OName n) end.
Proof.
  induction fs as [|[k x] fs IH]; intros Hn s s'; cbn [fold_res dict_get fst snd]; [intros [= <-]; split; reflexivity|].
  destruct (named_cons _ _ _ Hn) as ([m ->] & Hm & Hn'). destruct (mkfont x) as [f|] eqn:Ef; cbn [bind]; [|discriminate]. intros E.
  destruct (IH Hn' _ _ E) as [I1 I2]. split; [exact I1|]. intros n. rewrite I2. cbn [s_fonts with_fonts key_eqb]. rewrite assoc_get_set.
  destruct (list_eqb m n) eqn:En; [|reflexivity]. apply list_eqb_eq in En as <-. rewrite (dict_get_gone fs m Hm Hn'). unfold font_at. rewrite Ef. reflexivity.
Qed.
Lemma fold_xobjs xs : named xs -> forall s s', fold_res (fun s e => Ok (with_xobjs s (assoc_set (s_xobjs s) (fst e) (snd e)))) s xs = Ok s' ->
  s_fonts s' = s_fonts s /\ forall n, assoc_get (s_xobjs s') (OName n) = match dict_get xs (OName n) with Some x => Some x | None => assoc_get (s_xobjs s) (OName n) end.
Proof.
  induction xs as [|[k x] xs IH]; intros Hn s s'; cbn [fold_res dict_get fst snd bind]; [intros [= <-]; split; reflexivity|].
  destruct (named_cons _ _ _ Hn) as ([m ->] & Hm & Hn'). intros E.
  destruct (IH Hn' _ _ E) as [I1 I2]. split; [exact I1|]. intros n. rewrite I2. cbn [s_xobjs with_xobjs key_eqb]. rewrite assoc_get_set.
  destruct (list_eqb m n) eqn:En; [|reflexivity]. apply list_eqb_eq in En as <-. rewrite (dict_get_gone xs m Hm Hn'). reflexivity.
Qed.
Lemma fold_cs cs : forall s s', fold_res (fun s e => do x <- resolved getobj depth (snd e); do c <- get_colorspace getobj depth x; Ok (with_cs s (assoc_set (s_cs s) (fst e) c))) s cs = Ok s' ->
  s_fonts s' = s_fonts s /\ s_xobjs s' = s_xobjs s.
Proof.
  induction cs as [|[k x] cs IH]; intros s s'; cbn [fold_res fst snd]; [intros [= <-]; split; reflexivity|].
  destruct (resolved getobj depth x) as [x'|]; cbn [bind]; [|discriminate]. destruct (get_colorspace getobj depth x') as [c|]; cbn [bind]; [|discriminate].
  intros E. apply IH in E. exact E.
Qed.
Definition is_key (n : string) (kv : obj * obj) : bool := match fst kv with OName m => list_eqb m (bs n) | _ => false end.
Lemma resources_fold d : named d -> forall s s' fs xs, category getobj d "Font" fs -> named fs -> category getobj d "XObject" xs -> named xs ->
  fold_res (fun s kv =>
      if is_key "Font" kv then
        do fs <- dict_value getobj depth (snd kv);
        fold_res (fun s e => do f <- mkfont (snd e); Ok (with_fonts s (assoc_set (s_fonts s) (fst e) f))) s fs
      else if is_key "ColorSpace" kv then
        do cs <- dict_value getobj depth (snd kv);
        fold_res (fun s e => do x <- resolved getobj depth (snd e); do c <- get_colorspace getobj depth x; Ok (with_cs s (assoc_set (s_cs s) (fst e) c))) s cs
      else if is_key "ProcSet" kv then do _ <- list_value getobj depth (snd kv); Ok s
      else if is_key "XObject" kv then
        do xs <- dict_value getobj depth (snd kv);
        fold_res (fun s e => Ok (with_xobjs s (assoc_set (s_xobjs s) (fst e) (snd e)))) s xs
      else Ok s) s d = Ok s' ->
  (forall n, assoc_get (s_fonts s') (OName n) = match dict_get fs (OName n) with Some x => font_at x | None => assoc_get (s_fonts s) (OName n) end) /\
  (forall n, assoc_get (s_xobjs s') (OName n) = match dict_get xs (OName n) with Some x => Some x | None => assoc_get (s_xobjs s) (OName n) end).
Proof.
  induction d as [|[k v] d IH]; intros Hn s s' fs xs Hf Hfn Hx Hxn; cbn [fold_res].
  { intros [= <-]. destruct Hf as [[_ ->]|(? & H & _)]; [|discriminate]. destruct Hx as [[_ ->]|(? & H & _)]; [|discriminate]. split; reflexivity. }
  destruct (named_cons _ _ _ Hn) as ([m ->] & Hm & Hn'). 
  assert (KEY : forall c, is_key c (OName m, v) = list_eqb m (bs c)) by reflexivity. rewrite !KEY. cbn [snd].
  assert (GET : forall c, dict_get ((OName m, v) :: d) (ON c) = if list_eqb m (bs c) then Some v else dict_get d (ON c)) by reflexivity.
  unfold category in Hf, Hx. rewrite GET in Hf, Hx.
  assert (GONE : forall c, list_eqb m (bs c) = true -> dict_get d (ON c) = None).
  { intros c Hc. apply list_eqb_eq in Hc. unfold ON. rewrite <- Hc. apply dict_get_gone; assumption. }
  destruct (list_eqb m (bs "Font")) eqn:E1.
  { assert (E4 : list_eqb m (bs "XObject") = false) by (apply list_eqb_eq in E1 as ->; reflexivity). rewrite E4 in Hx.
    destruct Hf as [[? _]|(v' & [= <-] & Hl)]; [discriminate|].
    destruct (dict_value getobj depth v) as [fs'|] eqn:Ev; cbn [bind]; [|discriminate]. pose proof (dict_value_leads getobj _ _ _ _ Hl Ev) as ->.
    destruct (fold_res _ s fs) as [s1|] eqn:E; cbn [bind]; [|discriminate]. intros R. destruct (fold_fonts fs Hfn _ _ E) as [F1 F2].
    destruct (IH Hn' s1 s' [] xs) as [R1 R2]; [left; split; [apply GONE; exact E1|reflexivity]|split; constructor|exact Hx|exact Hxn|exact R|].
    split; [intros n; rewrite R1; cbn [dict_get]; apply F2|intros n; rewrite R2, F1; reflexivity]. }
  destruct (list_eqb m (bs "ColorSpace")) eqn:E2.
  { assert (E4 : list_eqb m (bs "XObject") = false) by (apply list_eqb_eq in E2 as ->; reflexivity). rewrite E4 in Hx.
    destruct (dict_value getobj depth v) as [cs|] eqn:Ev; cbn [bind]; [|discriminate].
    destruct (fold_res _ s cs) as [s1|] eqn:E; cbn [bind]; [|discriminate]. intros R. destruct (fold_cs cs _ _ E) as [F1 F2].
    destruct (IH Hn' s1 s' fs xs Hf Hfn Hx Hxn R) as [R1 R2]. rewrite F1 in R1. rewrite F2 in R2. split; assumption. }
  destruct (list_eqb m (bs "ProcSet")) eqn:E3.
  { assert (E4 : list_eqb m (bs "XObject") = false) by (apply list_eqb_eq in E3 as ->; reflexivity). rewrite E4 in Hx.
    destruct (list_value getobj depth v) as [cs|] eqn:Ev; cbn [bind]; [|discriminate].
    intros R. exact (IH Hn' s s' fs xs Hf Hfn Hx Hxn R). }
  destruct (list_eqb m (bs "XObject")) eqn:E4.
  { destruct Hx as [[? _]|(v' & [= <-] & Hl)]; [discriminate|].
    destruct (dict_value getobj depth v) as [xs'|] eqn:Ev; cbn [bind]; [|discriminate]. pose proof (dict_value_leads getobj _ _ _ _ Hl Ev) as ->.
    destruct (fold_res _ s xs) as [s1|] eqn:E; cbn [bind]; [|discriminate]. intros R. destruct (fold_xobjs xs Hxn _ _ E) as [F1 F2].
    destruct (IH Hn' s1 s' fs []) as [R1 R2]; [exact Hf|exact Hfn|left; split; [apply GONE; exact E4|reflexivity]|split; constructor|exact R|].
    split; [intros n; rewrite R1, F1; reflexivity|intros n; rewrite R2; cbn [dict_get]; apply F2]. }
  cbn [bind]. apply (IH Hn' s s' fs xs Hf Hfn Hx Hxn).
Qed.
Lemma prep_resources ctm r ig s d fs xs : prep_state getobj depth mkfont ctm r ig = Ok s ->
  Leads getobj ONull r (ODict d) -> named d -> category getobj d "Font" fs -> named fs -> category getobj d "XObject" xs -> named xs ->
  (forall n, assoc_get (s_fonts s) (OName n) = font_of font_at fs n) /\ (forall n, assoc_get (s_xobjs s) (OName n) = dict_get xs (OName n)).
Proof.
  unfold prep_state, init_resources. cbv zeta. intros E Hl Hd Hf Hfn Hx Hxn.
  destruct (dict_value getobj depth _) as [d'|] eqn:Ed; cbn [bind] in E; [|discriminate]. cbn in Ed. pose proof (dict_value_leads getobj _ _ _ _ Hl Ed) as ->.
  destruct (resources_fold d Hd _ s fs xs Hf Hfn Hx Hxn E) as [R1 R2]. split; intros n; [rewrite R1|rewrite R2].
  - unfold font_of. destruct (dict_get fs (OName n)); reflexivity.
  - destruct (dict_get xs (OName n)); reflexivity.
Qed.
Theorem C73_page_text fuel : forall r streams ts, PageSays getobj font_at tokens_of r streams ts ->
  forall ctm ig g s0 items s', prep_state getobj depth mkfont ctm r ig = Ok s0 -> process fuel (with_g s0 g) streams = ((items, None), s') -> Reads items ts.
Proof.
  induction fuel as [|fuel IH]; intros r streams ts H ctm ig g s0 items s' Hp E; [discriminate|].
  destruct H as [r d fs xs streams objs texts Hl Hd Hf Hfn Hx Hxn Ht Hs].
  cbn [Interp_Model.process] in E. unfold tokens_of in Ht. destruct (parse streams) as [objs' [e|]]; [discriminate|]. injection Ht as ->.
  destruct (run getobj depth mkfont (process fuel) (with_g s0 g) objs) as [[i1 e1] s1] eqn:R. destruct e1 as [e1|]; [discriminate|]. injection E as -> ->.
  destruct (prep_resources _ _ _ _ _ _ _ Hp Hl Hd Hf Hfn Hx Hxn) as [RF RX].
  destruct (C66_form_start getobj depth mkfont ctm r ig s0 Hp) as (P1 & P2 & P3 & P4 & P5 & P6 & P7 & P8 & P9).
  assert (Q : Reads items (block_texts (s_block (with_g s0 g)) ++ texts)); [|cbn [s_block with_g] in Q; rewrite P7 in Q; exact Q].
  refine (C73_content_text getobj depth mkfont (process fuel) (font_of font_at fs) _ (s_xobjs s0) r false None [] objs texts _ Hs (with_g s0 g) items s' _ _ _ _ _ _ _ R).
  2:reflexivity. 2:exact P2. 2:cbn; rewrite P8; reflexivity. 2:unfold shown_fonts; cbn; rewrite P3; reflexivity. 2:exact RF. 2:exact P7. 2:exact P6.
  clear Hs R. intros n t (x & fd & data & Ex & Lx & K) ctm' g' p its Ep Eg. unfold item_Do in Ep. cbn [hashable negb] in Ep. rewrite RX, Ex in Ep.
  unfold validated_stream in Ep. destruct (resolved getobj depth x) as [o|] eqn:Eo; cbn [bind] in Ep; [|discriminate].
  pose proof (resolved_leads getobj _ _ _ _ Lx Eo) as ->. cbn [sattrs] in Ep. unfold dget in Ep.
  destruct K as [[E1 ->]|(fr & E1 & E2 & E3 & E4)]; rewrite E1 in Ep.
  - cbn [ON] in Ep. change (list_eqb (bs "Image") (bs "Form")) with false in Ep. change (list_eqb (bs "Image") (bs "Image")) with true in Ep.
    destruct (dict_get fd (ON "Width")), (dict_get fd (ON "Height")); injection Ep as <-; cbn in Eg; injection Eg as <-; repeat constructor.
  - cbn [ON] in Ep. change (list_eqb (bs "Form") (bs "Form")) with true in Ep.
    destruct (dict_get fd (ON "BBox")) as [bb|]; [|congruence]. destruct (list_value getobj depth bb) as [b|]; cbn [bind] in Ep; [|discriminate].
    destruct (form_matrix getobj depth (dict_get fd (ON "Matrix"))) as [m|]; cbn [bind] in Ep; [|discriminate].
    destruct (form_resources getobj depth r (dict_get fd (ON "Resources"))) as [fr'|] eqn:Er; cbn [bind] in Ep; [|discriminate].
    assert (fr' = fr) as ->.
    { destruct E3 as [[X ->]|[[X ->]|(o & rd & X & Y & Z & ->)]]; rewrite X in Er; cbn [form_resources] in Er; try (cbn in Er; congruence).
      destruct (truthy o) eqn:To.
      - destruct (dict_value getobj depth o) as [rd'|] eqn:Ev; cbn [bind] in Er; [|discriminate]. rewrite (dict_value_leads getobj _ _ _ _ Z Ev) in Er. congruence.
      - exfalso. inversion Z as [? Hr| |]; subst; try discriminate To. destruct rd; [congruence|discriminate To]. }
    destruct (nums b) as [v|]; [|discriminate]. destruct (make_xobject (OStream fd data) v ctm' m fr) as [q|] eqn:Eq; cbn [bind] in Ep; [|discriminate]. injection Ep as <-.
    unfold make_xobject in Eq. destruct v as [|? [|? [|? [|? [|? ?]]]]]; try discriminate. injection Eq as <-.
    cbn [gflat finish] in Eg. destruct (prep_state getobj depth mkfont ctm' fr false) as [xs0|] eqn:Ep; [|discriminate].
    destruct (process fuel (with_g xs0 g') [OStream fd data]) as [[kids [e|]] s2] eqn:Ek; [discriminate|]. cbn in Eg. injection Eg as <-.
    pose proof (IH _ _ _ E4 _ _ _ _ _ _ Ep Ek) as Q. rewrite <- (app_nil_r t). constructor; [exact Q|constructor].
Qed.
(* from the content streams to the file: a page p with the resources r and the streams st, showing ts *)
Definition shown (fuel : nat) (p : opage) (ts : list (list Z)) : Prop :=
  exists r st ctm ig s0 s', prep_state getobj depth mkfont ctm r ig = Ok s0 /\ process fuel s0 st = (pg_items p, s') /\ PageSays getobj font_at tokens_of r st ts.
Theorem C73_text_file fuel ps ts : Forall2 (shown fuel) ps ts -> Forall (fun p => 0 <= pg_num p /\ snd (pg_items p) = None) ps ->
  Forall (Forall (Forall scalar)) ts ->
  exists ds, Forall2 (fun p d => is_decimal d (pg_num p)) ps ds /\ snd (text_file (ps, None)) = None /\
    utf8_decode (fst (text_file (ps, None))) = Some (concat (map (fun dt => page_title (fst dt) ++ concat (snd dt) ++ [10]) (combine ds ts))).
Proof.
  intros H HN HS.
  assert (K : Forall2 (fun p t => Reads (fst (pg_items p)) t) ps ts).
  { clear HS. induction H as [|p t ps ts Hp _ IH]; [constructor|]. inversion HN as [|? ? [N1 N2] N3]; subst. constructor; [|apply IH; exact N3].
    destruct Hp as (r & st & ctm & ig & s0 & s' & E1 & E2 & E3). destruct (pg_items p) as [items e]. cbn in N2. subst e.
    apply (C73_page_text fuel r st t E3 ctm ig (s_g s0) s0 items s' E1). replace (with_g s0 (s_g s0)) with s0 by (destruct s0; reflexivity). exact E2. }
  assert (U : encodable (ps, None)).
  { intros p cs Hin Hcs. cbn [fst] in Hin. clear H HN. induction K as [|p' t ps ts Hr _ IH]; [destruct Hin|]. inversion HS; subst.
    destruct Hin as [->|Hin]; [rewrite (reads_unique _ _ Hcs _ Hr); assumption|auto]. }
  destruct (C72_text_file (ps, None)) as (text & T1 & T2 & T3); [cbn; eapply Forall_impl; [|exact HN]; intros ? []; assumption|exact U|]. rewrite T2.
  clear U T2 H. revert text T1 T3 HS. generalize (snd (text_file (ps, None))). induction K as [|p t ps ts Hr _ IH]; intros e text T1 T3 HS.
  - inversion T1; subst. inversion T3; subst. exists []. splits; [constructor|reflexivity|reflexivity].
  - inversion HN as [|? ? [N1 N2] N3]; subst. inversion HS; subst. destruct p as [n w h [items err]]. cbn in N2, Hr. subst err.
    inversion T1; subst. inversion T3; subst. destruct (IH N3 e x ltac:(assumption) ltac:(assumption) ltac:(assumption)) as (ds & D1 & D2 & D3).
    exists (d :: ds). splits; [constructor; assumption|exact D2|]. injection D3 as ->. cbn [combine map concat fst snd].
    rewrite (reads_unique _ _ Hr cs) by assumption. rewrite <- !app_assoc. reflexivity.
Qed.
End page_props.

(* ---- witness: a page that shows Hi and draws a form that shows Ab, the form with a kerning number in its TJ array ---- *)
Definition w_form : obj := OStream [(ON "Subtype", ON "Form"); (ON "BBox", OArr [OInt 0; OInt 0; OInt 10; OInt 10])] [].
Definition w_res : obj := ODict [(ON "Font", ODict [(ON "F1", ONull)]); (ON "XObject", ODict [(ON "X", ORef 7)])].
Definition w_getobj (i : Z) : option obj := if i =? 7 then Some w_form else None.
Definition w_parse (l : list obj) : gen obj :=
  match l with
  | OStream (_ :: _) _ :: _ => ([OK "BT"; ON "F1"; OInt 9; OK "Tf"; OArr [OStr [65]; OInt (-100); OStr [98]]; OK "TJ"; OK "ET"], None)
  | _ => ([OK "q"; OInt 2; OInt 0; OInt 0; OInt 2; OInt 0; OInt 0; OK "cm"; OK "BT"; ON "F1"; OInt 10; OK "Tf"; OStr [72; 105]; OK "Tj"; OK "ET"; OK "Q"; ON "X"; OK "Do"], None)
  end.
Lemma w_tok o : match o with OKwd k => negb (existsb (fun n => list_eqb k (bs n)) text_words) | _ => true end = true -> ~ among o text_words.
Proof.
  intros H (n & Hn & ->). unfold OK in H. apply negb_true_iff in H. rewrite (proj2 (existsb_exists _ _)) in H; [discriminate|].
  exists n. split; [assumption|]. apply list_eqb_eq. reflexivity.
Qed.
Definition w_page (n : Z) (g : gen item) : opage := mkPage n (qz 612) (qz 792) g.
Lemma w_named l : nodupb (map (fun e => match fst e with OName n => n | _ => [] end) l) = true -> Forall (fun e : obj * obj => exists n, fst e = OName n) l -> named l.
Proof.
  intros H1 H2. split; [|exact H2]. apply (NoDup_map_inv (fun o => match o with OName n => n | _ => [] end)). rewrite map_map. apply nodupb_sound. exact H1.
Qed.
Lemma w_says : PageSays w_getobj (font_at (fun _ => Ok font1)) (tokens_of w_parse) w_res [OStream [] []] [[72]; [105]; [65]; [98]].
Proof.
  assert (N1 : named [(ON "F1", ONull)]) by (apply w_named; [reflexivity|repeat (apply Forall_cons; [eexists; reflexivity|]); apply Forall_nil]).
  assert (N2 : named [(ON "X", ORef 7)]) by (apply w_named; [reflexivity|repeat (apply Forall_cons; [eexists; reflexivity|]); apply Forall_nil]).
  assert (N3 : named [(ON "Font", ODict [(ON "F1", ONull)]); (ON "XObject", ODict [(ON "X", ORef 7)])])
    by (apply w_named; [reflexivity|repeat (apply Forall_cons; [eexists; reflexivity|]); apply Forall_nil]).
  assert (L : forall l, Leads w_getobj ONull (ODict l) (ODict l)) by (intros; apply Leads_stop; discriminate).
  econstructor; [apply L|exact N3|right; eexists; split; [reflexivity|apply L]|exact N1|right; eexists; split; [reflexivity|apply L]|exact N2|reflexivity|].
  apply sy_q. do 7 (apply sy_tok; [apply w_tok; reflexivity|]). apply sy_BT. apply (sy_Tf _ _ _ _ _ (bs "F1") (OInt 10) font1); [reflexivity|discriminate|].
  apply (sy_Tj _ _ font1 _ (OStr [72; 105]) _ [[72]; [105]]).
  { apply (sd_str font1 [72; 105] [72; 105] []); [reflexivity|constructor]. }
  apply sy_ET. apply sy_Q. apply (sy_Do _ _ _ _ (bs "X") [[65]; [98]] [] []); [|constructor].
  exists (ORef 7). eexists. eexists. split; [reflexivity|]. split; [eapply Leads_ref; [reflexivity|apply Leads_stop; discriminate]|]. right.
  exists w_res. split; [reflexivity|]. split; [discriminate|]. split; [left; split; reflexivity|].
  econstructor; [apply L|exact N3|right; eexists; split; [reflexivity|apply L]|exact N1|right; eexists; split; [reflexivity|apply L]|exact N2|reflexivity|].
  apply sy_BT. apply (sy_Tf _ _ _ _ _ (bs "F1") (OInt 9) font1); [reflexivity|discriminate|].
  apply (sy_TJ _ _ font1 _ [OStr [65]; OInt (-100); OStr [98]] _ [[65]; [98]]); [|apply sy_ET; constructor].
  apply (sd_str font1 [65] [65] _ [[98]]); [reflexivity|]. eapply sd_num; [reflexivity|]. apply (sd_str font1 [98] [98] _ []); [reflexivity|constructor].
Qed.
Lemma w_ok : exists s, prep_state w_getobj 3 (fun _ => Ok font1) matrix_identity w_res false = Ok s /\ snd (fst (process w_getobj 3 (fun _ => Ok font1) w_parse 3 s [OStream [] []])) = None.
Proof.
  assert (E : match prep_state w_getobj 3 (fun _ => Ok font1) matrix_identity w_res false with Ok s => snd (fst (process w_getobj 3 (fun _ => Ok font1) w_parse 3 s [OStream [] []])) | Err e => Some e end = None)
    by (vm_compute; reflexivity).
  destruct (prep_state w_getobj 3 (fun _ => Ok font1) matrix_identity w_res false) as [s|] eqn:Ep; [|discriminate]. exists s. split; [reflexivity|exact E].
Qed.
Lemma C73_witness : exists items, shown w_getobj 3 (fun _ => Ok font1) w_parse 3 (w_page 1 (items, None)) [[72]; [105]; [65]; [98]] /\ Reads items [[72]; [105]; [65]; [98]].
Proof.
  destruct w_ok as (s & Ep & E). destruct (process w_getobj 3 (fun _ => Ok font1) w_parse 3 s [OStream [] []]) as [[items e] s'] eqn:Er. cbn in E. subst e.
  exists items. split; [exists w_res, [OStream [] []], matrix_identity, false, s, s'; split; [exact Ep|split; [exact Er|exact w_says]]|].
  apply (C73_page_text w_getobj 3 (fun _ => Ok font1) w_parse 3 w_res _ _ w_says matrix_identity false (s_g s) s items s' Ep).
  replace (with_g s (s_g s)) with s by (destruct s; reflexivity). exact Er.
Qed.
