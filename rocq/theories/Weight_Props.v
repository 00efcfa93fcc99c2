(* C98. Name, slant and weight of fonts. *)
From Coq Require Import String.
From Verif Require Import Base Obj Stream_Spec Num Geom_Model Page_Model Interp_Model CMap_Model CMap_Props Font_Model Font_Spec Font_Proofs Font_Props Font_Witness
  Names_Props Total_Spec Total_Props FontTotal_Spec FontTotal_Props Weight_Model Weight_Spec.
From Coq Require Import Qcanon ZifyBool ZifyNat.
Open Scope Z_scope.

(* ---------- the word bold ---------- *)
Lemma prefix_of_spec p s : prefix_of p s = true <-> exists r, s = p ++ r.
Proof.
  revert s. induction p as [|a p IH]; intros s; cbn; [split; [intros _; exists s; reflexivity|reflexivity]|].
  destruct s as [|b s]; [split; [discriminate|intros (r & H); discriminate]|].
  rewrite andb_true_iff, Z.eqb_eq, IH. split; [intros [-> (r & ->)]; exists r; reflexivity|intros (r & H); injection H as -> ->; eauto].
Qed.
Lemma within_spec p s : within p s = true <-> exists a r, s = a ++ p ++ r.
Proof.
  induction s as [|x s IH].
  - cbn. rewrite orb_false_r, prefix_of_spec. split; [intros (r & ->); exists [], r; reflexivity|].
    intros (a & r & H). destruct a; [exists r; exact H|discriminate].
  - cbn [within]. rewrite orb_true_iff, prefix_of_spec, IH. split.
    + intros [(r & ->)|(a & r & ->)]; [exists [], r|exists (x :: a), r]; reflexivity.
    + intros (a & r & H). destruct a as [|y a]; [left; exists r; exact H|right]. injection H as <- H. eauto.
Qed.
Lemma lower_letter c x : In c [98; 111; 108; 100] -> (lower x = c <-> letter c x).
Proof.
  intros H. unfold letter, lower. assert (97 <= c <= 122) by (cbn in H; lia).
  destruct (65 <=? x) eqn:E1, (x <=? 90) eqn:E2; cbn [andb]; lia.
Qed.
Lemma says_bold name : within (bs "bold") (map lower name) = true <-> SaysBold name.
Proof.
  rewrite within_spec. change (bs "bold") with [98; 111; 108; 100]. split.
  - intros (a & r & H). apply map_eq_app in H as (n1 & n2 & -> & <- & H).
    destruct n2 as [|x1 [|x2 [|x3 [|x4 n2]]]]; cbn in H; try discriminate. injection H as H1 H2 H3 H4 _.
    exists n1, x1, x2, x3, x4, n2. split; [reflexivity|]. splits; apply lower_letter; cbn; tauto.
  - intros (p & a & b & c & d & q & -> & H1 & H2 & H3 & H4). exists (map lower p), (map lower q). rewrite !map_app.
    assert (K : map lower [a; b; c; d] = [98; 111; 108; 100]).
    { cbn [map]. repeat f_equal; apply lower_letter; cbn; tauto. }
    rewrite K. reflexivity.
Qed.

Section fonts.
  Context (getobj : Z -> option obj).
  Notation describe := (describe getobj).
  Lemma describe_cid d fuel spec : subtype spec CID -> describe d fuel spec = cid_described getobj d spec.
  Proof. intros (n & Hn & E). destruct fuel; cbn [Weight_Model.describe]; unfold get_or; rewrite E; cbn in Hn; destruct Hn as [<-|[<-|[]]]; reflexivity. Qed.
  Lemma describe_simple d fuel spec : simple_type spec -> describe d fuel spec = type1_described getobj d spec.
  Proof.
    intros [E|(n & E & Hn)]; [destruct fuel; cbn [Weight_Model.describe]; unfold get_or; rewrite E; reflexivity|].
    assert (HH : forall s, In s ["Type0"; "Type3"; "CIDFontType0"; "CIDFontType2"]%string -> list_eqb n (bs s) = false).
    { intros s Hs. destruct (list_eqb n (bs s)) eqn:F; [|reflexivity]. apply list_eqb_eq in F. exfalso. apply Hn. subst n. apply in_map. exact Hs. }
    destruct fuel; cbn [Weight_Model.describe]; unfold get_or; rewrite E; rewrite (HH "Type0"%string), (HH "Type3"%string), (HH "CIDFontType0"%string), (HH "CIDFontType2"%string) by (cbn; tauto); cbn [orb];
      (destruct (list_eqb n (bs "Type1") || list_eqb n (bs "MMType1") || list_eqb n (bs "TrueType")); reflexivity).
  Qed.
  Lemma style_known n : In n (map bs STANDARD) <-> standard_style n <> None.
  Proof.
    unfold standard_style. destruct (List.find _ _) as [e|] eqn:E.
    - apply find_some in E as [E1 E2]. apply list_eqb_eq in E2. subst n. split; [discriminate|intros _].
      repeat (destruct E1 as [<-|E1]; [cbn [fst STANDARD map In]; tauto|]). destruct E1.
    - split; [|intros H; contradiction H; reflexivity]. intros H. exfalso. apply in_map_iff in H as (s & <- & Hs).
      change STANDARD with (map fst standard_styles) in Hs. apply in_map_iff in Hs as (e & X2 & X1).
      pose proof (find_none _ _ E _ X1) as X. cbv beta in X. rewrite X2, list_eqb_refl in X. discriminate.
  Qed.
  Lemma describe_type0 spec x l (sub : dict) : dget spec "Subtype" = Some (ON "Type0") -> Value getobj spec "DescendantFonts" ONull (OArr (x :: l)) -> Leads getobj ONull x (ODict sub) ->
    EndsAt getobj spec "Encoding" -> EndsAt getobj spec "ToUnicode" ->
    exists sub' : dict, merged getobj spec sub sub' /\ Ev (fun d => forall fuel, describe d (S fuel) spec = describe d fuel sub').
  Proof.
    intros HS HD HX H1 H2.
    assert (XE : exists s1 : dict, Ev (fun d => @eq (res dict) (match dget spec "Encoding" with Some e => do r <- resolved getobj d e; Ok (dict_set sub (ON "Encoding") r) | None => Ok sub end) (Ok s1)) /\
      match dget spec "Encoding" with Some o => exists v, Leads getobj ONull o v /\ dget s1 "Encoding" = Some v | None => dget s1 "Encoding" = dget sub "Encoding" end /\
      forall k, k <> bs "Encoding" -> dict_get s1 (OName k) = dict_get sub (OName k)).
    { unfold EndsAt in H1. destruct (dget spec "Encoding") as [o|].
      - destruct (H1 o eq_refl) as (v & L). exists (dict_set sub (ON "Encoding") v). splits.
        + generalize (ev_leads _ _ _ L). apply ev_imp. intros d E. rewrite E. reflexivity.
        + exists v. split; [exact L|]. apply dict_get_set_same. reflexivity.
        + intros k Hk. unfold ON. rewrite dict_get_set_other by (apply key_ne; congruence). reflexivity.
      - exists sub. splits; try reflexivity. exists O. reflexivity. }
    destruct XE as (s1 & X1 & X2 & X3).
    assert (YE : exists s2 : dict, Ev (fun d => @eq (res dict) (match dget spec "ToUnicode" with Some e => do r <- resolved getobj d e; Ok (dict_set s1 (ON "ToUnicode") r) | None => Ok s1 end) (Ok s2)) /\
      match dget spec "ToUnicode" with Some o => exists v, Leads getobj ONull o v /\ dget s2 "ToUnicode" = Some v | None => dget s2 "ToUnicode" = dget s1 "ToUnicode" end /\
      forall k, k <> bs "ToUnicode" -> dict_get s2 (OName k) = dict_get s1 (OName k)).
    { unfold EndsAt in H2. destruct (dget spec "ToUnicode") as [o|].
      - destruct (H2 o eq_refl) as (v & L). exists (dict_set s1 (ON "ToUnicode") v). splits.
        + generalize (ev_leads _ _ _ L). apply ev_imp. intros d E. rewrite E. reflexivity.
        + exists v. split; [exact L|]. apply dict_get_set_same. reflexivity.
        + intros k Hk. unfold ON. rewrite dict_get_set_other by (apply key_ne; congruence). reflexivity.
      - exists s1. splits; try reflexivity. exists O. reflexivity. }
    destruct YE as (s2 & Y1 & Y2 & Y3).
    exists s2. split.
    - split.
      + intros k [<-|[<-|[]]].
        * assert (E : dget s2 "Encoding" = dget s1 "Encoding") by (apply Y3; discriminate). rewrite E. exact X2.
        * assert (E : dget s1 "ToUnicode" = dget sub "ToUnicode") by (apply X3; discriminate). rewrite <- E. exact Y2.
      + intros k K1 K2. rewrite Y3, X3 by assumption. reflexivity.
    - generalize (ev_and _ _ X1 (ev_and _ _ Y1 (ev_and _ _ (ev_list _ _ _ (ev_value _ _ _ _ _ HD ltac:(discriminate))) (ev_dict _ _ _ (ev_leads _ _ _ HX))))). apply ev_imp.
      intros d (E1 & E2 & E3 & E4) fuel. cbn [Weight_Model.describe]. unfold get_or at 1 2 3 4 5 6 7. rewrite HS. cbn [ON].
      change (list_eqb (bs "Type0") (bs "Type0")) with true. change (list_eqb (bs "Type0") (bs "Type1")) with false. change (list_eqb (bs "Type0") (bs "MMType1")) with false.
      change (list_eqb (bs "Type0") (bs "TrueType")) with false. change (list_eqb (bs "Type0") (bs "Type3")) with false.
      change (list_eqb (bs "Type0") (bs "CIDFontType0")) with false. change (list_eqb (bs "Type0") (bs "CIDFontType2")) with false.
      cbn [orb]. inversion HD as [|o v HDD HDL]; subst. unfold get_or in E3. rewrite HDD in E3 |- *. cbv beta iota in E3, E4. rewrite E3. cbn [bind]. rewrite E4.
      match goal with |- bind _ ?g = ?r => change (g sub = r); cbv beta end.
      match goal with |- bind ?m ?g = ?r => let H := fresh in assert (H : m = Ok s1) by exact E1; rewrite H; clear H; change (g s1 = r); cbv beta end.
      match goal with |- bind ?m ?g = ?r => let H := fresh in assert (H : m = Ok s2) by exact E2; rewrite H; clear H end. reflexivity.
  Qed.

  Lemma describes spec d0 : DescriptorOf getobj spec d0 -> forall spec', same spec spec' ->
    exists n, forall d fuel, (n <= d)%nat -> (n <= fuel)%nat -> describe d fuel spec' = Ok (Own d0).
  Proof.
    induction 1 as [spec n d0 HT HB HN HV|spec o d0 HT HD HL|spec d0 HT HV|spec x l sub sub' d0 HT HD HX HM HF IH]; intros sp HSm.
    - destruct (ev_dict _ _ _ (ev_value _ _ _ _ _ (same_value getobj _ _ HSm _ _ _ HV) ltac:(discriminate))) as (m & K). exists m. intros d fuel Hd _.
      rewrite describe_simple by exact (same_simple _ _ HSm HT). unfold type1_described. rewrite (base_name _ _ (same_base _ _ HSm _ HB)). cbn [bind].
      destruct (standard_style n) as [[? ?]|] eqn:E; [exfalso; apply HN, style_known; congruence|]. rewrite K by exact Hd. reflexivity.
    - destruct (ev_dict _ _ _ (ev_leads _ _ _ HL)) as (m & K). exists m. intros d fuel Hd _.
      assert (ES : dget sp "Subtype" = Some (ON "Type3")) by (rewrite (same_get _ _ HSm); exact HT).
      assert (E : describe d fuel sp = type3_described getobj d sp) by (destruct fuel; cbn [Weight_Model.describe]; unfold get_or at 1 2 3 4; rewrite ES; reflexivity).
      rewrite E. unfold type3_described. rewrite (same_get _ _ HSm), HD, K by exact Hd. reflexivity.
    - destruct (ev_dict _ _ _ (ev_value _ _ _ _ _ (same_value getobj _ _ HSm _ _ _ HV) ltac:(discriminate))) as (m & K). exists m. intros d fuel Hd _.
      rewrite describe_cid by exact (same_subtype _ _ HSm _ HT). unfold cid_described. specialize (K d Hd). unfold get_or in K.
      destruct (dget sp "FontDescriptor") as [o|] eqn:E; [rewrite K; reflexivity|].
      rewrite (same_get _ _ HSm) in E. inversion HV as [_ EV|? ? EV]; [subst; reflexivity|congruence].
    - pose proof (same_merged getobj _ _ HSm _ _ HM) as HM'. destruct (merged_ends getobj _ _ _ HM') as [M1 M2].
      destruct (describe_type0 sp x l sub) as (s2 & K1 & (n1 & K2)); [rewrite (same_get _ _ HSm); exact HT|exact (same_value _ _ _ HSm _ _ _ HD)|exact HX|exact M1|exact M2|].
      destruct (IH s2 (merged_one getobj _ _ _ _ HM' K1)) as (n & F). exists (S (n + n1))%nat.
      intros d fuel Hd Hf. destruct fuel as [|fuel]; [lia|]. rewrite K2 by lia. apply F; lia.
  Qed.

  (* Styled spec P: the font spec is made, and P holds of its attributes *)
  Definition Styled (spec : dict) (P : nat -> described -> Prop) : Prop :=
    exists D n, forall depth fuel, (n <= depth)%nat -> (n <= fuel)%nat -> describe depth fuel spec = Ok D /\ P depth D.
  Lemma styled spec d (P : nat -> Weight_Model.described -> Prop) : DescriptorOf getobj spec d -> Ev (fun n => P n (Own d)) -> Styled spec P.
  Proof.
    intros H (m & K). destruct (describes _ _ H spec (fun _ => eq_refl)) as (n & F). exists (Own d), (n + m)%nat. intros depth fuel H1 H2.
    split; [apply F; lia|apply K; lia].
  Qed.
  Lemma named d name : NameOf getobj d name -> Ev (fun n => fontname getobj n (Own d) = Ok (PText name)).
  Proof.
    intros [[H ->]|(o & H & L)]; unfold fontname; rewrite H; [exists O; reflexivity|].
    generalize (ev_leads _ _ _ L). apply ev_imp. intros n E. rewrite E. reflexivity.
  Qed.

  (* C98. The name and the slant are those of the descriptor. *)
  Theorem C98_style spec d name o a : DescriptorOf getobj spec d -> NameOf getobj d name ->
    Value getobj d "ItalicAngle" (OInt 0) o -> Number o a ->
    Styled spec (fun n D => fontname getobj n D = Ok (PText name) /\ italic_angle getobj n D = Ok a).
  Proof.
    intros H HN HV HA. apply (styled _ _ _ H). apply ev_and; [apply named, HN|].
    generalize (ev_value _ _ _ _ _ HV ltac:(discriminate)). apply ev_imp. intros n E. unfold italic_angle. rewrite E. cbn [bind].
    destruct HA; reflexivity.
  Qed.
  (* a number as FontWeight: bold from 550 on *)
  Theorem C98_weight spec d o w : DescriptorOf getobj spec d -> dget d "FontWeight" = Some o -> Number o w ->
    Styled spec (fun n D => font_weight getobj n D = Ok (PNum w) /\ exists b, is_bold getobj n D = Ok b /\ (b = true <-> qz 549 < w)%Qc).
  Proof.
    intros H HW HN. apply (styled _ _ _ H). exists O. intros n _.
    assert (E : font_weight getobj n (Own d) = Ok (PNum w)) by (unfold font_weight; rewrite HW; destruct HN; reflexivity).
    split; [exact E|]. exists (qlt (qz 549) w). unfold is_bold. rewrite E. split; [reflexivity|apply qlt_iff].
  Qed.
  (* no FontWeight, and a name that says so *)
  Theorem C98_bold_name spec d name : DescriptorOf getobj spec d -> dget d "FontWeight" = None -> NameOf getobj d name -> SaysBold name ->
    Styled spec (fun n D => font_weight getobj n D = Ok (PText (bs "bold")) /\ is_bold getobj n D = Ok true).
  Proof.
    intros H HW HN HS. apply (styled _ _ _ H). generalize (named _ _ HN). apply ev_imp. intros n E.
    assert (K : font_weight getobj n (Own d) = Ok (PText (bs "bold"))).
    { unfold font_weight. rewrite HW, E. cbn [bind]. apply says_bold in HS. rewrite HS. reflexivity. }
    split; [exact K|]. unfold is_bold. rewrite K. reflexivity.
  Qed.
  (* refuted: a font that says nothing of its weight has none, and asking whether it is bold fails *)
  Theorem C98_plain_refuted spec d name : DescriptorOf getobj spec d -> dget d "FontWeight" = None -> NameOf getobj d name -> ~ SaysBold name ->
    Styled spec (fun n D => font_weight getobj n D = Ok PNone /\ is_bold getobj n D = Err TypeError).
  Proof.
    intros H HW HN HS. apply (styled _ _ _ H). generalize (named _ _ HN). apply ev_imp. intros n E.
    assert (K : font_weight getobj n (Own d) = Ok PNone).
    { unfold font_weight. rewrite HW, E. cbn [bind]. destruct (within _ _) eqn:W; [apply says_bold in W; contradiction|reflexivity]. }
    split; [exact K|]. unfold is_bold. rewrite K. reflexivity.
  Qed.
  (* refuted: a FontWeight given by reference *)
  Theorem C98_indirect_refuted spec d i : DescriptorOf getobj spec d -> dget d "FontWeight" = Some (ORef i) ->
    Styled spec (fun n D => is_bold getobj n D = Err TypeError).
  Proof. intros H HW. apply (styled _ _ _ H). exists O. intros n _. unfold is_bold, font_weight. rewrite HW. reflexivity. Qed.
  (* refuted: none of the standard fonts can be asked; its weight is given, and is Bold for those of this name *)
  Theorem C98_standard_refuted spec n : simple_type spec -> BaseName spec n -> In n (map bs STANDARD) ->
    Styled spec (fun k D => fontname getobj k D = Ok (PText n) /\ is_bold getobj k D = Err TypeError /\
      exists w, font_weight getobj k D = Ok (PText w) /\ (w = bs "Bold" <-> SaysBold n)).
  Proof.
    intros HT HB HN. assert (S : exists a w, standard_style n = Some (a, w) /\ In w ["Medium"; "Bold"; "Roman"]%string /\ (bs w = bs "Bold" <-> within (bs "bold") (map lower n) = true)).
    { apply in_map_iff in HN as (s & <- & Hs). unfold STANDARD in Hs.
      repeat (destruct Hs as [<-|Hs]; [eexists; eexists; split; [vm_compute; reflexivity|split; [cbn [In]; tauto|split; intros X; first [vm_compute; reflexivity|vm_compute in X; discriminate X]]]|]). destruct Hs. }
    destruct S as (a & w & S & W & WB). exists (Std n a (bs w)), O. intros depth fuel _ _. split.
    - rewrite describe_simple by exact HT. unfold type1_described. rewrite (base_name _ _ HB). cbn [bind]. rewrite S. reflexivity.
    - split; [reflexivity|]. split; [unfold is_bold, font_weight; cbn [bind]; destruct W as [<-|[<-|[<-|[]]]]; reflexivity|].
      exists (bs w). split; [reflexivity|]. rewrite WB. apply says_bold.
  Qed.
End fonts.

(* a case: a Type0 font whose descendant has its descriptor by reference *)
Definition wdoc (i : Z) : option obj := if i =? 5 then Some (ODict [nm "FontName" (ORef 6); nm "ItalicAngle" (OReal (bs "-12.5")); nm "Flags" (OInt 4)]) else if i =? 6 then Some (ON "ABCDEF+SansBOld-It") else None.
Definition wsub : dict := [nm "Subtype" (ON "CIDFontType2"); nm "FontDescriptor" (ORef 5)].
Definition wspec : dict := [nm "Subtype" (ON "Type0"); nm "DescendantFonts" (OArr [ODict wsub]); nm "Encoding" (ON "Identity-H")].
Definition wdesc : dict := [nm "FontName" (ORef 6); nm "ItalicAngle" (OReal (bs "-12.5")); nm "Flags" (OInt 4)].
Example C98_hypotheses : DescriptorOf wdoc wspec wdesc /\ NameOf wdoc wdesc (bs "ABCDEF+SansBOld-It") /\ SaysBold (bs "ABCDEF+SansBOld-It") /\ ~ SaysBold (bs "Sans-It") /\
  DescriptorOf wdoc [nm "BaseFont" (ON "Arial"); nm "FontDescriptor" (ODict [nm "FontWeight" (OInt 700)])] [nm "FontWeight" (OInt 700)].
Proof.
  splits.
  - eapply De_type0 with (x := ODict wsub) (l := []) (sub := wsub) (sub' := dict_set wsub (ON "Encoding") (ON "Identity-H")).
    + reflexivity.
    + eapply V_present; [reflexivity|apply Leads_stop; discriminate].
    + apply Leads_stop; discriminate.
    + split.
      * intros k [<-|[<-|[]]]; [exists (ON "Identity-H"); split; [apply Leads_stop; discriminate|reflexivity]|reflexivity].
      * intros k H1 H2. unfold ON. rewrite dict_get_set_other by (apply key_ne; congruence). reflexivity.
    + apply De_cid; [exists "CIDFontType2"%string; split; [right; left; reflexivity|reflexivity]|].
      eapply V_present; [reflexivity|]. eapply Leads_ref; [reflexivity|apply Leads_stop; discriminate].
  - right. eexists. split; [reflexivity|]. eapply Leads_ref; [reflexivity|apply Leads_stop; discriminate].
  - exists (bs "ABCDEF+Sans"), 66, 79, 108, 100, (bs "-It"). split; [reflexivity|]. unfold letter. lia.
  - intros H. apply says_bold in H. discriminate H.
  - eapply De_simple with (n := bs "Arial"); [left; reflexivity|left; reflexivity| |eapply V_present; [reflexivity|apply Leads_stop; discriminate]].
    cbn [STANDARD map In]. intuition discriminate.
Qed.
