(* C87, lemmas: what the specifications say depends only on what getobj gives, and on how fonts read strings. *)
From Coq Require Import String.
From Verif Require Import Base Lex_Model Lex_Spec Obj Stack_Spec Content_Spec Stream_Model Stream_Spec Stream_Props XRef_Spec Doc_Spec Page_Spec Num Geom_Model Page_Model
  Interp_Model Interp_Spec CMap_Model CMap_Spec CMap_Proofs Convert_Spec Font_Model Font_Spec Font_Props Open_Spec Fallback_Spec Total_Spec Instr_Spec FontTotal_Spec Extract_Spec.
Open Scope Z_scope.
Import ListNotations.

Section same.
  Context (g h : Z -> option obj) (Hgh : forall i, g i = h i).
  Lemma leads_same d o v : Leads g d o v -> Leads h d o v.
  Proof.
    induction 1 as [o Ho|i o v E _ IH|i v E _ IH]; [apply Leads_stop; assumption|eapply Leads_ref; [rewrite <- Hgh; exact E|exact IH]|].
    apply Leads_missing; [rewrite <- Hgh; exact E|exact IH].
  Qed.
  Lemma value_same d k dflt v : Font_Spec.Value g d k dflt v -> Font_Spec.Value h d k dflt v.
  Proof. destruct 1 as [E|o v E L]; [apply V_absent; exact E|eapply V_present; [exact E|apply leads_same, L]]. Qed.
  Lemma pvalue_same path k dflt v : Page_Spec.Value g path k dflt v -> Page_Spec.Value h path k dflt v.
  Proof. unfold Page_Spec.Value. destruct (attr path k); [apply leads_same|exact (fun x => x)]. Qed.
  Lemma usable_same (path : list (list (obj * obj))) :
    (forall k o, attr path k = Some o -> exists v, Leads g ONull o v) -> (forall k o, attr path k = Some o -> exists v, Leads h ONull o v).
  Proof. intros H k o E. destruct (H k o E) as [v L]. exists v. apply leads_same, L. Qed.
  Lemma stored_same t : Stored g t -> Stored h t.
  Proof.
    revert t. fix IH 2. intros t H. destruct H as [i a E1 E2|i a kids ko E1 E2 E3 L HL].
    - apply S_leaf; [rewrite <- Hgh; exact E1|exact E2].
    - eapply S_node; [rewrite <- Hgh; exact E1|exact E2|exact E3|apply leads_same; exact L|].
      revert HL. clear -IH. revert kids. fix IHL 2. intros kids HL. destruct HL as [|t r Ht Hr]; [constructor|]. constructor; [apply IH; exact Ht|apply IHL; exact Hr].
  Qed.
  Lemma category_same d n e : category g d n e -> category h d n e.
  Proof. intros [H|(v & E & L)]; [left; exact H|right; exists v; split; [exact E|apply leads_same, L]]. Qed.
  Lemma own_same page d r : own_resources g page d r -> own_resources h page d r.
  Proof.
    intros [H|[H|(o & rd & E & N & L & ->)]]; [left; exact H|right; left; exact H|]. right. right. exists o, rd. splits; [exact E|exact N|apply leads_same, L|reflexivity].
  Qed.
  Lemma space_same v : ColourSpace g v -> ColourSpace h v.
  Proof.
    destruct 1 as [n H|n p H|x d data k L E|x l r L]; [apply cs_name; exact H|apply cs_array; exact H|eapply cs_icc; [apply leads_same, L|exact E]|].
    eapply cs_devicen. apply leads_same, L.
  Qed.
  Context (glyphs : list Z -> option (list Z)) (bases : list umap) (metrics : list Z -> option (list (obj * obj) * list (list Z * num)))
          (load_cmap : list Z -> option (bool * list (Z * trie))) (load_umap : list Z -> bool -> option umap) (data : obj -> list Z -> Prop).
  Lemma ends_same d k : EndsAt g d k -> EndsAt h d k.
  Proof. intros H o E. destruct (H o E) as [v L]. exists v. apply leads_same, L. Qed.
  Lemma sound_same d : Sound g d -> Sound h d.
  Proof. unfold Sound. apply Forall_impl. intros k. apply ends_same. Qed.
  Lemma program_same d : ProgramRead g data d -> ProgramRead h data d.
  Proof. intros H ff E. destruct (H ff E) as (a & r & t & L & D). exists a, r, t. split; [apply leads_same, L|exact D]. Qed.
  Lemma unicode_same spec asg : UnicodeOf g data spec asg -> UnicodeOf h data spec asg.
  Proof.
    destruct 1 as [E|o a r text exact ts asg E L D LY P]; [apply UO_none; exact E|]. eapply UO_stream; [exact E|apply leads_same, L|exact D|exact LY|exact P].
  Qed.
  Lemma encoding_same spec e : EncodingOf g glyphs bases spec e -> EncodingOf h glyphs bases spec e.
  Proof.
    destruct 1 as [n V|o d n diff l E L B V D T]; [apply EN_name, value_same, V|]. eapply EN_dict; [exact E|apply leads_same, L|exact B|apply value_same, V|exact D|exact T].
  Qed.
  Lemma codes_same spec d e : CodesOf g glyphs bases data spec d e -> CodesOf h glyphs bases data spec d e.
  Proof.
    destruct 1 as [e O E|ff a r l1 n text exact ts asg l E1 E2 L1 E3 L2 D LY HD T].
    - apply CO_entry; [exact O|apply encoding_same, E].
    - eapply CO_program; [exact E1|exact E2|apply leads_same, L1|exact E3|apply leads_same, L2|exact D|exact LY|exact HD|exact T].
  Qed.
  Lemma collection_same spec c : Collection g spec c -> Collection h spec c.
  Proof. intros (info & r & o & V1 & V2 & V3 & E). exists info, r, o. splits; try (apply value_same; assumption). exact E. Qed.
  Lemma cidtexts_same spec v c t : CidTexts g load_umap data spec v c t -> CidTexts h load_umap data spec v c t.
  Proof.
    destruct 1 as [asg N U|N A B|N A]; [apply CT_map; [exact N|apply unicode_same, U]|apply CT_collection; assumption|apply CT_none; assumption].
  Qed.
  Lemma merged_same spec sub sub' : merged g spec sub sub' -> merged h spec sub sub'.
  Proof.
    intros [A B]. split; [|exact B]. intros k Hk. specialize (A k Hk). destruct (dget spec k) as [o|]; [|exact A]. destruct A as (v & L & E). exists v. split; [apply leads_same, L|exact E].
  Qed.
  Lemma reads_same spec codes texts : FontReads g glyphs bases metrics load_cmap load_umap data spec codes texts ->
    FontReads h glyphs bases metrics load_cmap load_umap data spec codes texts.
  Proof.
    induction 1 as [spec n d cw asg e S B M D U C|spec n d asg e S B M V D E1 E2 U C|spec d bb m asg e S O D V1 E V2 N E1 E2 U C
                   |spec n v codes c d texts S E C Co V D P W W2 T|spec x l sub sub' codes texts S V L M F IH].
    - eapply FR_standard; try eassumption; [apply sound_same, D|apply unicode_same, U|apply codes_same, C].
    - eapply FR_simple; try eassumption; [apply value_same, V|apply sound_same, D|apply ends_same, E1|apply ends_same, E2|apply unicode_same, U|apply codes_same, C].
    - eapply FR_type3; try eassumption; [|apply sound_same, D|apply value_same, V1|apply value_same, V2|apply ends_same, E1|apply ends_same, E2|apply unicode_same, U|apply encoding_same, C].
      destruct O as [[O1 O2]|O]; [left; split; [exact O1|apply value_same, O2]|right; exact O].
    - eapply FR_cid; try eassumption; [apply collection_same, Co|apply value_same, V|apply sound_same, D|apply program_same, P| | |apply cidtexts_same, T].
      + intros Hv. destruct (W Hv) as (w & decl & V1 & X). exists w, decl. split; [apply value_same, V1|exact X].
      + intros Hv. destruct (W2 Hv) as ((w & decl & V1 & X) & Y). split; [|exact Y]. exists w, decl. split; [apply value_same, V1|exact X].
    - eapply FR_type0; [exact S|apply value_same, V|apply leads_same, L|apply merged_same, M|exact IH].
  Qed.
  Lemma fontat_same o f : FontAt g glyphs bases metrics load_cmap load_umap data o f -> FontAt h glyphs bases metrics load_cmap load_umap data o f.
  Proof.
    intros (spec & codes & texts & L & R & D & U). exists spec, codes, texts. splits; [apply leads_same, L|apply reads_same, R|exact D|exact U].
  Qed.
End same.

(* a font that reads at least the strings the other reads, in the same way *)
Definition reads_as (f f' : font) : Prop :=
  (forall s cids, f_decode f s = Ok cids -> f_decode f' s = Ok cids) /\ (forall c, f_unichr f' c = f_unichr f c).
Definition oreads_as (a b : option font) : Prop := match a, b with Some f, Some f' => reads_as f f' | None, None => True | _, _ => False end.
Lemma said_as f f' l ts : reads_as f f' -> said f l ts -> said f' l ts.
Proof.
  intros [H1 H2]. induction 1 as [|o v l ts E _ IH|b cids l ts E _ IH]; [constructor|eapply sd_num; eassumption|].
  replace (map _ cids) with (map (fun c => match f_unichr f' c with Some t => t | None => [] end) cids) by (apply map_ext; intros c; rewrite H2; reflexivity).
  apply sd_str; [apply H1, E|exact IH].
Qed.
Lemma said_decodes f l ts : said f l ts -> Forall (fun o => forall b, o = OStr b -> exists cids, f_decode f b = Ok cids) l.
Proof.
  induction 1 as [|o v l ts E _ IH|b cids l ts E _ IH]; constructor; try exact IH.
  - intros b ->. discriminate E.
  - intros b' Hb. injection Hb as <-. exists cids. exact E.
Qed.
Lemma sayable_as lenient f f' l ts : reads_as f f' -> sayable lenient f l ts -> sayable lenient f' l ts.
Proof.
  intros HR (S & N & C). split; [eapply said_as; eassumption|]. split; [exact N|]. destruct C as [C|C]; [left; exact C|right].
  pose proof (said_decodes _ _ _ S) as SD. destruct HR as [H1 H2]. rewrite Forall_forall in *. intros o Ho b cids -> E.
  destruct (SD _ Ho b eq_refl) as (cids' & E'). assert (cids = cids') by (apply H1 in E'; congruence). subst cids'.
  specialize (C _ Ho b cids eq_refl E'). eapply Forall_impl; [|exact C]. intros c. cbn. rewrite H2. exact (fun x => x).
Qed.
Lemma shows_as lenient (fonts fonts' : list Z -> font -> Prop) spaces (forms forms' : list Z -> list (list Z) -> Prop) :
  (forall n f, fonts n f -> exists f', fonts' n f' /\ reads_as f f') -> (forall n t, forms n t -> forms' n t) ->
  forall b F st l ts, Shows lenient fonts spaces forms b F st l ts ->
  forall F' st', oreads_as F F' -> Forall2 oreads_as st st' -> Shows lenient fonts' spaces forms' b F' st' l ts.
Proof.
  intros HF HM. induction 1; intros G st' HG HST.
  - constructor.
  - eapply sh_plain; eauto.
  - eapply sh_other; eauto.
  - eapply sh_colour; eauto.
  - eapply sh_space; eauto.
  - eapply sh_image; eauto.
  - destruct (HF _ _ H) as (f' & H' & R). eapply sh_Tf; [exact H'|assumption|]. apply IHShows; [exact R|exact HST].
  - apply sh_q. apply IHShows; [exact HG|constructor; assumption].
  - inversion HST; subst. apply sh_Q. apply IHShows; assumption.
  - apply sh_BT. eauto.
  - apply sh_ET. eauto.
  - apply sh_Do; eauto.
  - destruct G as [f'|]; [|destruct HG]. apply sh_Tj; [eapply sayable_as; eassumption|eauto].
  - destruct G as [f'|]; [|destruct HG]. apply sh_TJ; [eapply sayable_as; eassumption|eauto].
  - destruct G as [f'|]; [|destruct HG]. apply sh_quote; [eapply sayable_as; eassumption|eauto].
  - destruct G as [f'|]; [|destruct HG]. apply sh_dquote; [assumption|assumption|eapply sayable_as; eassumption|eauto].
Qed.
Lemma draws_as g h (fontat fontat' : obj -> font -> Prop) (tokens tokens' : list obj -> list obj -> Prop) : (forall i, g i = h i) ->
  (forall o f, fontat o f -> exists f', fontat' o f' /\ reads_as f f') -> (forall st os, tokens st os -> tokens' st os) ->
  forall k lenient r st ts, Total_Spec.Draws g fontat tokens k lenient r st ts -> Total_Spec.Draws h fontat' tokens' k lenient r st ts.
Proof.
  intros HG HF HT. induction k as [|k IH]; intros lenient r st ts H; [exact H|].
  destruct H as (d & fs & xs & cs & objs & (L & N & C1 & N1 & C2 & N2 & C3 & N3 & P & FF & FC) & T & S).
  exists d, fs, xs, cs, objs. split; [|split; [apply HT, T|]].
  - splits; try assumption; try (eapply category_same; eassumption); [eapply leads_same; eassumption| | |].
    + intros o Ho. destruct (P o Ho) as [v Lv]. exists v. eapply leads_same; eassumption.
    + eapply Forall_impl; [|exact FF]. intros e (f & Hf). destruct (HF _ _ Hf) as (f' & Hf' & _). exists f'. exact Hf'.
    + eapply Forall_impl; [|exact FC]. intros e (v & Lv & Sv). exists v. split; [eapply leads_same; eassumption|eapply space_same; eassumption].
  - eapply shows_as; [| |exact S|exact Logic.I|constructor].
    + intros n f (x & E & Hf). destruct (HF _ _ Hf) as (f' & Hf' & R). exists f'. split; [exists x; split; assumption|exact R].
    + intros n t (x & fd & data & E & Lx & O). exists x, fd, data. split; [exact E|]. split; [eapply leads_same; eassumption|].
      destruct O as [O|(fr & bb & l & E1 & E2 & L2 & NB & HM & OR & DR)]; [left; exact O|right]. exists fr, bb, l. splits; try assumption.
      * eapply leads_same; eassumption.
      * intros m Em. destruct (HM m Em) as (ml & Lm & Nm). exists ml. split; [eapply leads_same; eassumption|exact Nm].
      * eapply own_same; eassumption.
      * apply IH, DR.
Qed.
