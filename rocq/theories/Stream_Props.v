(* Properties C07, C08 (filters), C59 (references), C60 (decryption of objects). *)
From Coq Require Import String.
From Verif Require Import Base A85_Model A85_Spec A85_Proofs A85_Props LZW_Model LZW_Spec LZW_Props PNG_Model PNG_Spec PNG_Props Obj Stream_Model Stream_Spec.
From Coq Require Import ZifyBool ZifyNat.

(* ---------- C08 ---------- *)
Lemma map_res_id {A} (f : A -> res A) l : (forall x, In x l -> f x = Ok x) -> map_res f l = Ok l.
Proof. induction l as [|x l IH]; intros H; [reflexivity|]. cbn. rewrite H by (left; reflexivity). cbn. rewrite IH by (intros; apply H; right; assumption). reflexivity. Qed.
Lemma map_res_names getobj (l : list (list Z)) :
  map_res (fun f => match f with ORef i => first_of (ref_resolve getobj ONull i) | _ => Ok f end) (map OName l) = Ok (map OName l).
Proof. apply map_res_id. intros x Hx. apply in_map_iff in Hx as (y & <- & _). reflexivity. Qed.

Definition is_nil {A} (l : list A) : bool := match l with [] => true | _ => false end.
Lemma truthy_map {A} (g : A -> obj) l : truthy (OArr (map g l)) = negb (is_nil l).
Proof. destruct l; reflexivity. Qed.
Lemma combine_repeat (p : obj) (l : list (list Z)) : combine (map OName l) (repeat p (length (map OName l))) =
  map (fun fp => (OName (fst fp), snd fp)) (map (fun f => (f, p)) l).
Proof. induction l as [|x l IH]; [reflexivity|]. cbn. rewrite IH. reflexivity. Qed.
Lemma combine_both (l : list (list Z * obj)) : combine (map (fun fp => OName (fst fp)) l) (map snd l) = map (fun fp => (OName (fst fp), snd fp)) l.
Proof. induction l as [|x l IH]; [reflexivity|]. cbn. rewrite IH. reflexivity. Qed.

(* The (filter, parameters) list of a stream is the declared one: as many entries as declared filters, in order, each
   with its own parameters. *)
Theorem C08_filters_partial getobj attrs chain : Declared attrs chain ->
  get_filters getobj attrs = Ok (map (fun fp => (OName (fst fp), snd fp)) chain).
Proof.
  intros H. unfold get_filters. inversion H; subst; cbn [get_any];
    repeat match goal with E : dget attrs _ = _ |- _ => rewrite E; clear E end; try reflexivity.
  - rewrite truthy_map. destruct fs as [|f fs]; [reflexivity|]. cbn [is_nil negb].
    rewrite map_res_names. cbn [bind]. f_equal. apply combine_repeat.
  - rewrite truthy_map. destruct chain as [|f fs]; [reflexivity|]. cbn [is_nil negb].
    rewrite <- (map_map fst OName), map_res_names. cbn [bind]. f_equal. rewrite map_map. apply combine_both.
  - rewrite truthy_map. destruct chain as [|f fs]; [reflexivity|]. cbn [is_nil negb].
    rewrite <- (map_map fst OName), map_res_names. cbn [bind]. f_equal. rewrite map_map. apply combine_both.
Qed.
Definition parms12 : obj := ODict [(ON "Predictor", OInt 12); (ON "Columns", OInt 3)].
Definition attrs2 : list (obj * obj) :=
  [(ON "Length", OInt 9); (ON "Filter", OArr [ON "ASCII85Decode"; ON "FlateDecode"]); (ON "DecodeParms", OArr [ONull; parms12])].
Example C08_case : Declared attrs2 [(bs "ASCII85Decode", ONull); (bs "FlateDecode", parms12)] /\
  get_filters (fun _ => None) attrs2 = Ok [(ON "ASCII85Decode", ONull); (ON "FlateDecode", parms12)].
Proof. split; [|reflexivity]. apply D_array_parms; reflexivity. Qed.

(* Refuted outside the declared forms: a parameter array shorter than the filter array drops the last filters *)
Theorem C08_short_parms_refuted : forall getobj,
  get_filters getobj [(ON "Filter", OArr [ON "ASCII85Decode"; ON "FlateDecode"]); (ON "DecodeParms", OArr [ONull])]
    = Ok [(ON "ASCII85Decode", ONull)].
Proof. reflexivity. Qed.
(* a filter array given as an indirect object loses all filters but the first, and an indirect filter name raises *)
Theorem C08_indirect_filters_refuted : forall getobj a b, getobj 7 = Some (OArr [a; b]) ->
  get_filters getobj [(ON "Filter", ORef 7)] = Ok [(a, ODict [])].
Proof. intros getobj a b H. cbv. rewrite H. reflexivity. Qed.
Theorem C08_indirect_filter_name_refuted : forall getobj n, getobj 7 = Some (OName n) ->
  get_filters getobj [(ON "Filter", ORef 7)] = Err TypeError.
Proof. intros getobj n H. cbv. rewrite H. reflexivity. Qed.
(* a stream with a file specification (key F) has its Filter entry ignored *)
Theorem C08_file_specification_refuted : forall getobj f, f <> [] ->
  get_filters getobj [(ON "F", OStr f); (ON "Filter", ON "FlateDecode")] = Ok [(OStr f, ODict [])].
Proof. intros getobj [|c f] H; [congruence|reflexivity]. Qed.

(* ---------- C07 ---------- *)
Section chain.
  Context (zlib : list Z -> option (list Z)) (ccitt : list Z -> obj -> res (list Z)) (getobj : Z -> option obj).
  Lemma kind_in f a b k : (forall n, In n [bs a; bs b] -> filter_kind (OName n) = Some k) -> In f [bs a; bs b] -> filter_kind (OName f) = Some k.
  Proof. intros H Hf. apply H. assumption. Qed.
  Lemma codes_lemma f p plain coded : Codes zlib ccitt f p plain coded -> apply_filter zlib ccitt (OName f) p coded = Ok plain.
  Proof.
    intros H. unfold apply_filter. inversion H; subst;
      match goal with Hin : In f [?a; ?b] |- _ => destruct Hin as [<-|[<-|[]]] end;
      match goal with |- context [filter_kind ?x] => let k := eval vm_compute in (filter_kind x) in change (filter_kind x) with k end; cbn iota.
    1-2: match goal with E : zlib _ = _ |- _ => rewrite E; reflexivity end.
    1-2: apply C04_lzw_any_encoder; assumption.
    1-2: eapply C01_ascii85_roundtrip; eassumption.
    1-2: f_equal; apply C02_asciihex_even_partial; assumption.
    1-2: apply (C03_runlength_roundtrip rs []); assumption.
    1-2: apply (C03_runlength_roundtrip rs tail); assumption.
    1-2: assumption.
    all: reflexivity.
  Qed.
  Lemma predicted_lemma depth p plain coded : (0 < depth)%nat -> Predicted p plain coded -> apply_predictor getobj depth p coded = Ok plain.
  Proof.
    intros Hd H. destruct depth as [|depth]; [lia|]. unfold apply_predictor. inversion H; subst; cbn [truthy negb].
    - reflexivity.
    - destruct ps as [|kv ps]; [reflexivity|]. cbn [negb]. match goal with E : dget _ _ = None |- _ => rewrite E end. reflexivity.
    - destruct ps as [|kv ps]; [discriminate|]. cbn [negb]. match goal with E : dget _ _ = _ |- _ => rewrite E end. reflexivity.
    - destruct ps as [|kv ps]; [discriminate|]. cbn [negb]. match goal with E : dget _ "Predictor" = _ |- _ => rewrite E end.
      cbn [int_value resolve1 bind].
      replace (pred =? 1) with false by lia. replace (10 <=? pred) with true by lia. unfold get_default.
      assert (Ecol : forall k v (n : nat), dget (kv :: ps) k = Some (OInt (Z.of_nat n)) \/ dget (kv :: ps) k = None /\ n = 1%nat -> v = OInt 1 ->
        int_value getobj (S depth) (match dget (kv :: ps) k with Some x => x | None => v end) = Ok (Z.of_nat n)).
      { intros k v n [->|[-> ->]] ->; reflexivity. }
      rewrite (Ecol "Colors"%string (OInt 1) colors) by auto. rewrite (Ecol "Columns"%string (OInt 1) columns) by auto. cbn [bind].
      replace (int_value getobj (S depth) (match dget (kv :: ps) "BitsPerComponent" with Some x => x | None => OInt 8 end)) with (Ok (A:=Z) 8)
        by (match goal with E : dget _ "BitsPerComponent" = _ \/ _ |- _ => destruct E as [->| ->] end; reflexivity).
      cbn [bind]. apply C06_png_roundtrip_partial; assumption.
  Qed.
  Lemma encoded_lemma depth chain plain raw : (0 < depth)%nat -> Encoded zlib ccitt chain plain raw ->
    run_filters zlib ccitt getobj depth (map (fun fp => (OName (fst fp), snd fp)) chain) raw = Ok plain.
  Proof.
    intros Hd H. induction H as [d|f p r plain mid pmid raw H1 IH H2 H3]; [reflexivity|]. cbn [map run_filters fst snd].
    rewrite (codes_lemma _ _ _ _ H3). cbn [bind]. rewrite (predicted_lemma depth _ _ _ Hd H2). exact IH.
  Qed.

  (* A stream whose raw data (after decryption, if any) is plain encoded by its filters in reverse order: every
     get_data of any history of calls returns plain. *)
  Theorem C07_filter_chain depth attrs chain plain coded raw dec cs : (0 < depth)%nat ->
    Declared attrs chain -> Encoded zlib ccitt chain plain coded ->
    match dec with Some f => f raw = Ok coded | None => raw = coded end ->
    forall r, In (AData r) (calls zlib ccitt getobj depth (mkS attrs (Some raw) None dec) cs) -> r = Ok plain.
  Proof.
    intros Hd HD HE Hdec. set (s1 := mkS attrs None (Some plain) dec).
    assert (A : get_data zlib ccitt getobj depth (mkS attrs (Some raw) None dec) = (Ok plain, s1)).
    { unfold get_data, decode. cbn [s_data s_raw s_attrs s_decipher].
      assert (Hraw : match dec with Some f => f raw | None => Ok raw end = Ok coded) by (destruct dec; [assumption|congruence]).
      rewrite Hraw. cbn [bind]. rewrite (C08_filters_partial getobj attrs chain HD). cbn [bind].
      rewrite (encoded_lemma depth chain plain coded Hd HE). reflexivity. }
    assert (B : forall cs r, In (AData r) (calls zlib ccitt getobj depth s1 cs) -> r = Ok plain).
    { clear. induction cs as [|[|] cs IH]; intros r H; cbn in H; [contradiction| |].
      - destruct H as [H|H]; [congruence|apply IH; assumption].
      - destruct H as [H|H]; [discriminate|apply IH; assumption]. }
    induction cs as [|[|] cs IH]; intros r H; cbn [calls] in H; [contradiction| |].
    - rewrite A in H. destruct H as [H|H]; [congruence|apply (B cs); assumption].
    - destruct H as [H|H]; [discriminate|apply IH; assumption].
  Qed.

  (* Whatever the stream, and whether decoding succeeds or raises, get_data always gives the same answer. *)
  Theorem C07_same_answer depth s cs r r' :
    In (AData r) (calls zlib ccitt getobj depth s cs) -> In (AData r') (calls zlib ccitt getobj depth s cs) -> r = r'.
  Proof.
    assert (K : forall cs s r, In (AData r) (calls zlib ccitt getobj depth s cs) -> r = fst (get_data zlib ccitt getobj depth s)).
    { induction cs0 as [|[|] cs0 IH]; intros s0 r0 H; cbn [calls] in H; [contradiction| |].
      - destruct (get_data zlib ccitt getobj depth s0) as [a s1] eqn:E. destruct H as [H|H]; [cbn; congruence|].
        apply IH in H. rewrite H. clear -E. unfold get_data in E. destruct (s_data s0) as [d|] eqn:Ed.
        + injection E as <- <-. unfold get_data. rewrite Ed. reflexivity.
        + destruct (decode zlib ccitt getobj depth s0) as [s2|e] eqn:E2.
          * injection E as <- <-. unfold decode in E2. rewrite Ed in E2. destruct (s_raw s0) as [raw|]; [|discriminate].
            destruct (match s_decipher s0 with Some f => f raw | None => Ok raw end); cbn [bind] in E2; [|discriminate].
            destruct (get_filters getobj (s_attrs s0)); cbn [bind] in E2; [|discriminate].
            destruct (run_filters _ _ _ _ _ _); cbn [bind] in E2; [|discriminate]. injection E2 as <-. reflexivity.
          * injection E as <- <-. unfold get_data. rewrite Ed, E2. reflexivity.
      - destruct H as [H|H]; [discriminate|apply IH; assumption]. }
    intros H1 H2. rewrite (K _ _ _ H1), (K _ _ _ H2). reflexivity.
  Qed.

  (* Refuted: reading the data destroys the raw data (get_rawdata returns None afterwards). *)
  Theorem C07_rawdata_lost_refuted depth raw :
    calls zlib ccitt getobj depth (mkS [] (Some raw) None None) [CRaw; CData; CRaw] = [ARaw (Some raw); AData (Ok raw); ARaw None].
  Proof. reflexivity. Qed.
  (* Refuted: decode parameters given as an indirect object raise TypeError *)
  Theorem C07_indirect_parms_refuted depth raw i plain : zlib raw = Some plain ->
    fst (get_data zlib ccitt getobj depth (mkS [(ON "Filter", ON "FlateDecode"); (ON "DecodeParms", ORef i)] (Some raw) None None)) = Err TypeError.
  Proof. intros H. unfold get_data, decode. cbn. reflexivity. Qed.
  (* Refuted: corrupt Flate data is silently replaced by nothing, and an unsupported filter raises NameError instead
     of PDFNotImplementedError *)
  Theorem C07_corrupt_flate_refuted depth raw : zlib raw = None ->
    fst (get_data zlib ccitt getobj depth (mkS [(ON "Filter", ON "FlateDecode")] (Some raw) None None)) = Ok [].
  Proof. intros H. unfold get_data, decode. cbn [s_data s_raw s_attrs s_decipher bind]. change (get_filters getobj [(ON "Filter", ON "FlateDecode")]) with (Ok [(ON "FlateDecode", ODict [])]).
    cbn [bind run_filters]. change (apply_filter zlib ccitt (ON "FlateDecode") (ODict []) raw) with (Ok (match zlib raw with Some d => d | None => [] end)). rewrite H. reflexivity. Qed.
  Theorem C07_unsupported_filter_refuted depth raw :
    fst (get_data zlib ccitt getobj depth (mkS [(ON "Filter", ON "JPXDecode")] (Some raw) None None)) = Err NameError.
  Proof. reflexivity. Qed.
End chain.
(* a non-trivial chain: RunLength then ASCIIHex *)
Example C07_case : fst (get_data (fun _ => None) (fun _ _ => Err NameError) (fun _ => None) 1
    (mkS [(ON "Filter", OArr [ON "ASCIIHexDecode"; ON "RunLengthDecode"])] (Some (bs "FE 41
01 62 63>")) None None)) = Ok (bs "AAAbc").
Proof. vm_compute. reflexivity. Qed.
Example C07_case_hyps : exists coded, Encoded (fun _ => None) (fun _ _ => Err NameError)
   [(bs "ASCIIHexDecode", ODict []); (bs "RunLengthDecode", ODict [])] (bs "AAAbc") coded.
Proof.
  eexists. eapply E_cons; [eapply E_cons; [constructor|apply P_absent; reflexivity|]| |].
  - apply (C_rl _ _ _ _ [Repeat 3 65; Literal [98; 99]]); [left; reflexivity|]. repeat constructor; cbn; lia.
  - apply P_absent. reflexivity.
  - apply (C_ahex _ _ _ _ _ (bs "FE410162" ++ bs "63") []); [left; reflexivity| |constructor]. vm_compute.
    apply (HP_byte 70 69 15 14); [apply (HD_upper 15); lia|apply (HD_upper 14); lia|].
    apply (HP_byte 52 49 4 1); [apply (HD_num 4); lia|apply (HD_num 1); lia|].
    apply (HP_byte 48 49 0 1); [apply (HD_num 0); lia|apply (HD_num 1); lia|].
    apply (HP_byte 54 50 6 2); [apply (HD_num 6); lia|apply (HD_num 2); lia|].
    apply (HP_byte 54 51 6 3); [apply (HD_num 6); lia|apply (HD_num 3); lia|]. constructor.
Qed.

(* ---------- C59 ---------- *)
Section refs.
  Context (getobj : Z -> option obj) (default : obj).
  Lemma resolve1_more f : forall o v g, resolve1 getobj f default o = Some v -> (f <= g)%nat -> resolve1 getobj g default o = Some v.
  Proof.
    induction f as [|f IH]; intros o v g H Hg; cbn [resolve1] in H; [discriminate|]. destruct g as [|g]; [lia|]. cbn [resolve1].
    destruct o; try assumption. apply IH; [assumption|lia].
  Qed.
  (* resolve1 returns v, after some number of steps and for ever after, exactly when the references lead to v *)
  Theorem C59_resolve1 o v : (exists n, forall f, resolve1 getobj (n + f) default o = Some v) <-> Leads getobj default o v.
  Proof.
    split.
    - intros [n H]. specialize (H 0%nat). rewrite Nat.add_0_r in H. revert o H. induction n as [|n IH]; intros o H; cbn [resolve1] in H; [discriminate|].
      destruct o; try (injection H as <-; apply Leads_stop; discriminate). apply IH in H. unfold ref_resolve in H.
      destruct (getobj objid) as [o'|] eqn:E; [eapply Leads_ref; eassumption|apply Leads_missing; assumption].
    - induction 1 as [o Ho|i o v E H IH|i v E H IH].
      + exists 1%nat. intros f. cbn [Nat.add resolve1]. destruct o; try reflexivity. exfalso. eapply Ho. reflexivity.
      + destruct IH as [n IH]. exists (S n). intros f. cbn [Nat.add resolve1]. unfold ref_resolve. rewrite E. apply IH.
      + destruct IH as [n IH]. exists (S n). intros f. cbn [Nat.add resolve1]. unfold ref_resolve. rewrite E. apply IH.
  Qed.
  Theorem C59_never_a_reference o v i : Leads getobj default o v -> v <> ORef i.
  Proof. induction 1 as [o Ho|j o v E H IH|j v E H IH]; [apply Ho|assumption|assumption]. Qed.
  (* it terminates on every document whose references go down along some order *)
  Theorem C59_terminates (rank : Z -> nat) : (forall i, default <> ORef i) ->
    (forall i j, getobj i = Some (ORef j) -> (rank j < rank i)%nat) ->
    forall o, exists v, Leads getobj default o v.
  Proof.
    intros Hdef Hrank. assert (H : forall n i, (rank i < n)%nat -> exists v, Leads getobj default (ORef i) v).
    { induction n as [|n IH]; intros i Hi; [lia|]. destruct (getobj i) as [o|] eqn:E.
      - destruct o as [| | | | | | | | |j|]; try (eexists; eapply Leads_ref; [eassumption|apply Leads_stop; discriminate]).
        destruct (IH j) as [v Hv]; [specialize (Hrank i j E); lia|]. exists v. eapply Leads_ref; eassumption.
      - exists default. apply Leads_missing; [assumption|]. apply Leads_stop. assumption. }
    intros o. destruct o; try (eexists; apply Leads_stop; discriminate). apply (H (S (rank objid))). lia.
  Qed.
  (* Refuted on documents with a reference cycle: resolution never returns *)
  Theorem C59_cycle_refuted i : getobj i = Some (ORef i) -> forall f, resolve1 getobj f default (ORef i) = None.
  Proof. intros E f. induction f as [|f IH]; [reflexivity|]. cbn [resolve1]. unfold ref_resolve. rewrite E. assumption. Qed.

  (* and in general it returns nothing when the references lead nowhere *)
  Theorem C59_diverges o : (forall v, ~ Leads getobj default o v) -> forall f, resolve1 getobj f default o = None.
  Proof.
    intros H f. destruct (resolve1 getobj f default o) as [v|] eqn:E; [|reflexivity]. exfalso. apply (H v). apply C59_resolve1.
    exists f. intros g. apply (resolve1_more f); [assumption|lia].
  Qed.

  (* resolve_all: for objects with no dictionary, references at any depth of the arrays are replaced *)
  Theorem C59_resolve_all_partial o v : Resolved getobj default o v ->
    exists n, forall f, resolve_all getobj (n + f) default o = Ok v.
  Proof.
    assert (G : (forall o v, Resolved getobj default o v -> exists n, forall f, resolve_all getobj (n + f) default o = Ok v) /\
                (forall l l', ResolvedL getobj default l l' -> exists n, forall f, map_res (resolve_all getobj (n + f) default) l = Ok l')).
    { apply (Resolved_ind2 getobj default (fun o v _ => exists n, forall f, resolve_all getobj (n + f) default o = Ok v)
               (fun l l' _ => exists n, forall f, map_res (resolve_all getobj (n + f) default) l = Ok l')).
      - intros o0 l l' HL _ [n2 IH]. apply C59_resolve1 in HL as [n1 H1]. exists (S (n1 + n2)). intros f. cbn [Nat.add resolve_all].
        replace (S (n1 + n2 + f)) with (n1 + S (n2 + f))%nat by lia. rewrite H1.
        replace (n1 + n2 + f)%nat with (n2 + (n1 + f))%nat by lia. rewrite IH. reflexivity.
      - intros o0 v0 HL N1 N2. apply C59_resolve1 in HL as [n1 H1]. exists (S n1). intros f. cbn [Nat.add resolve_all].
        replace (S (n1 + f)) with (n1 + S f)%nat by lia. rewrite H1.
        destruct v0; try reflexivity; exfalso; [eapply N1|eapply N2]; reflexivity.
      - exists O. reflexivity.
      - intros x y l l' _ [n1 H1] _ [n2 H2]. exists (n1 + n2)%nat. intros f. cbn [map_res].
        replace (n1 + n2 + f)%nat with (n1 + (n2 + f))%nat by lia. rewrite H1. cbn [bind].
        replace (n1 + (n2 + f))%nat with (n2 + (n1 + f))%nat by lia. rewrite H2. reflexivity. }
    apply G.
  Qed.
  Theorem C59_resolve_all_no_refs o v : Resolved getobj default o v -> NoRef v.
  Proof.
    assert (G : (forall o v, Resolved getobj default o v -> NoRef v) /\ (forall l l', ResolvedL getobj default l l' -> Forall NoRef l')).
    { apply (Resolved_ind2 getobj default (fun o v _ => NoRef v) (fun l l' _ => Forall NoRef l')).
      - intros. apply NR_arr. assumption.
      - intros o0 v0 HL N1 N2. apply NR_other; [assumption|]. intros i. eapply C59_never_a_reference. eassumption.
      - constructor.
      - intros. constructor; assumption. }
    apply G.
  Qed.
  (* Refuted for dictionaries: any dictionary makes resolve_all raise AttributeError *)
  Theorem C59_resolve_all_dict_refuted d f : resolve_all getobj (3 + f) default (OArr [OInt 1; ODict d]) = Err AttributeError.
  Proof. reflexivity. Qed.
End refs.
Example C59_case : let doc := fun i => match i with 1 => Some (ORef 2) | 2 => Some (OArr [ORef 3; OInt 5]) | 3 => Some (OStr (bs "x")) | _ => None end in
  resolve1 doc 9 ONull (ORef 1) = Some (OArr [ORef 3; OInt 5]) /\ resolve1 doc 9 (OInt 0) (ORef 8) = Some (OInt 0) /\
  resolve_all doc 9 ONull (ORef 1) = Ok (OArr [OStr (bs "x"); OInt 5]).
Proof. cbv. splits; reflexivity. Qed.

(* ---------- C60 ---------- *)
Theorem C60_decipher_all f o o' : Deciphered f o o' <-> decipher_all f o = o'.
Proof.
  revert o'. apply (obj_ind2 (fun o => forall o', Deciphered f o o' <-> decipher_all f o = o')); clear o; [intros o|intros l IH|intros d IH|intros d r IH].
  - destruct o; try exact I; intros o';
      (split; [intros H; inversion H; subst; try reflexivity; exfalso; match goal with N : forall s, _ <> _ |- _ => eapply N; reflexivity end
              |intros <-; cbn; first [apply Dc_str|apply Dc_same; discriminate]]).
  - intros o'. cbn [decipher_all]. split.
    + intros H. inversion H; subst.
      * f_equal. match goal with F : Forall2 _ l l' |- _ => revert F end. generalize l'. clear H. induction IH as [|x l Hx HF IHl]; intros m F; inversion F; subst; [reflexivity|].
        cbn. f_equal; [apply Hx; assumption|apply IHl; assumption].
      * exfalso. match goal with N : forall s, OArr _ <> OArr _ |- _ => eapply N; reflexivity end.
    + intros <-. apply Dc_arr. induction IH as [|x l Hx HF IHl]; cbn; constructor; [apply Hx; reflexivity|assumption].
  - intros o'. cbn [decipher_all]. split.
    + intros H. inversion H; subst.
      * f_equal. match goal with F : Forall2 _ d d' |- _ => revert F end. generalize d'. clear H. induction IH as [|x l Hx HF IHl]; intros m F; inversion F as [|? y ? ? [E1 E2]]; subst; [reflexivity|].
        cbn. f_equal; [|apply IHl; assumption]. apply Hx in E2. destruct y. cbn in *. congruence.
      * exfalso. match goal with N : forall s, ODict _ <> ODict _ |- _ => eapply N; reflexivity end.
    + intros <-. apply Dc_dict. induction IH as [|x l Hx HF IHl]; cbn; constructor; [split; [reflexivity|apply Hx; reflexivity]|assumption].
  - intros o'. split; [intros H; inversion H; subst; reflexivity|intros <-; apply Dc_same; discriminate].
Qed.
(* so decrypting what was encrypted string by string gives the object back, for every inverse pair of functions *)
Theorem C60_inverse f g o o' : (forall s, g (f s) = s) -> Deciphered f o o' -> Deciphered g o' o.
Proof.
  intros Hfg H. apply C60_decipher_all in H as <-. apply C60_decipher_all.
  apply (obj_ind2 (fun o => decipher_all g (decipher_all f o) = o)); clear o; [intros o|intros l IH|intros d IH|intros d r IH].
  - destruct o; try exact I; cbn; try reflexivity. rewrite Hfg. reflexivity.
  - cbn. f_equal. rewrite map_map. rewrite <- (map_id l) at 2. apply map_ext_in. intros x Hx. rewrite Forall_forall in IH. apply IH. assumption.
  - cbn. f_equal. rewrite map_map. rewrite <- (map_id d) at 2. apply map_ext_in. intros [k v] Hx. rewrite Forall_forall in IH. cbn. f_equal. apply (IH _ Hx).
  - reflexivity.
Qed.
Example C60_case : decipher_all (map (Z.lxor 1)) (ODict [(ON "A", OArr [OStr [2; 4]; OInt 2; ON "n"])]) = ODict [(ON "A", OArr [OStr [3; 5]; OInt 2; ON "n"])].
Proof. reflexivity. Qed.
