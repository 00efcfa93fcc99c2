(* Property C85: content streams are read into their operands and operators, inline images included. *)
From Coq Require Import String.
From Verif Require Import Base Lex_Model Lex_Chunk Lex_Spec Lex_Proofs Obj Stack_Model Stack_Spec Stack_Proofs StreamObj_Proofs Content_Model Content_Spec Content_Proofs Content_Props Instr_Spec Witness.
From Coq Require Import ZifyBool ZifyNat.
Open Scope Z_scope.

Section content.
  Variables (n : nat) (good : cp -> Prop).
  Hypothesis Hnt : forall c t ts e, good c -> ctokens n c = (t :: ts, e) ->
    exists c', cnexttoken n c = (Ok t, c') /\ ctokens n c' = (ts, e) /\ good c'.

  Lemma content_one o ts : Written false false o ts -> forall pts c ts2 e,
    map snd pts = ts -> good c -> ctokens n c = (pts ++ ts2, e) ->
    exists pos m c', good c' /\ ctokens n c' = (ts2, e) /\
      forall f, content_nextobject n (m + f) c stk0 = Ok ((pos, o), c', stk0).
  Proof.
    intros HW pts p ts2 e Hp N T.
    destruct (written_runs (cnexttoken n) good (ctokens n) Hnt (content_keyword n) flush_all false false ltac:(discriminate) ltac:(discriminate)) as (_ & HL & HE).
    assert (Hatom : forall t, (forall k, t <> TKwd k) -> ts = [t] -> o = tok_obj t ->
       exists pos m p', good p' /\ ctokens n p' = (ts2, e) /\
         forall f, content_nextobject n (m + f) p stk0 = Ok ((pos, o), p', stk0)).
    { intros t Ht -> ->. destruct pts as [|[q t'] [|? ?]]; try discriminate Hp. injection Hp as ->.
      destruct (Hnt _ _ _ _ N T) as (p' & Hn & T' & N').
      exists q, 1%nat, p'. splits; [assumption|assumption|]. intros f. unfold content_nextobject. cbn [Nat.add nextobject stk0 results].
      rewrite Hn. unfold step. destruct t; try (exfalso; eapply Ht; reflexivity); cbn; rewrite nextobject_eq; reflexivity. }
    inversion HW; subst; try discriminate;
      try (match goal with H : [?t] = _ |- _ => apply (Hatom t); [discriminate|congruence|reflexivity] end).
    - destruct pts as [|[p1 t1] pts]; [discriminate|]. cbn [map snd] in *.
      match goal with H : _ :: _ = _ :: map snd pts |- _ => symmetry in H; injection H as -> Hp' end.
      apply map_eq_app in Hp' as (l1 & l2 & -> & Hl1 & Hl2).
      destruct l2 as [|[p2 t2] [|? ?]]; try discriminate Hl2. injection Hl2 as ->.
      cbn [app] in T. destruct (Hnt _ _ _ _ N T) as (p' & Hn & T' & N').
      assert (Q : quiet flush_all (start_type stk0 p1 KArr)) by (split; [reflexivity|left; discriminate]).
      destruct (HL _ _ H _ l1 Q Hl1) as (l & Hl & R). rewrite <- app_assoc in T'.
      destruct (R p' _ _ N' T') as (m & p3 & N3 & T3 & E3). cbn [app] in T3.
      destruct (Hnt _ _ _ _ N3 T3) as (p4 & Hn4 & T4 & N4).
      exists p1, (S (m + 1))%nat, p4. splits; [assumption|assumption|]. intros f.
      unfold content_nextobject. cbn [Nat.add]. rewrite nextobject_eq. cbn [stk0 results]. rewrite Hn, step_open. cbn [bind].
      rewrite (quiet_flush flush_all _ Q), <- Nat.add_assoc, E3, nextobject_eq.
      change (results (push_all (start_type stk0 p1 KArr) l)) with (@nil pobj). cbn [Nat.add]. rewrite Hn4, step_close, end_start. cbn [bind].
      rewrite nextobject_eq. cbn. rewrite Hl. reflexivity.
    - destruct pts as [|[p1 t1] pts]; [discriminate|]. cbn [map snd] in *.
      match goal with H : _ :: _ = _ :: map snd pts |- _ => symmetry in H; injection H as -> Hp' end.
      apply map_eq_app in Hp' as (l1 & l2 & -> & Hl1 & Hl2).
      destruct l2 as [|[p2 t2] [|? ?]]; try discriminate Hl2. injection Hl2 as ->.
      cbn [app] in T. destruct (Hnt _ _ _ _ N T) as (p' & Hn & T' & N').
      assert (Q : quiet flush_all (start_type stk0 p1 KDict)) by (split; [reflexivity|left; discriminate]).
      destruct (HE _ _ H0 _ l1 Q Hl1) as (l & Hl & R). rewrite <- app_assoc in T'.
      destruct (R p' _ _ N' T') as (m & p3 & N3 & T3 & E3). cbn [app] in T3.
      destruct (Hnt _ _ _ _ N3 T3) as (p4 & Hn4 & T4 & N4).
      exists p1, (S (m + 1))%nat, p4. splits; [assumption|assumption|]. intros f.
      unfold content_nextobject. cbn [Nat.add]. rewrite nextobject_eq. cbn [stk0 results]. rewrite Hn, step_dopen. cbn [bind].
      rewrite (quiet_flush flush_all _ Q), <- Nat.add_assoc, E3, nextobject_eq.
      change (results (push_all (start_type stk0 p1 KDict) l)) with (@nil pobj). cbn [Nat.add]. rewrite Hn4, step_dclose, end_start. cbn [bind].
      rewrite Hl, flatten_even, build_dict_lemma; [|assumption|intros k _ k' v' []]. cbn [bind]. rewrite nextobject_eq. reflexivity.
  Qed.

  Lemma list_eqb_no a b : a <> b -> list_eqb a b = false.
  Proof. intros H. destruct (list_eqb a b) eqn:E; [|reflexivity]. apply list_eqb_eq in E. contradiction. Qed.
  Lemma operator_step k c s pos : operator k -> step (content_keyword n) c s pos (TKwd k) = Ok (c, push s (pos, OKwd k)).
  Proof.
    intros H. unfold operator in H. cbn [In] in H. unfold step, content_keyword.
    rewrite !list_eqb_no by (intros E; apply H; subst; tauto). reflexivity.
  Qed.
  Lemma content_op k : operator k -> forall pos c ts2 e, good c -> ctokens n c = ((pos, TKwd k) :: ts2, e) ->
    exists c', good c' /\ ctokens n c' = (ts2, e) /\
      forall f, content_nextobject n (1 + f) c stk0 = Ok ((pos, OKwd k), c', stk0).
  Proof.
    intros Hk pos c ts2 e G T. destruct (Hnt _ _ _ _ G T) as (c' & Hn & T' & G'). exists c'. splits; [assumption|assumption|].
    intros f. unfold content_nextobject. rewrite nextobject_eq. cbn [Nat.add stk0 results]. rewrite Hn, (operator_step k _ _ _ Hk).
    cbn [bind]. rewrite nextobject_eq. reflexivity.
  Qed.

  Notation cobjects := (all_objects (cnexttoken n) (content_keyword n) flush_all).
  (* after the tokens ts the objects os have been delivered *)
  Lemma content_instr os vals : Instr os vals -> forall pts c ts2 e, map snd pts = vals -> good c -> ctokens n c = (pts ++ ts2, e) ->
    exists m l c', map snd l = os /\ good c' /\ ctokens n c' = (ts2, e) /\
      forall F, (m <= F)%nat -> cobjects F c stk0 = (let (r, x) := cobjects (F - length l) c' stk0 in (l ++ r, x))%nat.
  Proof.
    induction 1 as [|o t os ts HW HI IH|k os ts Hk HI IH]; intros pts c ts2 e Hp G T.
    - destruct pts; [|discriminate]. exists O, [], c. splits; [reflexivity|assumption|exact T|]. intros F _. cbn [length].
      rewrite Nat.sub_0_r. destruct (cobjects F c stk0). reflexivity.
    - apply map_eq_app in Hp as (l1 & l2 & -> & H1 & H2). rewrite <- app_assoc in T.
      destruct (content_one o t HW l1 c _ e H1 G T) as (pos & m1 & c1 & G1 & T1 & E1).
      destruct (IH l2 c1 ts2 e H2 G1 T1) as (m2 & l & c' & Hl & G' & T' & E2).
      exists (S (m1 + m2)), ((pos, o) :: l), c'. splits; [cbn; congruence|assumption|assumption|].
      intros F HF. destruct F as [|F]; [lia|]. cbn [all_objects]. 
      replace F with (m1 + (F - m1))%nat at 1 by lia. fold (content_nextobject n (m1 + (F - m1)) c stk0). rewrite E1.
      rewrite (E2 F ltac:(lia)). cbn [length Nat.sub]. destruct (cobjects (F - length l)%nat c' stk0). reflexivity.
    - destruct pts as [|[pos t] pts]; [discriminate|]. cbn [map snd] in Hp. injection Hp as -> Hp. cbn [app] in T.
      destruct (content_op k Hk pos c _ e G T) as (c1 & G1 & T1 & E1).
      destruct (IH pts c1 ts2 e Hp G1 T1) as (m2 & l & c' & Hl & G' & T' & E2).
      exists (S (S m2)), ((pos, OKwd k) :: l), c'. splits; [cbn; congruence|assumption|assumption|].
      intros F HF. destruct F as [|F]; [lia|]. cbn [all_objects].
      replace F with (1 + (F - 1))%nat at 1 by lia. fold (content_nextobject n (1 + (F - 1)) c stk0). rewrite E1.
      rewrite (E2 F ltac:(lia)). cbn [length Nat.sub]. destruct (cobjects (F - length l)%nat c' stk0). reflexivity.
  Qed.
End content.
Lemma content_end n c e : (0 < n)%nat -> ctokens n c = ([], e) -> forall F, (2 <= F)%nat -> all_objects (cnexttoken n) (content_keyword n) flush_all F c stk0 = ([], e).
  Proof.
    intros Hn T F HF. destruct F as [|[|F]]; [lia|lia|]. cbn [all_objects]. rewrite nextobject_eq. cbn [stk0 results].
    rewrite (ctokens_next n c Hn) in T. destruct (cnexttoken n c) as [[t|x] c']; [destruct (ctokens n c'); discriminate|]. congruence.
  Qed.

(* A page content of any number of streams, each spelling its own tokens, where all the tokens together write the operands and operators os: for
   every read size the parser delivers exactly os, in order, and then signals the end of data (which ends the page). *)
Theorem C85_streams_partial n streams valss os : (0 < n)%nat -> streams <> [] ->
  Forall2 Spells streams valss -> Instr os (concat valss) ->
  exists m, forall fuel, (m <= fuel)%nat -> exists l, content_objects n fuel streams = (l, PSEOF) /\ map snd l = os.
Proof.
  intros Hn Hs HF HI. destruct (C22_concatenation_partial n streams valss Hn Hs HF) as [V1 V2].
  unfold content_objects, content_tokens in *. destruct streams as [|s r]; [congruence|]. cbn [copen] in *.
  set (c := mkCp lex0 0 [] (Some (s, O)) r) in *.
  destruct (ctokens n c) as [pts e] eqn:T. cbn [fst snd] in V1, V2. subst e.
  rewrite <- (app_nil_r pts) in T.
  destruct (content_instr n (fun _ => True) (cnexttoken_tokens n Hn) os _ HI pts c [] PSEOF V1 Logic.I T) as (m & l & c' & Hl & _ & T' & E).
  exists (m + length l + 2)%nat. intros fuel HF'. exists l. split; [|assumption].
  rewrite (E fuel ltac:(lia)), (content_end n c' PSEOF Hn T') by lia. rewrite app_nil_r. reflexivity.
Qed.

(* the image at the head of the tokens *)
Lemma image_from n S c q0 ts1 q more e kvs before w0 d nl w rest :
  (0 < n)%nat -> S = before ++ bs "ID" ++ [w0] ++ d ++ nl ++ bs "EI" ++ [w] ++ rest ->
  (exists k, at_point S k c) -> ctokens n c = ((q0, KW "BI") :: ts1 ++ (q, KW "ID") :: more, e) -> q = Z.of_nat (length before) ->
  WrittenE false false kvs (map snd ts1) -> NoDup (map fst kvs) -> white w0 -> white w ->
  ~ marker_in (d ++ nl) -> (forall a, d ++ nl <> a ++ bs "E") -> (forall a, d ++ nl <> a ++ bs "EI") ->
  strips d nl -> (nl = [] -> d <> []) ->
  exists m p1 p2 c' s1, (forall f, content_nextobject n (m + f) c stk0 = Ok ((p1, OStream (entries kvs) d), c', s1)) /\
    (forall f, content_nextobject n f c' s1 = Ok ((p2, OK "EI"), c', stk0)) /\
    at_point S (length S - length rest) c' /\ clx c' = lex0.
Proof.
  intros Hn HS G T -> HW Hnd Hw0 Hw Hm H1 H2 Hst Hne. set (q := Z.of_nat (length before)) in *.
  destruct (inline_hnt n S Hn c _ _ _ G T) as (c1 & N1 & T1 & G1).
  assert (Q : quiet flush_all (start_type stk0 q0 KInline)) by (split; [reflexivity|left; discriminate]).
  destruct (written_runs (cnexttoken n) (fun c => exists k, at_point S k c) (ctokens n) (inline_hnt n S Hn) (content_keyword n) flush_all false false ltac:(discriminate) ltac:(discriminate)) as (_ & _ & HE).
  destruct (HE _ _ HW (start_type stk0 q0 KInline) ts1 Q eq_refl) as (l & Hl & R).
  destruct (R c1 _ _ G1 T1) as (m & c3 & G3 & T3 & E5).
  destruct (inline_hnt n S Hn _ _ _ _ G3 T3) as (c4 & N4 & T4 & (k4 & G4)).
  destruct G4 as (t4 & A1 & A2 & A3 & A4 & A0 & A5).
  set (tl := d ++ nl ++ bs "EI" ++ [w] ++ rest) in *.
  set (off := (length before + 3)%nat).
  assert (Hoff : q + 3 = Z.of_nat off) by (unfold off, q; lia).
  assert (Hd : skipn (Z.to_nat (q + 3)) S ++ concat (cstreams c4) = (d ++ nl) ++ [69; 73; w] ++ rest).
  { rewrite A2, Hoff, Nat2Z.id. cbn [concat]. rewrite app_nil_r, HS.
    replace (before ++ bs "ID" ++ [w0] ++ tl) with ((before ++ bs "ID" ++ [w0]) ++ tl) by (rewrite <- !app_assoc; reflexivity).
    rewrite skipn_before by (rewrite !app_length; cbn; lia). unfold tl. rewrite <- app_assoc. reflexivity. }
  pose proof (proj1 (white_space w) Hw) as Hw'.
  destruct (get_inline_lemma n c4 S t4 (q + 3) d nl w rest Hn A1 Hd Hm H1 H2 Hw' Hst Hne) as (c' & I1 & I2 & I3 & I4).
  exists (Datatypes.S (m + 1)), (q + 3), (q + 3), c', (mkStk [] None [] [(q + 3, OK "EI")]). splits.
  - intros f. unfold content_nextobject. cbn [Nat.add]. rewrite nextobject_eq. cbn [stk0 results]. rewrite N1.
    match goal with |- (bind ?x _) = _ => change x with (Ok (c1, start_type stk0 q0 KInline)) end. cbn [bind].
    rewrite (quiet_flush flush_all _ Q), <- Nat.add_assoc, E5, nextobject_eq.
    change (results (push_all (start_type stk0 q0 KInline) l)) with (@nil pobj). cbn [Nat.add]. rewrite N4.
    match goal with |- (bind ?x _) = _ => change x with (content_keyword n c4 (push_all (start_type stk0 q0 KInline) l) q (bs "ID")) end.
    unfold content_keyword. change (list_eqb (bs "ID") (bs "BI")) with false. change (list_eqb (bs "ID") (bs "ID")) with true. cbn iota.
    rewrite end_start, Hl, flatten_even, (build_dict_false kvs (writtenE_nonnull _ _ HW)), build_dict_lemma; [|assumption|intros k _ k' v' []].
    cbn [bind]. rewrite I1. cbn [bind]. rewrite nextobject_eq. reflexivity.
  - intros f. unfold content_nextobject. rewrite nextobject_eq. reflexivity.
  - assert (HlS : length S = (length before + 3 + length tl)%nat) by (rewrite HS, !app_length; cbn; lia).
    assert (P0 : at_point S off (mkCp lex0 (q + 3) [] (Some (S, Z.to_nat (q + 3))) (cstreams c4))).
    { exists off. rewrite Hoff, Nat2Z.id. cbn. splits; try reflexivity; [assumption|lia|]. unfold off. lia. }
    destruct (inline_loop_point n S Hn _ _ _ _ _ _ _ P0 I4) as (k' & Hk').
    pose proof (at_point_ahead _ _ _ Hk') as Ha. rewrite I2 in Ha.
    assert (Hlen : length rest = (length S - k')%nat) by (rewrite Ha; apply skipn_length).
    assert (Hle : (length rest <= length S)%nat) by (rewrite HlS; unfold tl; rewrite !app_length; lia).
    assert (Hc : (k' <= length S)%nat) by (destruct Hk' as (t' & _ & _ & _ & B4 & B0 & _); lia).
    replace (length S - length rest)%nat with k' by lia. assumption.
  - assumption.
Qed.

Lemma contents_from n S : (0 < n)%nat -> forall os text, Contents os text -> forall before c, S = before ++ text ->
  at_point S (length before) c -> mode_ (clx c) = MMain ->
  exists m, forall fuel, (m <= fuel)%nat -> exists l,
    all_objects (cnexttoken n) (content_keyword n) flush_all fuel c stk0 = (l, PSEOF) /\ map snd l = os.
Proof.
  intros Hn os text HC. induction HC as [os vals text HI (ts & HL & HV)|os vals kvs etoks text w0 d nl w os' rest HI Hnd HW (ts & HL & HV) Hw0 Hw Hm H1 H2 Hst Hne HC IH];
    intros before c HS Hk Hmm.
  - pose proof (ctokens_toks n S _ c Hn Hk) as T. rewrite HS, skipn_before in T by reflexivity.
    pose proof (layoutP_shift _ _ _ _ HL (Z.of_nat (length before)) []) as L.
    destruct (layoutP_lemma _ _ _ _ _ L ltac:(discriminate) (clx c) Hmm) as [(ts' & l' & F & _ & E3) _].
    cbn [app] in E3. rewrite app_nil_r in E3. rewrite Z.add_0_l in E3. rewrite E3, toks_nil in T. unfold pre in T. cbn [fst snd] in T.
    pose proof (tok_eq_snd _ _ F) as V. rewrite map_map in V. change (map snd ts' = map snd ts) in V. rewrite HV in V.
    destruct (content_instr n (fun _ => True) (cnexttoken_tokens n Hn) os _ HI ts' c [] PSEOF V Logic.I T) as (m & l & c' & Hl & _ & T' & E).
    exists (m + length l + 2)%nat. intros fuel HF'. exists l. split; [|assumption].
    rewrite (E fuel ltac:(lia)), (content_end n c' PSEOF Hn T') by lia. rewrite app_nil_r. reflexivity.
  - set (tl := d ++ nl ++ bs "EI" ++ [w] ++ rest) in *.
    pose proof (ctokens_toks n S _ c Hn Hk) as T. rewrite HS, skipn_before in T by reflexivity.
    pose proof (layoutP_shift _ _ _ _ HL (Z.of_nat (length before)) []) as L. rewrite app_nil_r in L.
    destruct (layoutP_lemma _ _ _ _ _ L ltac:(discriminate) (clx c) Hmm) as [(ts' & l' & F & Hl' & E3) _].
    rewrite Z.add_0_l in E3.
    assert (LID : LayoutP false (Z.of_nat (length before) + Z.of_nat (length text)) [(Z.of_nat (length before) + Z.of_nat (length text) + Z.of_nat (length (@nil Z)), KW "ID")] ([] ++ bs "ID" ++ []) ([w0] ++ tl)).
    { eapply LP_tok; [constructor|apply ID_spell| |repeat constructor]. exists w0, tl. split; [reflexivity|left; assumption]. }
    assert (Hw0n : forall r, [w0] ++ tl <> 62 :: r) by (intros r E; injection E as -> _; unfold white in Hw0; lia).
    destruct (layoutP_lemma _ _ _ _ _ LID Hw0n l' Hl') as [(ts2 & l2 & F2 & Hl2 & E4) _].
    inversion F2 as [|[q k] ? ? ? [Hkw Hq] F3]; subst. inversion F3; subst. cbn [snd fst] in *. subst k. destruct Hq as [Hq|Hq]; [|discriminate].
    change (([] ++ bs "ID" ++ []) ++ [w0] ++ tl) with (bs "ID" ++ [w0] ++ tl) in E4.
    rewrite E3, E4 in T. unfold pre in T. cbn [fst snd] in T.
    pose proof (tok_eq_snd _ _ F) as V. rewrite map_map in V. change (map snd ts' = map snd ts) in V. rewrite HV in V.
    apply map_eq_app in V as (pts & bt & -> & V1 & V2). destruct bt as [|[q0 k0] ts1]; [discriminate|]. cbn [map snd] in V2. injection V2 as -> V2.
    rewrite <- !app_assoc in T. cbn [app] in T.
    set (S := before ++ text ++ bs "ID" ++ [w0] ++ tl) in *.
    destruct (content_instr n (fun c => exists k, at_point S k c) (inline_hnt n S Hn) os _ HI pts c _ _ V1 (ex_intro (fun k => at_point S k c) (length before) Hk) T) as (m & l & c1 & Hl & G1 & T1 & E1).
    rewrite <- V2 in HW.
    destruct (image_from n S c1 q0 ts1 q _ _ kvs (before ++ text) w0 d nl w rest Hn ltac:(unfold S, tl; rewrite <- !app_assoc; reflexivity) G1 T1) as (m2 & p1 & p2 & c2 & s1 & X1 & X2 & X3 & X4); try assumption.
    { rewrite app_length. cbn [length] in Hq. lia. }
    assert (HlS : (length S - length rest)%nat = length (before ++ text ++ bs "ID" ++ [w0] ++ d ++ nl ++ bs "EI" ++ [w])).
    { unfold S, tl. rewrite !app_length. lia. }
    destruct (IH (before ++ text ++ bs "ID" ++ [w0] ++ d ++ nl ++ bs "EI" ++ [w]) c2) as (m3 & E3').
    { unfold S, tl. rewrite <- !app_assoc. reflexivity. }
    { rewrite <- HlS. assumption. }
    { rewrite X4. reflexivity. }
    exists (m + length l + 2 + m2 + m3)%nat. intros fuel HF.
    destruct (E3' (fuel - length l - 2)%nat ltac:(lia)) as (l3 & E5 & M5).
    exists (l ++ (p1, OStream (entries kvs) d) :: (p2, OK "EI") :: l3). split; [|rewrite map_app; cbn [map snd]; rewrite Hl, M5; reflexivity].
    rewrite (E1 fuel ltac:(lia)). remember (fuel - length l)%nat as f eqn:Ef.
    destruct f as [|[|f]]; [lia|lia|]. cbn [all_objects].
    replace (Datatypes.S f) with (m2 + (Datatypes.S f - m2))%nat at 1 by lia. fold (content_nextobject n (m2 + (Datatypes.S f - m2)) c1 stk0). rewrite X1.
    fold (content_nextobject n f c2 s1). rewrite X2. cbn [Nat.sub] in E5. rewrite Nat.sub_0_r in E5. rewrite E5. reflexivity.
Qed.
(* One content stream, with any number of inline images among its operators. *)
Theorem C85_inline_images_partial n os text : (0 < n)%nat -> Contents os text ->
  exists m, forall fuel, (m <= fuel)%nat -> exists l, content_objects n fuel [text] = (l, PSEOF) /\ map snd l = os.
Proof. intros Hn HC. apply (contents_from n text Hn os text HC []); [reflexivity|apply at_point_open|reflexivity]. Qed.

(* every operand and operator of the text is delivered, and nothing else: two readings of the same text agree *)
Corollary C85_unambiguous os1 os2 text : Contents os1 text -> Contents os2 text -> os1 = os2.
Proof.
  intros H1 H2. destruct (C85_inline_images_partial 1 os1 text ltac:(lia) H1) as (m1 & E1). destruct (C85_inline_images_partial 1 os2 text ltac:(lia) H2) as (m2 & E2).
  destruct (E1 (m1 + m2)%nat ltac:(lia)) as (l1 & X1 & <-). destruct (E2 (m1 + m2)%nat ltac:(lia)) as (l2 & X2 & <-). congruence.
Qed.
(* how the content is cut into streams (between tokens) and the size of the reads do not matter *)
Corollary C85_cutting n1 n2 streams1 streams2 valss1 valss2 os : (0 < n1)%nat -> (0 < n2)%nat -> streams1 <> [] -> streams2 <> [] ->
  Forall2 Spells streams1 valss1 -> Forall2 Spells streams2 valss2 -> concat valss1 = concat valss2 -> Instr os (concat valss1) ->
  exists m, forall fuel, (m <= fuel)%nat ->
    map snd (fst (content_objects n1 fuel streams1)) = map snd (fst (content_objects n2 fuel streams2)).
Proof.
  intros Hn1 Hn2 Hs1 Hs2 F1 F2 Ec HI. destruct (C85_streams_partial n1 streams1 valss1 os Hn1 Hs1 F1 HI) as (m1 & E1).
  rewrite Ec in HI. destruct (C85_streams_partial n2 streams2 valss2 os Hn2 Hs2 F2 HI) as (m2 & E2).
  exists (m1 + m2)%nat. intros fuel HF. destruct (E1 fuel ltac:(lia)) as (l1 & X1 & M1). destruct (E2 fuel ltac:(lia)) as (l2 & X2 & M2).
  rewrite X1, X2. cbn [fst]. congruence.
Qed.

(* null is not read as the null object, and an array or a dictionary left open swallows what follows *)
Theorem C85_null_refuted : map snd (fst (content_objects 4 60 [bs "[null 1] TJ "])) = [OArr [OK "null"; OInt 1]; OK "TJ"].
Proof. vm_compute. reflexivity. Qed.
Theorem C85_open_array_refuted : content_objects 4 60 [bs "[1 2 BT q Q "] = ([], PSEOF).
Proof. vm_compute. reflexivity. Qed.

(* a page in two streams; a stream with an image *)
Definition w_s1 : list Z := bs "BT /F1 12 Tf [(A)-3<</X[true]>>]TJ%c" ++ [10].
Definition w_s2 : list Z := bs " ET ".
Definition w_v1 : list token := [KW "BT"; TLit (bs "F1"); TInt 12; KW "Tf"; KW "["; TStr (bs "A"); TInt (-3); KW "<<"; TLit (bs "X"); KW "["; TBool true; KW "]"; KW ">>"; KW "]"; KW "TJ"].
Definition w_os : list obj := [OK "BT"; ON "F1"; OInt 12; OK "Tf"; OArr [OStr (bs "A"); OInt (-3); ODict [(ON "X", OArr [OBool true])]]; OK "TJ"; OK "ET"].
Ltac instr_op := first [ apply In_nil
  | apply In_operator; [unfold operator; cbn [In]; intuition discriminate|] ].
Lemma w_instr : Instr w_os (w_v1 ++ [KW "ET"]).
Proof.
  unfold w_os, w_v1. cbn [app]. instr_op.
  apply (In_operand (ON "F1") [TLit (bs "F1")]); [constructor|]. apply (In_operand (OInt 12) [TInt 12]); [constructor|]. instr_op.
  apply (In_operand _ [KW "["; TStr (bs "A"); TInt (-3); KW "<<"; TLit (bs "X"); KW "["; TBool true; KW "]"; KW ">>"; KW "]"]).
  { apply (W_arr false false _ [TStr (bs "A"); TInt (-3); KW "<<"; TLit (bs "X"); KW "["; TBool true; KW "]"; KW ">>"]).
    apply (WL_cons _ _ _ _ [TStr (bs "A")]); [constructor|]. apply (WL_cons _ _ _ _ [TInt (-3)]); [constructor|].
    apply (WL_cons _ _ _ _ [KW "<<"; TLit (bs "X"); KW "["; TBool true; KW "]"; KW ">>"]); [|constructor].
    apply (W_dict false false [(bs "X", OArr [OBool true])] [TLit (bs "X"); KW "["; TBool true; KW "]"]); [repeat constructor; cbn; tauto|].
    apply (WE_cons _ _ _ _ _ [KW "["; TBool true; KW "]"]); [|constructor].
    apply (W_arr false false [OBool true] [TBool true]). apply (WL_cons _ _ _ _ [TBool true]); constructor. }
  do 2 instr_op. constructor.
Qed.
Ltac single_tok g c := eapply (layP _ _ g _ _ [c] SelfDelimited); [reflexivity|reflexivity|reflexivity|apply sep_ok; reflexivity|apply Sp_single; cbn [In]; tauto|exact Logic.I|].
Ltac str_tok g s := eapply (layP _ _ g _ _ (40 :: s ++ [41]) SelfDelimited); [reflexivity|reflexivity|reflexivity|apply sep_ok; reflexivity|apply Sp_str; repeat (apply SB_byte; [discriminate|discriminate|discriminate|]); apply SB_nil|exact Logic.I|].
Lemma w_spells1 : Spells w_s1 w_v1.
Proof.
  eexists. split.
  { unfold w_s1, w_v1. cbn [bs app].
    kw_tok (@nil Z) (bs "BT"). name_tok (bs " ") (bs "F1"). int_tok (bs " ") (bs "12"). kw_tok (bs " ") (bs "Tf"). single_tok (bs " ") 91.
    str_tok (@nil Z) (bs "A").
    eapply (layP _ _ (@nil Z) _ (TInt (-1 * 3)) (bs "-3") NeedsBoundary); [reflexivity|reflexivity|reflexivity|constructor| |apply follows_ok; reflexivity|].
    { apply (Sp_int [45] (-1) (bs "3") 3); [constructor|]. apply (Dec_one 3). lia. }
    dopen_tok (@nil Z). name_tok (@nil Z) (bs "X"). single_tok (@nil Z) 91.
    eapply (layP _ _ (@nil Z) _ _ (bs "true") NeedsBoundary); [reflexivity|reflexivity|reflexivity|constructor|apply Sp_true|apply follows_ok; reflexivity|].
    single_tok (@nil Z) 93. dclose_tok (@nil Z). single_tok (@nil Z) 93. kw_tok (@nil Z) (bs "TJ").
    apply LP_end. apply (Sep_comment [99] 10 []); [|left; reflexivity|constructor]. repeat constructor. unfold eol. lia. }
  reflexivity.
Qed.
Lemma w_spells2 : Spells w_s2 [KW "ET"].
Proof. eexists. split; [unfold w_s2; cbn [bs]; kw_tok (bs " ") (bs "ET"); lay_end|reflexivity]. Qed.
Example C85_case : exists m, forall fuel, (m <= fuel)%nat -> exists l, content_objects 5 fuel [w_s1; w_s2] = (l, PSEOF) /\ map snd l = w_os.
Proof.
  apply (C85_streams_partial 5 _ [w_v1; [KW "ET"]]); [lia|discriminate| |exact w_instr].
  constructor; [exact w_spells1|constructor; [exact w_spells2|constructor]].
Qed.
Fixpoint markerb (d : list Z) : bool :=
  match d with
  | a :: r => (match r with b :: c :: _ => (a =? 69) && (b =? 73) && is_space c | _ => false end) || markerb r
  | [] => false
  end.
Lemma no_marker_ok d : markerb d = false -> ~ marker_in d.
Proof.
  intros H (a & w & b & -> & Hw). revert H. induction a as [|x a IH]; cbn [app markerb].
  - cbn. rewrite Hw. discriminate.
  - intros H. apply orb_false_elim in H as [_ H]. apply IH. exact H.
Qed.
Definition w_img : list Z := bs "q BI /W 2 " ++ bs "ID" ++ [32] ++ [0; 255; 69; 73; 7] ++ [13; 10] ++ bs "EI" ++ [10] ++ bs "Q BI ID" ++ [32; 1] ++ bs "EI ".
Example C85_image_case : exists m, forall fuel, (m <= fuel)%nat -> exists l, content_objects 5 fuel [w_img] = (l, PSEOF) /\
  map snd l = [OK "q"; OStream [(ON "W", OInt 2)] [0; 255; 69; 73; 7]; OK "EI"; OK "Q"; OStream [] [1]; OK "EI"].
Proof.
  apply C85_inline_images_partial; [lia|].
  apply (Ct_image [OK "q"] [KW "q"] [(bs "W", OInt 2)] [TLit (bs "W"); TInt 2] (bs "q BI /W 2 ") 32 [0; 255; 69; 73; 7] [13; 10] 10 [OK "Q"; OStream [] [1]; OK "EI"] (bs "Q BI ID" ++ [32; 1] ++ bs "EI ")).
  - instr_op. constructor.
  - repeat constructor; cbn; tauto.
  - apply (WE_cons _ _ _ _ _ [TInt 2]); [constructor|constructor].
  - eexists. split; [cbn [bs app]; kw_tok (@nil Z) (bs "q"); kw_tok (bs " ") (bs "BI"); name_tok (bs " ") (bs "W"); int_tok (bs " ") (bs "2"); lay_end|reflexivity].
  - left. reflexivity.
  - right. right. left. reflexivity.
  - apply no_marker_ok. reflexivity.
  - intros a E. apply (f_equal (@rev Z)) in E. rewrite (rev_app_distr a) in E. discriminate E.
  - intros a E. apply (f_equal (@rev Z)) in E. rewrite (rev_app_distr a) in E. discriminate E.
  - left. reflexivity.
  - discriminate.
  - apply (Ct_image [OK "Q"] [KW "Q"] [] [] (bs "Q BI ") 32 [1] [] 32 [] []).
    + instr_op. constructor.
    + constructor.
    + constructor.
    + eexists. split; [cbn [bs app]; kw_tok (@nil Z) (bs "Q"); kw_tok (bs " ") (bs "BI"); lay_end|reflexivity].
    + left. reflexivity.
    + left. reflexivity.
    + apply no_marker_ok. reflexivity.
    + intros a E. apply (f_equal (@rev Z)) in E. rewrite (rev_app_distr a) in E. discriminate E.
    + intros a E. apply (f_equal (@rev Z)) in E. rewrite (rev_app_distr a) in E. discriminate E.
    + right. right. split; [right; reflexivity|]. intros a x E. destruct a as [|y a]; [injection E as <-; reflexivity|destruct a; discriminate].
    + discriminate.
    + apply (Ct_plain [] [] []); [constructor|]. exists []. split; [repeat constructor|reflexivity].
Qed.
