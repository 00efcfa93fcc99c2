From Coq Require Import String.
From Verif Require Import Base Lex_Model Lex_Chunk Lex_Spec Lex_Proofs Lines_Model Lines_Spec Lines_Proofs Obj Stack_Model Stack_Spec Stack_Proofs
  Stack_Props StreamObj_Proofs XRef_Model XRef_Spec XRef_Proofs Doc_Model Doc_Spec Doc_Proofs Fallback_Model Fallback_Spec.
From Coq Require Import ZifyBool ZifyNat.
Open Scope Z_scope.

(* ---------- where the parser stands ---------- *)
Definition good (e : env) (p : parser) : Prop :=
  nonempty (chunks p) /\ mode_ (lx p) = MMain /\ 0 <= Lex_Model.pos p /\ buf p ++ concat (chunks p) = skipn (Z.to_nat (Lex_Model.pos p)) (file e).
Definition kwinv (l : lex) (p : Z) : Prop := mode_ l = MKeyword -> curpos l + Z.of_nat (length (cur l)) = p.
Definition word (k : list Z) : Prop := exists c r, k = c :: r /\ is_alpha c = true.

Lemma parse_func_inv l p s l' t r : s <> [] -> kwinv l p -> parse_func l p s = Ok (l', t, r) ->
  (t = None -> kwinv l' (p + Z.of_nat (length s - length r))) /\
  (forall tk, t = Some tk -> mode_ l' = MMain /\ forall q k, tk = (q, TKwd k) -> word k -> p + Z.of_nat (length s - length r) = q + Z.of_nat (length k)).
Proof.
  intros Hs HI H. unfold parse_func in H. destruct l as [m cu cp pa oc hx]. unfold kwinv in *. destruct m; cbn [mode_ curpos cur] in *.
  - unfold parse_main in H. destruct (span _ s) as [sp r0] eqn:Es. apply span_len in Es. destruct r0 as [|c r0].
    + injection H as <- <- <-. split; [discriminate|]. intros tk H. discriminate.
    + cbn [length] in Es.
      repeat match type of H with (if ?b then _ else _) = _ => destruct b eqn:? end; injection H as <- <- <-; cbn [mode_ cur curpos length];
      split; try discriminate; try (intros tk Htk; discriminate).
      * intros _ _. lia.
      * intros tk [= <-]. split; [reflexivity|]. intros q k [= <- <-] (c' & r' & [= <- <-] & Hc). congruence.
  - unfold parse_comment in H. destruct (span _ s) as [sp r0] eqn:Es. destruct r0; injection H as <- <- <-; cbn; split; try discriminate.
  - unfold parse_literal in H. destruct (span _ s) as [sp r0] eqn:Es. destruct r0 as [|c r0]; [|destruct (c =? 35)]; injection H as <- <- <-; cbn; split; try discriminate.
    intros tk [= <-]. split; [reflexivity|]. discriminate.
  - unfold parse_literal_hex in H. destruct s; [contradiction|]. destruct (_ && _); injection H as <- <- <-; cbn; split; try discriminate.
  - unfold parse_number in H. destruct (span _ s) as [sp r0] eqn:Es. destruct r0 as [|c r0]; [|destruct (c =? 46)]; injection H as <- <- <-; cbn; split; try discriminate.
    intros tk. destruct (py_int _); [|discriminate]. intros [= <-]. split; [reflexivity|]. discriminate.
  - unfold parse_float in H. destruct (span _ s) as [sp r0] eqn:Es. destruct r0 as [|c r0]; injection H as <- <- <-; cbn; split; try discriminate.
    intros tk. destruct (py_float_ok _); [|discriminate]. intros [= <-]. split; [reflexivity|]. discriminate.
  - unfold parse_keyword in H. destruct (span _ s) as [sp r0] eqn:Es. apply span_len in Es. specialize (HI eq_refl). destruct r0 as [|c r0]; injection H as <- <- <-.
    + cbn. split; [|discriminate]. intros _ _. rewrite app_length. cbn in Es. lia.
    + split; [discriminate|]. intros tk [= <-]. split; [reflexivity|]. intros q k. cbn [app_cur set_cur cur curpos].
      match goal with |- context [if ?b then TBool true else _] => destruct b end; [discriminate|].
      match goal with |- context [if ?b then TBool false else _] => destruct b end; [discriminate|].
      intros [= <- <-] _. rewrite app_length. cbn [length] in *. lia.
  - unfold parse_string in H. destruct (span _ s) as [sp r0] eqn:Es. destruct r0 as [|c r0]; [injection H as <- <- <-; cbn; split; discriminate|].
    destruct (c =? 92); [|destruct (c =? 40); [|destruct (negb _)]]; injection H as <- <- <-; cbn; split; try discriminate.
    intros tk [= <-]. split; [reflexivity|]. discriminate.
  - unfold parse_string_1 in H. destruct s as [|c s]; [contradiction|]. destruct (_ && _); [injection H as <- <- <-; cbn; split; discriminate|].
    destruct oc; cbn [Lex_Model.oct] in H.
    + destruct (esc_string c); injection H as <- <- <-; cbn; split; discriminate.
    + destruct (_ <? 256); [|discriminate]. injection H as <- <- <-; cbn; split; discriminate.
  - unfold parse_wopen in H. destruct s as [|c s]; [contradiction|]. destruct (c =? 60); injection H as <- <- <-; cbn; split; try discriminate.
    intros tk [= <-]. split; [reflexivity|]. intros q k [= <- <-] (c' & r' & [= <- <-] & Hc). discriminate.
  - unfold parse_wclose in H. destruct s as [|c s]; [contradiction|]. destruct (c =? 62); injection H as <- <- <-; cbn; split; try discriminate.
    intros tk [= <-]. split; [reflexivity|]. intros q k [= <- <-] (c' & r' & [= <- <-] & Hc). discriminate.
  - unfold parse_hexstring in H. destruct (span _ s) as [sp r0] eqn:Es. destruct r0 as [|c r0]; injection H as <- <- <-; cbn; split; try discriminate.
    intros tk [= <-]. split; [reflexivity|]. discriminate.
Qed.

Lemma skipn_app_from (F a r : list Z) k : a ++ r = skipn k F -> r = skipn (k + length a) F.
Proof. intros H. rewrite <- (skipn_before a r (length a) eq_refl), H, skipn_skipn. f_equal. lia. Qed.

Lemma nexttoken_loop_good e : forall f l p0 b cs t p', nonempty cs -> 0 <= p0 -> b ++ concat cs = skipn (Z.to_nat p0) (file e) -> kwinv l p0 ->
  nexttoken_loop f l p0 b cs = (Ok t, p') ->
  good e p' /\ forall q k, t = (q, TKwd k) -> word k -> Lex_Model.pos p' = q + Z.of_nat (length k).
Proof.
  induction f as [|f IH]; intros l p0 b cs t p' Hne Hp Hb HI H; [discriminate|]. cbn [nexttoken_loop] in H.
  destruct (fillbuf b cs) as [[b1 cs1]|] eqn:Ef; [|discriminate].
  assert (Hb1 : b1 <> [] /\ b ++ concat cs = b1 ++ concat cs1 /\ nonempty cs1).
  { destruct b as [|x b]; cbn [fillbuf] in Ef.
    - destruct cs as [|c cs]; [discriminate|]. injection Ef as <- <-. inversion_clear Hne. split; [assumption|]. split; [reflexivity|assumption].
    - injection Ef as <- <-. split; [discriminate|]. split; [reflexivity|assumption]. }
  destruct Hb1 as (Hb1 & Hcat & Hne1). rewrite Hcat in Hb.
  destruct (parse_func l p0 b1) as [[[l' o] r]|ex] eqn:Ep; [|discriminate].
  destruct (parse_func_dec _ _ _ _ _ _ Hb1 Ep) as (_ & Hle & (a & Ea)). destruct (parse_func_inv _ _ _ _ _ _ Hb1 HI Ep) as [I1 I2].
  assert (Hr : r ++ concat cs1 = skipn (Z.to_nat (p0 + Z.of_nat (length b1 - length r))) (file e)).
  { subst b1. rewrite <- app_assoc in Hb. apply skipn_app_from in Hb. rewrite Hb. f_equal. rewrite app_length. lia. }
  destruct o as [tk|].
  - injection H as <- <-. destruct (I2 tk eq_refl) as [M K]. split; [|exact K]. unfold good. cbn [chunks lx Lex_Model.pos buf]. splits; [assumption|assumption|lia|assumption].
  - eapply IH; [exact Hne1| |exact Hr|apply I1; reflexivity|exact H]. lia.
Qed.
Lemma good_nexttoken e p t p' : good e p -> nexttoken p = (Ok t, p') ->
  good e p' /\ forall q k, t = (q, TKwd k) -> word k -> Lex_Model.pos p' = q + Z.of_nat (length k).
Proof. intros (N & M & P & B) H. eapply nexttoken_loop_good; [exact N|exact P|exact B| |exact H]. intros X. congruence. Qed.
Lemma good_tokens e p t ts ex : good e p -> tokens p = (t :: ts, ex) -> exists p', nexttoken p = (Ok t, p') /\ tokens p' = (ts, ex) /\ good e p'.
Proof.
  intros G T. destruct (nexttoken_tokens p t ts ex (proj1 G) T) as (p' & H1 & H2 & _). exists p'. splits; [assumption|assumption|].
  exact (proj1 (good_nexttoken e p t p' G H1)).
Qed.
Lemma good_seek e k : (0 < bufsiz e)%nat -> 0 <= k -> good e (seek e k).
Proof.
  intros Hb Hk. destruct (read_chunks_spec (bufsiz e) (skipn (Z.to_nat k) (file e)) Hb) as [E N].
  unfold good, seek, open_at. cbn [chunks lx Lex_Model.pos buf lex0 mode_ app]. splits; [exact N|reflexivity|exact Hk|exact E].
Qed.
Lemma good_lview e p before rest : good e p -> file e = before ++ rest -> Lex_Model.pos p = Z.of_nat (length before) ->
  lview (lstate_of p) rest (Z.of_nat (length before)).
Proof.
  intros (N & _ & _ & B) Hf Hp. unfold lview, lstate_of. splits; [assumption| |assumption]. rewrite B, Hp, Nat2Z.id, Hf. apply skipn_before. reflexivity.
Qed.

(* ---------- the line that announces an object ---------- *)
Lemma uspace_iff c : uspace c = true <-> Blank c.
Proof. unfold uspace, Blank. cbn [In]. lia. Qed.
Lemma uword_iff c : uword c = true <-> WordChar c.
Proof. unfold uword, WordChar, is_digit, is_alpha. cbn [In]. lia. Qed.
Lemma digits_val_dec s : forall v, dec_digits 0 s = Some v -> s <> [] -> Dec s v.
Proof.
  induction s as [|c s IH] using rev_ind; intros v H Hn; [contradiction|].
  assert (Hd : forall s acc v, dec_digits acc s = Some v -> Forall digit s).
  { clear. induction s as [|c s IH]; intros acc v H; [constructor|]. cbn [dec_digits] in H. destruct (is_digit c) eqn:E; [|discriminate].
    constructor; [unfold is_digit in E; unfold digit; lia|]. eapply IH. exact H. }
  pose proof (Hd _ _ _ H) as D. apply Forall_app in D as [D1 D2]. apply Forall_inv in D2.
  rewrite dec_digits_app in H by assumption. destruct (dec_digits 0 s) as [v0|] eqn:E0; [|discriminate].
  cbn [dec_digits] in H. destruct (is_digit c) eqn:Ec; [|discriminate]. injection H as <-.
  destruct s as [|x s].
  - cbn in E0. injection E0 as <-. cbn [app]. replace [c] with [48 + (c - 48)] by (f_equal; lia). replace (0 * 10 + (c - 48)) with (c - 48) by lia.
    apply Dec_one. unfold digit in D2. lia.
  - replace c with (48 + (c - 48)) at 1 by lia. replace (v0 * 10 + (c - 48)) with (10 * v0 + (c - 48)) by lia.
    apply Dec_more; [apply IH; [reflexivity|discriminate]|unfold digit in D2; lia].
Qed.
Lemma span_all (p : Z -> bool) s a r : span p s = (a, r) -> Forall (fun c => p c = false) a /\ (forall c r', r = c :: r' -> p c = true).
Proof.
  revert a r. induction s as [|c s IH]; intros a r H; cbn [span] in H.
  - injection H as <- <-. split; [constructor|discriminate].
  - destruct (p c) eqn:E; [injection H as <- <-; split; [constructor|intros c' r' [= <- <-]; exact E]|].
    destruct (span p s) as [a' r'] eqn:Es. injection H as <- <-. destruct (IH a' r' eq_refl) as [A B]. split; [constructor; assumption|assumption].
Qed.
Lemma span_run (p : Z -> bool) a r : Forall (fun c => p c = false) a -> (forall c r', r = c :: r' -> p c = true) -> span p (a ++ r) = (a, r).
Proof.
  intros H1 H2. destruct r as [|c r]; [rewrite app_nil_r; apply span_nil_all; assumption|]. apply span_stop; [assumption|]. eapply H2. reflexivity.
Qed.
Lemma cue_iff line i g : cue line = Some (i, g) <-> Announces line i g.
Proof.
  unfold cue, Announces. split.
  - destruct (span _ line) as [a r1] eqn:E1. destruct (span _ r1) as [s1 r2] eqn:E2. destruct (span _ r2) as [b r3] eqn:E3. destruct (span _ r3) as [s2 r4] eqn:E4.
    destruct (nat_text a) as [i'|] eqn:Ea; [|discriminate]. destruct s1 as [|x1 s1]; [discriminate|]. destruct (nat_text b) as [g'|] eqn:Eb; [|discriminate].
    destruct s2 as [|x2 s2]; [discriminate|]. destruct (prefixb _ r4) eqn:Ep; [|discriminate]. cbn [andb].
    apply prefixb_spec in Ep as (r & ->). change (skipn 3 (bs "obj" ++ r)) with r.
    destruct (match r with c :: _ => negb (uword c) | [] => true end) eqn:Ew; [|discriminate]. intros [= <- <-].
    exists a, (x1 :: s1), b, (x2 :: s2), r.
    pose proof (span_app _ _ _ _ E1) as ->. pose proof (span_app _ _ _ _ E2) as ->. pose proof (span_app _ _ _ _ E3) as ->. pose proof (span_app _ _ _ _ E4) as ->.
    destruct (span_all _ _ _ _ E2) as [A2 _]. destruct (span_all _ _ _ _ E4) as [A4 _].
    assert (Hd : forall t v, nat_text t = Some v -> Dec t v).
    { intros t v H. unfold nat_text in H. destruct t; [discriminate|]. apply digits_val_dec; [exact H|discriminate]. }
    assert (Hbl : forall s, Forall (fun c => negb (uspace c) = false) s -> Forall Blank s).
    { intros s. apply Forall_impl. intros c Hc. apply uspace_iff. destruct (uspace c); [reflexivity|discriminate]. }
    splits; [reflexivity|apply Hd; assumption| |apply Hd; assumption| |].
    + split; [discriminate|apply Hbl; assumption].
    + split; [discriminate|apply Hbl; assumption].
    + intros c r' ->. rewrite <- uword_iff. destruct (uword c); [discriminate|congruence].
  - intros (a & s1 & b & s2 & r & -> & Da & (N1 & B1) & Db & (N2 & B2) & Hr).
    assert (Hdig : forall t v, Dec t v -> Forall (fun c => negb (is_digit c) = false) t /\ nat_text t = Some v /\ (forall c r' u, t ++ u = c :: r' -> negb (uspace c) = true)).
    { intros t v H. destruct (dec_digit t v H) as [D N]. splits.
      - eapply Forall_impl; [|exact D]. intros c Hc. unfold digit in Hc. unfold is_digit. lia.
      - unfold nat_text. destruct t; [contradiction|]. apply dec_val. exact H.
      - intros c r' u E. destruct t as [|x t]; [contradiction|]. injection E as <- _. apply Forall_inv in D. unfold digit in D. unfold uspace. lia. }
    assert (Hbl : forall s, s <> [] -> Forall Blank s -> Forall (fun c => negb (uspace c) = false) s /\ forall c r' u, s ++ u = c :: r' -> negb (is_digit c) = true).
    { intros s N B. split.
      - eapply Forall_impl; [|exact B]. intros c Hc. apply uspace_iff in Hc. rewrite Hc. reflexivity.
      - intros c r' u E. destruct s as [|x s]; [contradiction|]. injection E as <- _. apply Forall_inv in B. apply uspace_iff in B. unfold uspace in B. unfold is_digit. lia. }
    destruct (Hdig _ _ Da) as (Da1 & Da2 & Da3). destruct (Hdig _ _ Db) as (Db1 & Db2 & Db3).
    destruct (Hbl _ N1 B1) as (S1a & S1b). destruct (Hbl _ N2 B2) as (S2a & S2b).
    rewrite (span_run _ a) by (try assumption; intros; eapply S1b; eassumption).
    rewrite (span_run _ s1) by (try assumption; intros; eapply Db3; eassumption).
    rewrite (span_run _ b) by (try assumption; intros; eapply S2b; eassumption).
    rewrite (span_run _ s2) by (try assumption; intros c r' [= <- <-]; reflexivity).
    rewrite Da2, Db2. destruct s1; [contradiction|]. destruct s2; [contradiction|].
    assert (Ep : prefixb (bs "obj") (bs "obj" ++ r) = true) by (apply prefixb_spec; exists r; reflexivity). rewrite Ep.
    change (skipn 3 (bs "obj" ++ r)) with r. cbn [andb]. destruct r as [|c r]; [reflexivity|].
    specialize (Hr c r eq_refl). rewrite <- uword_iff in Hr. destruct (uword c); [contradiction Hr; reflexivity|reflexivity].
Qed.
Lemma cue_none line : (forall i g, ~ Announces line i g) -> cue line = None.
Proof. intros H. destruct (cue line) as [[i g]|] eqn:E; [|reflexivity]. apply cue_iff in E. contradiction (H i g). Qed.

(* ---------- an object at the beginning of a line ---------- *)
Definition gruns (e : env) := runs nexttoken (good e) tokens (pdf_keyword e) (fun s => s).
Lemma head_runs e p id gen q1 q2 q3 o ts pts : Written true true o ts -> map snd pts = ts ->
  exists pos, gruns e p stk0 ([(q1, TInt id); (q2, TInt gen); (q3, KW "obj")] ++ pts)
    (mkStk [] None [(q1, OInt id); (q2, OInt gen); (q3, OKwd (bs "obj")); (pos, o)] []).
Proof.
  intros HW Hp. set (s3 := mkStk [] None [(q1, OInt id); (q2, OInt gen); (q3, OKwd (bs "obj"))] []).
  destruct (written_runs nexttoken (good e) tokens (good_tokens e) (pdf_keyword e) (fun s => s) true true (fun _ => pdf_null e) (fun _ => pdf_R e)) as (H & _ & _).
  destruct (H o ts HW s3 pts) as (pos & HR); [split; [reflexivity|right; reflexivity]|assumption|].
  exists pos. unfold gruns.
  apply (runs_trans _ _ _ _ _ p stk0 [(q1, TInt id)] (mkStk [] None [(q1, OInt id)] [])); [apply runs_one; [exact (good_tokens e)|reflexivity|reflexivity|reflexivity]|].
  intros p1. change ([(q2, TInt gen); (q3, KW "obj")] ++ pts) with ([(q2, TInt gen)] ++ [(q3, KW "obj")] ++ pts).
  apply (runs_trans _ _ _ _ _ p1 _ [(q2, TInt gen)] (mkStk [] None [(q1, OInt id); (q2, OInt gen)] [])); [apply runs_one; [exact (good_tokens e)|reflexivity|reflexivity|reflexivity]|].
  intros p2. apply (runs_trans _ _ _ _ _ p2 _ [(q3, KW "obj")] s3); [apply runs_one; [exact (good_tokens e)|reflexivity|reflexivity|reflexivity]|].
  intros p3. apply HR.
Qed.

Lemma plain_object e before id gen o text rest : (0 < bufsiz e)%nat -> file e = before ++ text ++ bs "endobj" ++ rest ->
  Opens (Z.of_nat (length before)) id gen o text (bs "endobj" ++ rest) -> Boundary rest ->
  exists n p q s, (forall f, pdf_nextobject e (n + f) (seek e (Z.of_nat (length before))) stk0 = Ok ((q, OInt id), p, s)) /\
    lview (lstate_of p) rest (Z.of_nat (length before) + Z.of_nat (length (text ++ bs "endobj"))).
Proof.
  intros Hb Hf (ts & q1 & q2 & q3 & x & line & HL & HW & _ & _) HB.
  destruct (seek_at e before (text ++ bs "endobj" ++ rest) _ Hb Hf eq_refl) as [_ T].
  pose proof (good_seek e (Z.of_nat (length before)) Hb (Nat2Z.is_nonneg _)) as G.
  destruct (layoutP_lemma _ _ _ _ _ HL ltac:(discriminate) lex0 eq_refl) as [(ts' & l' & E1 & E2 & E3) _]. rewrite E3 in T.
  destruct (spell_lemma _ _ _ endobj_spell false l' (Z.of_nat (length before) + Z.of_nat (length text)) rest) as (l5 & Hl5 & E7); [exact HB|assumption|].
  rewrite E7 in T. apply Forall2_app_inv_r in E1 as (h & ts2 & F1 & F2 & ->).
  inversion F1 as [|[a1 b1] ? ? h1 [H1 _] F1']; subst. inversion F1' as [|[a2 b2] ? ? h2 [H2 _] F1'']; subst.
  inversion F1'' as [|[a3 b3] ? ? h3 [H3 _] F1''']; subst. inversion F1'''; subst. cbn [snd] in H1, H2, H3. subst b1 b2 b3.
  destruct (head_runs e (seek e (Z.of_nat (length before))) id gen a1 a2 a3 o _ ts2 HW (tok_eq_snd _ _ F2)) as (pos & HR).
  unfold pre, one in T. cbn [fst snd] in T. rewrite <- app_assoc in T.
  destruct (HR _ _ G T) as (n & p' & G' & T' & E'). cbn [fst app] in T'.
  destruct (good_tokens e _ _ _ _ G' T') as (p4 & Hn & T4 & G4).
  destruct (good_nexttoken e _ _ _ G' Hn) as [_ K]. specialize (K _ _ eq_refl ltac:(exists 101, (bs "ndobj"); split; reflexivity)).
  exists (n + 1)%nat, p4, a1. eexists. split.
  - intros f. unfold pdf_nextobject. rewrite <- Nat.add_assoc, E'. cbn [Nat.add nextobject results]. rewrite Hn, step_endobj. cbn.
    rewrite nextobject_eq. reflexivity.
  - replace (Z.of_nat (length before) + Z.of_nat (length (text ++ bs "endobj"))) with (Z.of_nat (length (before ++ text ++ bs "endobj"))) by (rewrite !app_length; lia).
    apply good_lview with e; [assumption|rewrite Hf, <- !app_assoc; reflexivity|]. rewrite K, !app_length. lia.
Qed.

Lemma stream_found e before id gen attrs raw head text rest : (0 < bufsiz e)%nat -> fallback e = true -> resolve e (ODict attrs) = ODict attrs ->
  file e = before ++ head ++ text ++ rest ->
  Opens (Z.of_nat (length before)) id gen (ODict attrs) head (text ++ rest) -> StreamBody raw text rest -> Boundary rest ->
  exists n p q s, (forall f, pdf_nextobject e (n + f) (seek e (Z.of_nat (length before))) stk0 = Ok ((q, OStream attrs raw), p, s)) /\
    lview (lstate_of p) rest (Z.of_nat (length before) + Z.of_nat (length (head ++ text))).
Proof.
  intros Hb Hfb Hres Hf (ts & q1 & q2 & q3 & x & line & HL & HW & _ & _) (nl & g & -> & Hnl & Hg & Hgn & HF & HU) HB.
  rewrite <- !app_assoc in HL, Hf. set (T0 := raw ++ bs "endstream" ++ g ++ bs "endobj" ++ rest) in *.
  destruct (seek_at e before (head ++ bs "stream" ++ nl ++ T0) _ Hb Hf eq_refl) as [_ T].
  pose proof (good_seek e (Z.of_nat (length before)) Hb (Nat2Z.is_nonneg _)) as G.
  destruct (layoutP_lemma _ _ _ _ _ HL ltac:(discriminate) lex0 eq_refl) as [(ts' & l' & E1 & E2 & E3) _]. rewrite E3 in T.
  destruct (spell_lemma _ _ _ stream_spell false l' (Z.of_nat (length before) + Z.of_nat (length head)) (nl ++ T0)) as (l2 & Hl2 & E4);
    [destruct Hnl as [->| ->]; cbn [follows app]; eexists; eexists; (split; [reflexivity|left; unfold white; lia])|assumption|].
  rewrite E4 in T. apply Forall2_app_inv_r in E1 as (h & ts2 & F1 & F2 & ->).
  inversion F1 as [|[a1 b1] ? ? h1 [H1 _] F1']; subst. inversion F1' as [|[a2 b2] ? ? h2 [H2 _] F1'']; subst.
  inversion F1'' as [|[a3 b3] ? ? h3 [H3 _] F1''']; subst. inversion F1'''; subst. cbn [snd] in H1, H2, H3. subst b1 b2 b3.
  destruct (head_runs e (seek e (Z.of_nat (length before))) id gen a1 a2 a3 _ _ ts2 HW (tok_eq_snd _ _ F2)) as (pos & HR).
  unfold pre, one in T. cbn [fst snd] in T. rewrite <- app_assoc in T.
  destruct (HR _ _ G T) as (n & p' & G' & T' & E'). cbn [fst app] in T'.
  destruct (good_tokens e _ _ _ _ G' T') as (p2 & Hn2 & T2 & G2).
  set (s4 := mkStk [] None [(a1, OInt id); (a2, OInt gen); (a3, OKwd (bs "obj")); (pos, ODict attrs)] []) in *.
  pose proof (do_stream_spec e p2 s4 (before ++ head) nl [] T0 attrs pos (length raw) Hb Hnl) as DS.
  rewrite Hfb in DS. cbn [app length] in DS. change (Z.of_nat 0) with 0 in DS.
  specialize (DS ltac:(rewrite Hf, <- app_assoc; reflexivity) eq_refl Hres eq_refl HF).
  assert (HT : skipn (length raw) T0 = bs "endstream" ++ g ++ bs "endobj" ++ rest) by (apply skipn_before; reflexivity).
  assert (HT1 : firstn (length raw) T0 = raw) by (unfold T0; rewrite firstn_app, firstn_all, Nat.sub_diag; cbn [firstn]; apply app_nil_r).
  rewrite HT, HT1 in DS. specialize (DS ltac:(intros U; apply HU; apply (unfinished_suffix (bs "endstream")); exact U)). cbv zeta in DS.
  replace (Z.of_nat (length (before ++ head)) + 6 + Z.of_nat (length nl) + 0 + Z.of_nat (length raw)) with (Z.of_nat (length (before ++ head ++ bs "stream" ++ nl ++ raw))) in DS
    by (rewrite !app_length; change (length (bs "stream")) with 6%nat; lia).
  set (B3 := before ++ head ++ bs "stream" ++ nl ++ raw) in *.
  assert (Hf3 : file e = B3 ++ bs "endstream" ++ g ++ bs "endobj" ++ rest) by (rewrite Hf; unfold B3, T0; rewrite <- !app_assoc; reflexivity).
  destruct (seek_at e B3 _ _ Hb Hf3 eq_refl) as [_ T3]. pose proof (good_seek e (Z.of_nat (length B3)) Hb (Nat2Z.is_nonneg _)) as G3.
  destruct (spell_lemma _ _ _ endstream_spell false lex0 (Z.of_nat (length B3)) (g ++ bs "endobj" ++ rest)) as (l3 & Hl3 & E5); [|reflexivity|].
  { inversion Hg as [|c g0 Hc Hg0 Ec|body c g0 Hbd Hc Hg0 Ec]; subst g; [congruence| |];
      (eexists; eexists; split; [reflexivity|]); [left; exact Hc|right; unfold delim; cbn; tauto]. }
  rewrite E5 in T3. clear E5.
  destruct (sep_lemma g Hg l3 (Z.of_nat (length B3) + Z.of_nat (length (bs "endstream"))) (bs "endobj" ++ rest) Hl3) as (l4 & Hl4 & E6).
  destruct (spell_lemma _ _ _ endobj_spell false l4 (Z.of_nat (length B3) + Z.of_nat (length (bs "endstream")) + Z.of_nat (length g)) rest) as (l5 & Hl5 & E7); [exact HB|assumption|].
  rewrite E6, E7 in T3. unfold pre, one in T3. cbn [fst snd app] in T3.
  destruct (good_tokens e _ _ _ _ G3 T3) as (p4 & Hn4 & T4 & G4).
  destruct (good_tokens e _ _ _ _ G4 T4) as (p5 & Hn5 & T5 & G5).
  destruct (good_nexttoken e _ _ _ G4 Hn5) as [_ K]. specialize (K _ _ eq_refl ltac:(exists 101, (bs "ndobj"); split; reflexivity)).
  exists (n + 3)%nat, p5. do 2 eexists. split.
  - intros f. unfold pdf_nextobject. rewrite <- Nat.add_assoc, E'. cbn [Nat.add].
    rewrite nextobject_eq. cbn [s4 results]. rewrite Hn2, step_stream. fold s4.
    replace (Z.of_nat (length before) + Z.of_nat (length head)) with (Z.of_nat (length (before ++ head))) by (rewrite app_length; lia).
    rewrite DS. cbn [bind].
    rewrite nextobject_eq. cbn [push stk0 context curtype curstack results app]. rewrite Hn4, step_endstream. cbn [bind].
    rewrite nextobject_eq. cbn [push stk0 context curtype curstack results app]. rewrite Hn5, step_endobj.
    cbn [pop push stk0 context curtype curstack results app length Nat.sub skipn firstn add_results bind].
    rewrite nextobject_eq. cbn [results]. reflexivity.
  - match goal with |- lview _ _ ?z => replace z with (Z.of_nat (length (before ++ head ++ bs "stream" ++ nl ++ raw ++ bs "endstream" ++ g ++ bs "endobj"))) by (rewrite !app_length; lia) end.
    apply good_lview with e; [assumption|rewrite Hf; unfold T0; rewrite <- !app_assoc; reflexivity|]. rewrite K. unfold B3. rewrite !app_length. lia.
Qed.

(* ---------- the trailer ---------- *)
Definition nt_eof (p : parser) : res (Z * token) * parser :=
  match nexttoken p with (Err PSEOF, p') => (Ok (0, KW "startxref"), p') | x => x end.
Lemma parse_func_no_eof l p s : parse_func l p s <> Err PSEOF.
Proof.
  unfold parse_func. destruct (mode_ l);
  [unfold parse_main|unfold parse_comment|unfold parse_literal|unfold parse_literal_hex|unfold parse_number|unfold parse_float|unfold parse_keyword
  |unfold parse_string|unfold parse_string_1|unfold parse_wopen|unfold parse_wclose|unfold parse_hexstring];
  repeat match goal with
  | |- (let (_, _) := ?x in _) <> _ => destruct x
  | |- (if ?b then _ else _) <> _ => destruct b
  | |- (match ?x with _ => _ end) <> _ => destruct x
  end; discriminate.
Qed.
Lemma eof_stays : forall f l p0 b cs p', nexttoken_loop f l p0 b cs = (Err PSEOF, p') -> nexttoken p' = (Err PSEOF, p').
Proof.
  induction f as [|f IH]; intros l p0 b cs p' H; [discriminate|]. cbn [nexttoken_loop] in H.
  destruct (fillbuf b cs) as [[b1 cs1]|] eqn:Ef.
  - destruct (parse_func l p0 b1) as [[[l' [t|]] r]|ex] eqn:Ep; [discriminate|eapply IH; exact H|].
    injection H as -> <-. contradiction (parse_func_no_eof _ _ _ Ep).
  - injection H as <-. destruct b as [|x b]; [|discriminate]. destruct cs as [|c cs]; [|discriminate]. reflexivity.
Qed.
Lemma no_flush (s : stk) : match context s with [] => s | _ => s end = s.
Proof. destruct (context s); reflexivity. Qed.
Lemma eof_loop e p : nexttoken p = (Err PSEOF, p) -> forall f s, curstack s = [] -> results s = [] ->
  nextobject nt_eof (pdf_keyword e) (fun s => s) f p s = Err OutOfFuel.
Proof.
  intros Hp. induction f as [|f IH]; intros s Hc Hr; rewrite nextobject_eq, Hr; [reflexivity|].
  unfold nt_eof at 1. rewrite Hp, step_startxref. unfold pop. rewrite Hc. cbn [length Nat.sub skipn firstn bind]. rewrite no_flush. apply IH; [reflexivity|].
  cbn [add_results results app]. rewrite Hr. reflexivity.
Qed.
Lemma last_link e : forall f p s o p1 s1, nextobject nexttoken (pdf_keyword e) (fun s => s) f p s = Err PSEOF ->
  nextobject nt_eof (pdf_keyword e) (fun s => s) f p s = Ok (o, p1, s1) -> pdf_last e f p s = Some (snd o).
Proof.
  induction f as [|f IH]; intros p s o p1 s1 H1 H2; rewrite nextobject_eq in H1, H2; cbn [pdf_last]; destruct (results s) eqn:Er; try discriminate.
  unfold nt_eof at 1 in H2. destruct (nexttoken p) as [[[pos t]|ex] p'] eqn:En.
  - destruct (step (pdf_keyword e) p' s pos t) as [[p'' s']|ex]; cbn [bind] in H1, H2; [|discriminate].
    rewrite no_flush in H1, H2. eapply IH; eassumption.
  - injection H1 as ->. rewrite step_startxref in H2. unfold pop in *. cbn [fst].
    destruct (skipn (length (curstack s) - 1) (curstack s)) as [|[q o'] l] eqn:El.
    + exfalso.
      assert (Hl : curstack s = []).
      { destruct (curstack s) as [|a l]; [reflexivity|]. apply (f_equal (@length _)) in El. rewrite skipn_length in El. cbn [length] in El. lia. }
      rewrite Hl in H2. cbn [length Nat.sub firstn bind] in H2. rewrite no_flush in H2. rewrite eof_loop in H2; [discriminate| |reflexivity|].
      * eapply eof_stays. exact En.
      * cbn [add_results results app]. rewrite Er. reflexivity.
    + cbn [bind] in H2. rewrite no_flush, nextobject_eq in H2. cbn [add_results results] in H2. rewrite Er in H2. cbn [app] in H2. injection H2 as <- _ _. reflexivity.
Qed.
Lemma nt_eof_tokens p t ts ex : nonempty (chunks p) -> tokens p = (t :: ts, ex) -> exists p', nt_eof p = (Ok t, p') /\ tokens p' = (ts, ex) /\ nonempty (chunks p').
Proof.
  intros N T. destruct (nexttoken_tokens p t ts ex N T) as (p' & H1 & H2 & H3). exists p'. splits; [|assumption|assumption]. unfold nt_eof. rewrite H1. reflexivity.
Qed.
Lemma tokens_end p ex : tokens p = ([], ex) -> exists p', nexttoken p = (Err ex, p').
Proof.
  unfold tokens, lex_fuel. replace (3 * (length (buf p) + length (concat (chunks p))) + 3)%nat with (S (3 * (length (buf p) + length (concat (chunks p))) + 2))%nat by lia.
  cbn [tokens_loop]. destruct (nexttoken p) as [[t|e] p'].
  - destruct (tokens_loop _ p') as [ts e]. discriminate.
  - intros [= ->]. exists p'. reflexivity.
Qed.
Lemma trailer_at_end e before text d ts q1 x : (0 < bufsiz e)%nat -> file e = before ++ text ->
  (forall o, (forall i, o <> ORef i) -> resolve e o = o) ->
  LayoutP x (Z.of_nat (length before)) ((q1, KW "trailer") :: ts) text [] -> Written true true (ODict d) (map snd ts) ->
  exists n, forall f, load_trailer e (n + f) (Z.of_nat (length before)) = Ok d.
Proof.
  intros Hb Hf Hres HL HW. destruct (seek_at e before text _ Hb Hf eq_refl) as [N T].
  destruct (layoutP_lemma _ _ _ _ _ HL ltac:(discriminate) lex0 eq_refl) as [(ts' & l' & E1 & E2 & E3) _]. rewrite app_nil_r, toks_nil in E3. rewrite E3 in T.
  inversion E1 as [|[a1 b1] ? ta ? [H1 _] F1']; subst. cbn [snd] in H1. subst b1.
  unfold pre in T. cbn [fst snd app] in T. rewrite app_nil_r in T. destruct (nexttoken_tokens _ _ _ _ N T) as (p1 & A1 & T1 & N1).
  rewrite <- (app_nil_r ta) in T1.
  destruct (pdf_runs e _ _ HW stk0 ta eq_refl (tok_eq_snd _ _ F1')) as (pos & HR).
  destruct (HR _ _ _ N1 T1) as (n & p' & N' & T' & E').
  destruct (written_runs nt_eof (fun p => nonempty (chunks p)) tokens nt_eof_tokens (pdf_keyword e) (fun s => s) true true (fun _ => pdf_null e) (fun _ => pdf_R e)) as (HWR & _ & _).
  destruct (HWR _ _ HW stk0 ta ltac:(split; [reflexivity|right; reflexivity]) (tok_eq_snd _ _ F1')) as (pos2 & HR2).
  destruct (HR2 _ _ _ N1 T1) as (n2 & p2 & N2 & T2 & E2').
  destruct (tokens_end _ _ T') as (p3 & Hn3). destruct (tokens_end _ _ T2) as (p4 & Hn4).
  exists (n + n2 + 1)%nat. intros f. unfold load_trailer. rewrite A1. cbn [KW]. rewrite list_eqb_refl. unfold pdf_nextobject.
  assert (X1 : nextobject nexttoken (pdf_keyword e) (fun s => s) (n + n2 + 1 + f) p1 stk0 = Err PSEOF).
  { replace (n + n2 + 1 + f)%nat with (n + (S (n2 + f)))%nat by lia. rewrite E'. cbn [nextobject push stk0 results]. rewrite Hn3. reflexivity. }
  rewrite X1. replace (n + n2 + 1 + f)%nat with (n2 + (S (n + f)))%nat in * by lia.
  assert (X2 : exists q p5 s5, nextobject nt_eof (pdf_keyword e) (fun s => s) (n2 + S (n + f)) p1 stk0 = Ok ((q, ODict d), p5, s5)).
  { rewrite E2'. rewrite nextobject_eq. cbn [push stk0 results]. unfold nt_eof at 1. rewrite Hn4, step_startxref. cbn. rewrite nextobject_eq. cbn. do 3 eexists. reflexivity. }
  destruct X2 as (q & p5 & s5 & X2). rewrite (last_link e _ _ _ _ _ _ X1 X2). unfold dict_value. rewrite Hres by discriminate. reflexivity.
Qed.
Lemma trailer_text e before d text : (0 < bufsiz e)%nat -> file e = before ++ text ->
  (forall o, (forall i, o <> ORef i) -> resolve e o = o) -> TrailerText (Z.of_nat (length before)) d text ->
  exists n, forall f, load_trailer e (n + f) (Z.of_nat (length before)) = Ok d.
Proof.
  intros Hb Hf Hres (ts & q1 & line & _ & _ & HW & [(q & x & t & rest & -> & Hr & HL)|(x & HL)]).
  - exact (load_trailer_lemma e before t rest d ts q1 q x Hb Hf Hr Hres HL HW).
  - exact (trailer_at_end e before text d ts q1 x Hb Hf Hres HL HW).
Qed.

(* ---------- object streams ---------- *)
Fixpoint add_hits (offs : list (Z * pos3)) (hits : list hit) : list (Z * pos3) :=
  match hits with
  | [] => offs
  | (id, en, _) :: r => add_hits (match place_of en with Some p => zset offs id p | None => offs end) r
  end.
Lemma add_hits_app a : forall offs b, add_hits offs (a ++ b) = add_hits (add_hits offs a) b.
Proof. induction a as [|[[id en] o] a IH]; intros offs b; [reflexivity|]. cbn [app add_hits]. apply IH. Qed.
Lemma put_members_lemma sid os : forall (ms : list (Z * obj)) (pairs : list (Z * Z)) idx offs, map fst pairs = map fst ms ->
  put_members (length ms) idx sid (flat_map (fun p => [OInt (fst p); OInt (snd p)]) pairs ++ os) offs = Ok (add_hits offs (members_found sid idx ms)).
Proof.
  induction ms as [|[i o] ms IH]; intros pairs idx offs H; destruct pairs as [|[a b] pairs]; try discriminate; cbn [map fst] in H.
  - reflexivity.
  - injection H as -> H. cbn [length flat_map fst snd app put_members bind members_found add_hits place_of]. apply IH. exact H.
Qed.
Lemma expand_packed e getdata sid attrs raw ms : (0 < bufsiz e)%nat -> Packs getdata attrs raw ms ->
  exists n, forall f offs, expand e getdata (n + f) sid (OStream attrs raw) offs = Ok (add_hits offs (members_found sid 0 ms)).
Proof.
  intros Hb (HT & HN & data & pairs & ts & x & Hd & Hp & HL & HW & Ho).
  destruct (C16_stream_objects_partial (bufsiz e) data _ ts x Hb HL HW) as (k & l & El & E).
  { apply Forall_app. split; [|apply Forall_map; exact Ho]. clear. induction pairs as [|p l IH]; [constructor|]. cbn. repeat constructor; try discriminate. assumption. }
  exists k. intros f offs. unfold expand. rewrite HT. cbn iota beta. change (list_eqb (bs "ObjStm") (bs "ObjStm")) with true. cbn iota.
  rewrite Hd. cbn [bind]. rewrite E, HN. cbn [bind]. rewrite El, Nat2Z.id. apply put_members_lemma. exact Hp.
Qed.
Lemma expand_unpacked e getdata fuel sid attrs raw offs : Unpacked attrs -> expand e getdata fuel sid (OStream attrs raw) offs = Ok offs.
Proof.
  intros H. unfold expand. destruct (dget attrs "Type") as [[]|] eqn:E; try reflexivity. destruct (list_eqb _ _) eqn:En; [|reflexivity].
  apply list_eqb_eq in En. subst. contradiction (H E).
Qed.

(* ---------- the scan ---------- *)
Lemma lview_end st text pos : lview st text pos -> unfinished_line text -> exists st', lnext st = (Err PSEOF, st').
Proof.
  destruct st as [[p b] cs]. intros (-> & Hd & N) U. unfold lnext. pose proof (nextline_spec pos b cs N) as H.
  destruct (nextline pos b cs) as [[[q l]|ex] [[p' b'] cs']].
  - exfalso. destruct H as (_ & _ & _ & Hc & HL). rewrite <- Hd, Hc in U. exact (line_not_unfinished _ _ HL U).
  - destruct H as [-> _]. eexists. reflexivity.
Qed.
Lemma announce_line line id gen : Announces line id gen -> cue line = Some (id, gen) /\ prefixb (bs "trailer") line = false.
Proof.
  intros H. split; [apply cue_iff; exact H|]. destruct H as (a & s1 & b & s2 & r & -> & Da & _). destruct (dec_ends _ _ Da) as [(c & u & -> & Hc) _].
  change (bs "trailer") with (116 :: bs "railer"). cbn [app prefixb]. replace (116 =? c) with false by (unfold digit in Hc; lia). reflexivity.
Qed.
Lemma fb_scan_lemma e getdata : (0 < bufsiz e)%nat -> fallback e = true -> (forall o, (forall i, o <> ORef i) -> resolve e o = o) ->
  forall pos text hits d, Contents getdata pos text hits d -> forall before st, file e = before ++ text -> pos = Z.of_nat (length before) ->
  lview st text pos -> exists n, forall f offs, fb_scan e getdata (n + f) st offs = Ok (add_hits offs hits, d).
Proof.
  intros Hb Hfb Hres. induction 1 as [pos text U|pos text d HT|pos line rest hits d HL Hnt Hna HC IH|pos id gen o text rest hits d HO HB HC IH
    |pos id gen attrs raw head text rest hits d HO HS HB HU HC IH|pos id gen attrs raw ms head text rest hits d HO HS HB HP HC IH]; intros before st Hf Hp HV.
  - destruct (lview_end _ _ _ HV U) as (st' & E). exists 1%nat. intros f offs. cbn [Nat.add fb_scan]. rewrite E. reflexivity.
  - subst pos. pose proof HT as (ts & q1 & line & (tail & El & HL) & (l & Et) & _).
    destruct (trailer_text e before d text Hb Hf Hres HT) as (n & HLT). rewrite El in HV.
    destruct (lnext_lemma _ _ _ _ HV HL) as (st' & E & _). exists (S n). intros f offs. cbn [Nat.add fb_scan]. rewrite E.
    replace (prefixb (bs "trailer") line) with true by (symmetry; apply prefixb_spec; exists l; exact Et). rewrite HLT. reflexivity.
  - destruct (lnext_lemma _ _ _ _ HV HL) as (st' & E & V').
    destruct (IH (before ++ line) st') as (n & HI); [rewrite Hf, <- app_assoc; reflexivity|subst pos; rewrite app_length; lia|exact V'|].
    exists (S n). intros f offs. cbn [Nat.add fb_scan]. rewrite E.
    destruct (prefixb (bs "trailer") line) eqn:Ep; [apply prefixb_spec in Ep as (l & Ep); contradiction (Hnt l Ep)|]. rewrite (cue_none _ Hna). apply HI.
  - subst pos. pose proof HO as (ts & q1 & q2 & q3 & x & line & _ & _ & (tail & El & HL) & HA).
    rewrite El in HV. destruct (lnext_lemma _ _ _ _ HV HL) as (st' & E & _). destruct (announce_line _ _ _ HA) as [Ec Et].
    destruct (plain_object e before id gen o text rest Hb Hf HO HB) as (n1 & p & q & s & HN & V').
    destruct (IH (before ++ text ++ bs "endobj") (lstate_of p)) as (n2 & HI); [rewrite Hf, <- !app_assoc; reflexivity|rewrite !app_length; lia|exact V'|].
    exists (S (n1 + n2)). intros f offs. cbn [Nat.add fb_scan]. rewrite E, Et, Ec.
    rewrite <- Nat.add_assoc, HN. cbn [bind snd]. unfold expand at 1. cbn [bind]. replace (n1 + (n2 + f))%nat with (n2 + (n1 + f))%nat by lia.
    rewrite HI. reflexivity.
  - subst pos. pose proof HO as (ts & q1 & q2 & q3 & x & line & _ & _ & (tail & El & HL) & HA).
    rewrite El in HV. destruct (lnext_lemma _ _ _ _ HV HL) as (st' & E & _). destruct (announce_line _ _ _ HA) as [Ec Et].
    destruct (stream_found e before id gen attrs raw head text rest Hb Hfb ltac:(apply Hres; discriminate) Hf HO HS HB) as (n1 & p & q & s & HN & V').
    destruct (IH (before ++ head ++ text) (lstate_of p)) as (n2 & HI); [rewrite Hf, <- !app_assoc; reflexivity|rewrite !app_length; lia|exact V'|].
    exists (S (n1 + n2)). intros f offs. cbn [Nat.add fb_scan]. rewrite E, Et, Ec.
    rewrite <- Nat.add_assoc, HN. cbn [bind snd]. rewrite expand_unpacked by exact HU. cbn [bind]. replace (n1 + (n2 + f))%nat with (n2 + (n1 + f))%nat by lia.
    rewrite HI. reflexivity.
  - subst pos. pose proof HO as (ts & q1 & q2 & q3 & x & line & _ & _ & (tail & El & HL) & HA).
    rewrite El in HV. destruct (lnext_lemma _ _ _ _ HV HL) as (st' & E & _). destruct (announce_line _ _ _ HA) as [Ec Et].
    destruct (stream_found e before id gen attrs raw head text rest Hb Hfb ltac:(apply Hres; discriminate) Hf HO HS HB) as (n1 & p & q & s & HN & V').
    destruct (expand_packed e getdata id attrs raw ms Hb HP) as (n3 & HE).
    destruct (IH (before ++ head ++ text) (lstate_of p)) as (n2 & HI); [rewrite Hf, <- !app_assoc; reflexivity|rewrite !app_length; lia|exact V'|].
    exists (S (n1 + n2 + n3)). intros f offs. cbn [Nat.add fb_scan]. rewrite E, Et, Ec.
    replace (n1 + n2 + n3 + f)%nat with (n1 + (n2 + n3 + f))%nat by lia. rewrite HN. cbn [bind snd].
    replace (n1 + (n2 + n3 + f))%nat with (n3 + (n1 + n2 + f))%nat by lia. rewrite HE. cbn [bind].
    replace (n3 + (n1 + n2 + f))%nat with (n2 + (n1 + n3 + f))%nat by lia. rewrite HI. cbn [add_hits place_of]. rewrite add_hits_app. reflexivity.
Qed.
Lemma fb_load_lemma e getdata hits d : (0 < bufsiz e)%nat -> fallback e = true -> (forall o, (forall i, o <> ORef i) -> resolve e o = o) ->
  Contents getdata 0 (file e) hits d -> exists n, forall f, fb_load e getdata (n + f) = Ok (add_hits [] hits, d).
Proof.
  intros Hb Hfb Hres HC. destruct (fb_scan_lemma e getdata Hb Hfb Hres _ _ _ _ HC [] (lstate_of (seek e 0)) eq_refl eq_refl) as (n & H).
  - apply (good_lview e (seek e 0) [] (file e)); [apply good_seek; [assumption|lia]|reflexivity|reflexivity].
  - exists n. intros f. apply H.
Qed.
(* looking a number up in the result *)
Lemma add_hits_other hits id : NoHit hits id -> forall offs, zget (add_hits offs hits) id = zget offs id.
Proof.
  induction 1 as [|[[i en] o] hits Hi HN IH]; intros offs; [reflexivity|]. cbn [add_hits fst] in *. rewrite IH.
  destruct (place_of en); [apply zget_zset_other; congruence|reflexivity].
Qed.
Lemma add_hits_last hits id en o p : LastHit hits id en o -> place_of en = Some p -> forall offs, zget (add_hits offs hits) id = Some p.
Proof.
  intros (a & b & -> & HN) Hp offs. rewrite add_hits_app. cbn [add_hits]. rewrite Hp, add_hits_other by exact HN. apply zget_zset_same.
Qed.

(* ---------- reading what was found ---------- *)
Lemma parse_plain e before id gen o text rest : (0 < bufsiz e)%nat -> file e = before ++ text ++ bs "endobj" ++ rest ->
  Opens (Z.of_nat (length before)) id gen o text (bs "endobj" ++ rest) -> Boundary rest ->
  exists n, forall f, getobj_parse e (n + f) (Z.of_nat (length before)) id = Ok o.
Proof.
  intros Hb Hf (ts & q1 & q2 & q3 & x & line & HL & HW & _ & _) HB.
  destruct (header_tokens _ _ _ _ _ _ _ _ _ _ _ Hb Hf ltac:(discriminate) HL) as (p1 & p2 & p3 & t1 & t2 & t3 & ts' & l' & A1 & A2 & A3 & N & F & Hl & T).
  destruct (spell_lemma _ _ _ endobj_spell false l' (Z.of_nat (length (before ++ text))) rest) as (l5 & Hl5 & E7); [exact HB|assumption|].
  rewrite E7 in T. unfold pre, one in T. cbn [fst snd] in T.
  destruct (pdf_runs e o _ HW stk0 ts' eq_refl (tok_eq_snd _ _ F)) as (pos & HR).
  destruct (HR _ _ _ N T) as (n & p' & N' & T' & E'). 
  destruct (nexttoken_tokens _ _ _ _ N' T') as (p4 & Hn & T4 & N4).
  exists (n + 1)%nat. intros f. rewrite (getobj_parse_ok e _ _ id p1 p2 p3 t1 t2 t3 gen (Nat2Z.is_nonneg _) A1 A2 A3).
  unfold pdf_nextobject. rewrite <- Nat.add_assoc, E'. cbn [Nat.add nextobject]. rewrite Hn, step_endobj. cbn.
  rewrite nextobject_eq. reflexivity.
Qed.
Lemma parse_stream e before id gen attrs raw head text rest : (0 < bufsiz e)%nat -> fallback e = true -> resolve e (ODict attrs) = ODict attrs ->
  file e = before ++ head ++ text ++ rest ->
  Opens (Z.of_nat (length before)) id gen (ODict attrs) head (text ++ rest) -> StreamBody raw text rest -> Boundary rest ->
  exists n, forall f, getobj_parse e (n + f) (Z.of_nat (length before)) id = Ok (OStream attrs raw).
Proof.
  intros Hb Hfb Hres Hf (ts & q1 & q2 & q3 & x & line & HL & HW & _ & _) (nl & g & -> & Hnl & Hg & Hgn & HF & HU) HB.
  rewrite <- !app_assoc in HL, Hf. set (T0 := raw ++ bs "endstream" ++ g ++ bs "endobj" ++ rest) in *.
  destruct (header_tokens _ _ _ _ _ _ _ _ _ _ _ Hb Hf ltac:(discriminate) HL) as (p1 & p2 & p3 & t1 & t2 & t3 & ts' & l' & A1 & A2 & A3 & N & F & Hl & Tk).
  destruct (spell_lemma _ _ _ stream_spell false l' (Z.of_nat (length (before ++ head))) (nl ++ T0)) as (l2 & Hl2 & E4);
    [destruct Hnl as [->| ->]; cbn [follows app]; eexists; eexists; (split; [reflexivity|left; unfold white; lia])|assumption|].
  rewrite E4 in Tk. unfold pre, one in Tk. cbn [fst snd app] in Tk.
  assert (Hf2 : file e = (before ++ head) ++ bs "stream" ++ nl ++ [] ++ T0) by (rewrite Hf, <- app_assoc; reflexivity).
  rewrite <- (tok_eq_snd _ _ F) in HW.
  assert (HT : skipn (length raw) T0 = bs "endstream" ++ g ++ bs "endobj" ++ rest) by (apply skipn_before; reflexivity).
  assert (HT1 : firstn (length raw) T0 = raw) by (unfold T0; rewrite firstn_app, firstn_all, Nat.sub_diag; cbn [firstn]; apply app_nil_r).
  destruct (stream_from e _ ts' _ _ (before ++ head) attrs nl [] T0 (length raw) g rest Hb Hnl Hf2 N Tk HW Hres) as (n & p & s & H); try assumption.
  - rewrite Hfb. reflexivity.
  - rewrite HT. intros U; apply HU; apply (unfinished_suffix (bs "endstream")); exact U.
  - rewrite Hfb, HT1 in H. exists n. intros f. rewrite (getobj_parse_ok e _ _ id p1 p2 p3 t1 t2 t3 gen (Nat2Z.is_nonneg _) A1 A2 A3), H. reflexivity.
Qed.
Lemma members_not_inuse sid id off gen o : forall ms idx, ~ In (id, InUse off gen, o) (members_found sid idx ms).
Proof. induction ms as [|[i o'] ms IH]; intros idx; [exact (fun x => x)|]. cbn [members_found]. intros [H|H]; [discriminate|exact (IH _ H)]. Qed.
Lemma contents_parse e getdata : (0 < bufsiz e)%nat -> fallback e = true -> (forall o, (forall i, o <> ORef i) -> resolve e o = o) ->
  forall pos text hits d, Contents getdata pos text hits d -> forall before, file e = before ++ text -> pos = Z.of_nat (length before) ->
  forall id off gen o, In (id, InUse off gen, o) hits -> exists n, forall f, getobj_parse e (n + f) off id = Ok o.
Proof.
  intros Hb Hfb Hres. induction 1 as [pos text U|pos text d HT|pos line rest hits d HL Hnt Hna HC IH|pos id gen o text rest hits d HO HB HC IH
    |pos id gen attrs raw head text rest hits d HO HS HB HU HC IH|pos id gen attrs raw ms head text rest hits d HO HS HB HP HC IH]; intros before Hf Hp i off g o' Hin.
  - contradiction.
  - contradiction.
  - apply (IH (before ++ line)) with g; [rewrite Hf, <- app_assoc; reflexivity|subst pos; rewrite app_length; lia|exact Hin].
  - destruct Hin as [E|Hin].
    + injection E as <- <- <- <-. subst pos. exact (parse_plain e before id gen o text rest Hb Hf HO HB).
    + apply (IH (before ++ text ++ bs "endobj")) with g; [rewrite Hf, <- !app_assoc; reflexivity|subst pos; rewrite !app_length; lia|exact Hin].
  - destruct Hin as [E|Hin].
    + injection E as <- <- <- <-. subst pos. exact (parse_stream e before id gen attrs raw head text rest Hb Hfb ltac:(apply Hres; discriminate) Hf HO HS HB).
    + apply (IH (before ++ head ++ text)) with g; [rewrite Hf, <- !app_assoc; reflexivity|subst pos; rewrite !app_length; lia|exact Hin].
  - destruct Hin as [E|Hin].
    + injection E as <- <- <- <-. subst pos. exact (parse_stream e before id gen attrs raw head text rest Hb Hfb ltac:(apply Hres; discriminate) Hf HO HS HB).
    + apply in_app_or in Hin as [Hin|Hin]; [contradiction (members_not_inuse _ _ _ _ _ _ _ Hin)|].
      apply (IH (before ++ head ++ text)) with g; [rewrite Hf, <- !app_assoc; reflexivity|subst pos; rewrite !app_length; lia|exact Hin].
Qed.
