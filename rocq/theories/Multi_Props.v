(* Property C85, pages of several streams with inline images. *)
From Coq Require Import String.
From Verif Require Import Base Lex_Model Lex_Chunk Lex_Spec Lex_Proofs Obj Stack_Model Stack_Spec Stack_Proofs StreamObj_Proofs Content_Model Content_Spec Content_Proofs Content_Props Instr_Spec Instr_Props Multi_Spec Witness.
From Coq Require Import ZifyBool ZifyNat.
Open Scope Z_scope.

(* the offset, in its stream, of the byte at offset g of all the streams together *)
Fixpoint loc (F : list (list Z)) (g : Z) : Z :=
  match F with [] => g | s :: r => if g <? Z.of_nat (length s) then g else loc r (g - Z.of_nat (length s)) end.
Lemma loc_at F1 s F2 i : 0 <= i < Z.of_nat (length s) -> loc (F1 ++ s :: F2) (Z.of_nat (length (concat F1)) + i) = i.
Proof.
  intros Hi. induction F1 as [|x F1 IH]; cbn [app loc concat].
  - cbn [length]. change (Z.of_nat 0) with 0. rewrite Z.add_0_l. destruct (i <? Z.of_nat (length s)) eqn:E; [reflexivity|lia].
  - rewrite app_length. destruct (Z.of_nat (length x + length (concat F1)) + i <? Z.of_nat (length x)) eqn:E; [lia|].
    rewrite <- IH. f_equal. lia.
Qed.
Lemma loc_0 F : loc F 0 = 0.
Proof. induction F as [|s r IH]; cbn [loc]; [reflexivity|]. destruct (0 <? Z.of_nat (length s)) eqn:E; [reflexivity|]. replace (0 - Z.of_nat (length s)) with 0 by lia. exact IH. Qed.
Lemma same_stream (F1 : list (list Z)) : forall s F2 G1 t G2 i j, F1 ++ s :: F2 = G1 ++ t :: G2 -> (i < length s)%nat -> (j < length t)%nat ->
  (length (concat F1) + i = length (concat G1) + j)%nat -> F1 = G1 /\ s = t /\ F2 = G2 /\ i = j.
Proof.
  induction F1 as [|x F1 IH]; intros s F2 G1 t G2 i j E Hi Hj Hk; destruct G1 as [|y G1]; cbn [app concat] in *.
  - injection E as -> ->. cbn in Hk. splits; try reflexivity. exact Hk.
  - injection E as -> _. rewrite app_length in Hk. cbn [length] in Hk. lia.
  - injection E as -> _. rewrite app_length in Hk. cbn [length] in Hk. lia.
  - injection E as -> E. rewrite !app_length in Hk. destruct (IH s F2 G1 t G2 i j E Hi Hj ltac:(lia)) as (-> & -> & -> & ->). splits; reflexivity.
Qed.

(* lexers equal but for the position, which one counts in the stream and the other from the beginning of the page *)
Definition lexloc (L : Z -> Z) (a b : lex) : Prop := lexsim a b /\ curpos a = L (curpos b).
Definition oloc (L : Z -> Z) (t : option (Z * token)) : option (Z * token) := option_map (fun x => (L (fst x), snd x)) t.
Lemma span_lt (f : Z -> bool) s a c r : span f s = (a, c :: r) -> (length a < length s)%nat.
Proof. intros H. apply span_app in H. subst. rewrite app_length. cbn. lia. Qed.
Lemma parse_func_loc L a b p q s : lexloc L a b -> (forall i, 0 <= i < Z.of_nat (length s) -> L (q + i) = p + i) ->
  match parse_func a p s, parse_func b q s with
  | Ok (a', t, r), Ok (b', u, r') => lexloc L a' b' /\ t = oloc L u /\ r = r'
  | Err x, Err y => x = y
  | _, _ => False
  end.
Proof.
  destruct a as [ma ca cpa pa oa ha], b as [mb cb cpb pb ob hb]. intros ((H1 & H2 & H3 & H4 & H5) & H6) HL. cbn in H1, H2, H3, H4, H5, H6. subst.
  unfold parse_func. cbn [mode_]. destruct mb.
  { unfold parse_main. destruct (span _ s) as [sp r] eqn:Es. destruct r as [|c r]; [unfold lexloc, lexsim, oloc; cbn; tauto|].
    pose proof (span_lt _ _ _ _ _ Es) as Hlt. specialize (HL (Z.of_nat (length sp)) ltac:(lia)).
    repeat (match goal with |- context [if ?x then _ else _] => destruct x end);
      unfold lexloc, lexsim, oloc; cbn; rewrite ?HL; splits; reflexivity. }
  all: unfold parse_comment, parse_literal, parse_literal_hex, parse_number, parse_float, parse_keyword,
    parse_string, parse_string_1, parse_wopen, parse_wclose, parse_hexstring;
  repeat (match goal with |- context [match ?x with _ => _ end] => dinner x end; cbn [mode_ cur paren oct hexd app_cur set_cur set_mode curpos]);
  unfold lexloc, lexsim, oloc; cbn; try tauto; try (splits; reflexivity); try reflexivity.
Qed.

(* the keyword being read ends where the lexer stands *)
Definition kwpos (l : lex) (k : Z) : Prop := mode_ l = MKeyword -> curpos l + Z.of_nat (length (cur l)) = k.
Lemma parse_func_kw l k s l' t r : kwpos l k -> parse_func l k s = Ok (l', t, r) ->
  kwpos l' (k + Z.of_nat (length s - length r)) /\
  forall g, t = Some (g, KW "ID") -> k + Z.of_nat (length s - length r) = g + 2 /\ r <> [].
Proof.
  destruct l as [m cu cp pa o h]. unfold kwpos. cbn [mode_ cur curpos]. intros HK. unfold parse_func. cbn [mode_].
  destruct m; intros H.
  - unfold parse_main in H. destruct (span _ s) as [sp q] eqn:Es. pose proof (span_app _ _ _ _ Es) as E.
    destruct q as [|c q]; [injection H as <- <- <-; cbn; split; [discriminate|discriminate]|].
    assert (Hl : (length s - length q = length sp + 1)%nat) by (rewrite E, app_length; cbn; lia).
    repeat (match goal with H : (if ?x then _ else _) = _ |- _ => destruct x eqn:? end); injection H as <- <- <-; cbn [mode_ cur curpos length];
      (split; [try discriminate; intros _; lia|intros g Hg; try discriminate Hg; injection Hg as <- Hc; discriminate]).
  - unfold parse_comment in H. destruct (span _ s) as [a q]; destruct q; injection H as <- <- <-; cbn; split; discriminate.
  - unfold parse_literal in H. destruct (span _ s) as [a q]; destruct q as [|c q]; [|destruct (c =? 35)]; injection H as <- <- <-; cbn; split; discriminate.
  - unfold parse_literal_hex in H. destruct s as [|c s]; [|destruct (is_hex c && _); [|destruct (hexd _)]]; injection H as <- <- <-; cbn; split; discriminate.
  - unfold parse_number in H. destruct (span _ s) as [a q]; destruct q as [|c q]; [|destruct (c =? 46)]; injection H as <- <- <-; cbn; split; try discriminate.
    intros g Hg. destruct (py_int _); discriminate Hg.
  - unfold parse_float in H. destruct (span _ s) as [a q]; destruct q as [|c q]; injection H as <- <- <-; cbn; split; try discriminate.
    intros g Hg. destruct (py_float_ok _); discriminate Hg.
  - specialize (HK eq_refl). unfold parse_keyword in H. destruct (span _ s) as [a q] eqn:Es. pose proof (span_app _ _ _ _ Es) as E.
    destruct q as [|c q]; injection H as <- <- <-; cbn [mode_ cur curpos app_cur set_cur set_mode].
    + split; [|discriminate]. intros _. rewrite app_length. rewrite app_nil_r in E. subst s. cbn [length]. lia.
    + split; [discriminate|]. intros g Hg. split; [|discriminate].
      do 2 (match type of Hg with context [if ?x then _ else _] => destruct x; [discriminate|] end).
      injection Hg as <- Hc. pose proof (f_equal (@length Z) Hc) as HLn. rewrite app_length in HLn. cbn [bs length] in HLn. 
      change (length (bs "ID")) with 2%nat in HLn. subst s. rewrite app_length. lia.
  - unfold parse_string in H. destruct (span _ s) as [a q]; destruct q as [|c q]; [|destruct (c =? 92); [|destruct (c =? 40); [|destruct (negb _)]]]; injection H as <- <- <-; cbn; split; discriminate.
  - unfold parse_string_1 in H. destruct s as [|c s]; [|destruct (is_oct c && _); [|destruct (oct _); [destruct (esc_string c)|destruct (_ <? 256)]]]; try discriminate H; injection H as <- <- <-; cbn; split; discriminate.
  - unfold parse_wopen in H. destruct s as [|c s]; [|destruct (c =? 60)]; injection H as <- <- <-; cbn; split; discriminate.
  - unfold parse_wclose in H. destruct s as [|c s]; [|destruct (c =? 62)]; injection H as <- <- <-; cbn; split; discriminate.
  - unfold parse_hexstring in H. destruct (span _ s) as [a q]; destruct q; injection H as <- <- <-; cbn; split; discriminate.
Qed.

(* ---- the parser stands at offset k of the streams F together ---- *)
Definition at_glob (F : list (list Z)) (k : nat) (c : cp) : Prop :=
  exists F1 s F2 t k', F = F1 ++ s :: F2 /\ cfp c = Some (s, t) /\ cstreams c = F2 /\ cpos c = Z.of_nat k' /\
    (k' + length (cbuf c) = t)%nat /\ (t <= length s)%nat /\ cbuf c ++ skipn t s = skipn k' s /\ k = (length (concat F1) + k')%nat.
Lemma skipn_concat (F1 : list (list Z)) s F2 k' : (k' <= length s)%nat ->
  skipn (length (concat F1) + k') (concat (F1 ++ s :: F2)) = skipn k' s ++ concat F2.
Proof.
  intros H. rewrite concat_app. cbn [concat]. rewrite Nat.add_comm, <- skipn_skipn, skipn_before by reflexivity.
  rewrite skipn_app. replace (k' - length s)%nat with O by lia. reflexivity.
Qed.
Lemma at_glob_ahead F k c : at_glob F k c -> cahead c = skipn k (concat F) /\ (k <= length (concat F))%nat.
Proof.
  intros (F1 & s & F2 & t & k' & -> & H1 & H2 & H3 & H4 & H0 & H5 & ->). split.
  - unfold cahead. rewrite H1, H2, skipn_concat, app_assoc, H5 by lia. reflexivity.
  - rewrite concat_app, app_length. cbn [concat]. rewrite app_length. lia.
Qed.
Lemma open_next_glob n : (0 < n)%nat -> forall R F1 p b s t r, open_next n R = Some (p, b, (s, t), r) ->
  exists F1' , F1 ++ R = F1' ++ s :: r /\ p = 0 /\ b = firstn n s /\ t = length b /\ s <> [] /\ length (concat F1') = length (concat F1).
Proof.
  intros Hn. induction R as [|x R IH]; intros F1 p b s t r H; cbn [open_next] in H; [discriminate|]. destruct x as [|y x].
  - destruct (IH (F1 ++ [[]]) _ _ _ _ _ H) as (F1' & E & A1 & A2 & A3 & A4 & A5). exists F1'. rewrite <- app_assoc in E. cbn [app] in E.
    splits; try assumption. rewrite A5, concat_app. cbn. rewrite app_nil_r. reflexivity.
  - injection H as <- <- <- <- <-. exists F1. splits; try reflexivity. discriminate.
Qed.
Lemma firstn_len_skipn (n k : nat) (s : list Z) : firstn n (skipn k s) ++ skipn (k + length (firstn n (skipn k s))) s = skipn k s.
Proof.
  rewrite (Nat.add_comm k), <- skipn_skipn, firstn_length.
  destruct (Nat.le_gt_cases n (length (skipn k s))) as [Hle|Hle].
  - rewrite Nat.min_l by assumption. apply firstn_skipn.
  - rewrite Nat.min_r by lia. rewrite skipn_all, firstn_all2, app_nil_r by lia. reflexivity.
Qed.
Lemma at_glob_fill n F k c c1 : (0 < n)%nat -> at_glob F k c -> cfill n c = Some c1 ->
  at_glob F k c1 /\ clx c1 = clx c /\ cbuf c1 <> [] /\
  forall i, 0 <= i < Z.of_nat (length (cbuf c1)) -> loc F (Z.of_nat k + i) = cpos c1 + i.
Proof.
  intros Hn HG H.
  assert (A : at_glob F k c1 /\ clx c1 = clx c /\ cbuf c1 <> []).
  { destruct HG as (F1 & s & F2 & t & k' & -> & H1 & H2 & H3 & H4 & H0 & H5 & ->). unfold cfill in H. destruct (cbuf c) as [|x b] eqn:Eb.
    - cbn [length] in H4. rewrite Nat.add_0_r in H4. subst t. rewrite H1, H2 in H.
      destruct (firstn n (skipn k' s)) as [|y b] eqn:Ef.
      + assert (Es : skipn k' s = []) by (destruct (skipn k' s); [reflexivity|destruct n; [lia|discriminate]]).
        assert (Hk : k' = length s) by (pose proof (skipn_length k' s) as L; rewrite Es in L; cbn in L; lia).
        destruct (open_next n F2) as [[[[p b] [s' t']] r]|] eqn:Eo; [|discriminate]. injection H as <-. cbn [clx cbuf].
        destruct (open_next_glob n Hn F2 (F1 ++ [s]) _ _ _ _ _ Eo) as (F1' & E & -> & -> & -> & Hs & HL).
        rewrite <- app_assoc in E. cbn [app] in E. splits; try reflexivity; [|destruct n; [lia|]; destruct s'; [congruence|discriminate]].
        exists F1', s', r, (length (firstn n s')), O. cbn [cfp cstreams cpos cbuf]. splits; try reflexivity; [assumption|rewrite firstn_length; lia| |].
        * exact (firstn_len_skipn n 0 s').
        * rewrite HL, concat_app, app_length. cbn. rewrite app_nil_r. lia.
      + injection H as <-. splits; [|reflexivity|discriminate].
        exists F1, s, F2, (k' + length (y :: b))%nat, k'. cbn [cfp cstreams cpos cbuf]. rewrite <- Ef. splits; try reflexivity.
        * rewrite Ef. reflexivity.
        * rewrite firstn_length, skipn_length. lia.
        * apply firstn_len_skipn.
    - injection H as <-. splits; [|reflexivity|rewrite Eb; discriminate]. exists F1, s, F2, t, k'. rewrite Eb. splits; try reflexivity; assumption. }
  destruct A as (A1 & A2 & A3). splits; try assumption. intros i Hi.
  destruct A1 as (F1 & s & F2 & t & k' & -> & H1 & H2 & H3 & H4 & H0 & H5 & ->). rewrite H3, Nat2Z.inj_add, <- Z.add_assoc. apply loc_at. lia.
Qed.
Lemma at_glob_move F k c a b l : at_glob F k c -> cbuf c = a ++ b ->
  at_glob F (k + length a) (mkCp l (cpos c + Z.of_nat (length a)) b (cfp c) (cstreams c)).
Proof.
  intros (F1 & s & F2 & t & k' & -> & H1 & H2 & H3 & H4 & H0 & H5 & ->) E. exists F1, s, F2, t, (k' + length a)%nat. cbn. rewrite H1, H2, H3. rewrite E in *. rewrite app_length in H4.
  splits; try reflexivity; try lia. rewrite (Nat.add_comm k'), <- skipn_skipn, <- H5, <- app_assoc. symmetry. apply skipn_before. reflexivity.
Qed.

(* the state is that of the lexer l at offset k of the streams together *)
Definition stands (F : list (list Z)) (k : nat) (l : lex) (c : cp) : Prop := at_glob F k c /\ lexloc (loc F) (clx c) l /\ kwpos l (Z.of_nat k).
Lemma ctoken_glob n F : (0 < n)%nat -> forall f c l k, stands F k l c ->
  match cnexttoken_loop f n c with
  | (Ok (q, t), c') => exists g l' k', nexttoken_loop f l (Z.of_nat k) (cbuf c) (cchunks n c) = (Ok (g, t), mkParser l' (Z.of_nat k') (cbuf c') (cchunks n c')) /\
                  q = loc F g /\ stands F k' l' c' /\ (t = KW "ID" -> Z.of_nat k' = g + 2 /\ cbuf c' <> [])
  | (Err e, _) => fst (nexttoken_loop f l (Z.of_nat k) (cbuf c) (cchunks n c)) = Err e
  end.
Proof.
  intros Hn. induction f as [|f IH]; intros c l k (Hk & Hl & HK); [reflexivity|]. cbn [cnexttoken_loop nexttoken_loop].
  pose proof (cfill_spec n c Hn) as HF. destruct (cfill n c) as [c1|] eqn:Ef; destruct (fillbuf (cbuf c) (cchunks n c)) as [[b cs]|]; try contradiction; [|reflexivity].
  destruct HF as (H1 & H2 & H3 & H4). destruct (at_glob_fill n F k c c1 Hn Hk Ef) as (Hk1 & _ & Hne & HL).
  rewrite <- H3 in Hl. rewrite H1 in HL. rewrite H1.
  pose proof (parse_func_loc (loc F) (clx c1) l (cpos c1) (Z.of_nat k) b Hl HL) as HS.
  destruct (parse_func (clx c1) (cpos c1) b) as [[[l1 t1] r1]|e1] eqn:E1; destruct (parse_func l (Z.of_nat k) b) as [[[l2 t2] r2]|e2] eqn:E2; try contradiction; [|subst; reflexivity].
  destruct HS as (HS1 & HS2 & <-).
  destruct (parse_func_dec _ _ _ _ _ _ H4 E1) as (_ & Hle & (a & Ha)).
  destruct (parse_func_kw _ _ _ _ _ _ HK E2) as (HK2 & HID).
  assert (Hd : (length b - length r1)%nat = length a) by (rewrite Ha, app_length; lia). rewrite Hd in *.
  assert (Hm : at_glob F (k + length a) (mkCp l1 (cpos c1 + Z.of_nat (length a)) r1 (cfp c1) (cstreams c1))) by (apply at_glob_move; [assumption|congruence]).
  assert (Hcc : cchunks n (mkCp l1 (cpos c1 + Z.of_nat (length a)) r1 (cfp c1) (cstreams c1)) = cs) by (rewrite <- H2; reflexivity).
  assert (Hst : stands F (k + length a) l2 (mkCp l1 (cpos c1 + Z.of_nat (length a)) r1 (cfp c1) (cstreams c1))).
  { unfold stands. splits; [assumption|exact HS1|]. rewrite Nat2Z.inj_add. assumption. }
  destruct t2 as [[g t2]|]; subst t1; cbn [oloc option_map fst snd].
  - exists g, l2, (k + length a)%nat. rewrite Hcc, Nat2Z.inj_add. cbn [cbuf]. splits; try reflexivity; try assumption.
    intros ->. destruct (HID g eq_refl) as (X & Y). split; [exact X|assumption].
  - specialize (IH _ _ _ Hst). rewrite Hcc, Nat2Z.inj_add in IH. cbn [cbuf] in IH. exact IH.
Qed.
(* the tokens ahead, counted from the beginning of the page *)
Definition gtoks (F : list (list Z)) (k : nat) (l : lex) := toks l (Z.of_nat k) (skipn k (concat F)).
Definition tloc (F : list (list Z)) (x : Z * token) : Z * token := (loc F (fst x), snd x).
Lemma cnext_glob n F c l k : (0 < n)%nat -> stands F k l c ->
  match cnexttoken n c with
  | (Ok (q, t), c') => exists g l' k' ts e, gtoks F k l = ((g, t) :: ts, e) /\ gtoks F k' l' = (ts, e) /\ q = loc F g /\
       stands F k' l' c' /\ (t = KW "ID" -> Z.of_nat k' = g + 2 /\ cbuf c' <> [])
  | (Err e, _) => gtoks F k l = ([], e)
  end.
Proof.
  intros Hn HS. unfold cnexttoken. pose proof (ctoken_glob n F Hn (lex_fuel (length (cahead c))) c l k HS) as X.
  set (p := mkParser l (Z.of_nat k) (cbuf c) (cchunks n c)).
  assert (Hne : nonempty (chunks p)) by (apply cchunks_nonempty; assumption).
  assert (Ha : cahead c = skipn k (concat F)) by (destruct HS as (HG & _); apply (at_glob_ahead _ _ _ HG)).
  assert (HT : gtoks F k l = tokens p).
  { unfold gtoks. rewrite tokens_toks by assumption. cbn [p lx Lex_Model.pos buf chunks]. rewrite (cchunks_concat n c Hn), Ha. reflexivity. }
  set (g := S (measure_ (lx p) (length (buf p ++ concat (chunks p))))).
  pose proof (nexttoken_flat (lex_fuel (length (cahead c))) (lx p) (Lex_Model.pos p) (buf p) (chunks p) g Hne) as FL.
  rewrite <- (cchunks_concat n c Hn) in FL at 1. specialize (FL (measure_fuel _ _) ltac:(unfold g; lia)).
  rewrite HT, (tokens_flat p g Hne ltac:(unfold g; lia)). cbn [p lx Lex_Model.pos buf chunks] in FL |- *.
  destruct (cnexttoken_loop _ n c) as [[[q t]|e] c'].
  - destruct X as (g0 & l' & k' & X & Hq & HS' & HID). rewrite X in FL. destruct FL as (F1 & F2 & F3). cbn [lx Lex_Model.pos buf chunks] in *.
    rewrite (F3 g ltac:(unfold g, p; cbn [lx buf chunks]; lia)).
    assert (HT' : gtoks F k' l' = flat g l' (Z.of_nat k') (cbuf c') (cchunks n c')).
    { assert (Ha' : cahead c' = skipn k' (concat F)) by (destruct HS' as (HG & _); apply (at_glob_ahead _ _ _ HG)).
      unfold gtoks. rewrite <- Ha', <- (cchunks_concat n c' Hn).
      pose proof (tokens_toks (mkParser l' (Z.of_nat k') (cbuf c') (cchunks n c')) F1) as TT. cbn [lx Lex_Model.pos buf chunks] in TT. rewrite <- TT.
      rewrite (tokens_flat (mkParser l' (Z.of_nat k') (cbuf c') (cchunks n c')) g F1); [reflexivity|].
      unfold g, p. cbn [lx buf chunks] in *. lia. }
    destruct (flat g l' (Z.of_nat k') (cbuf c') (cchunks n c')) as [ts e].
    exists g0, l', k', ts, e. splits; try reflexivity; try assumption.
  - destruct (nexttoken_loop _ _ _ _ _) as [r p']. cbn [fst] in X. subst r. rewrite FL. reflexivity.
Qed.
Lemma ctokens_glob n F : (0 < n)%nat -> forall m c l k, (cmeasure c < m)%nat -> stands F k l c ->
  ctokens n c = (map (tloc F) (fst (gtoks F k l)), snd (gtoks F k l)).
Proof.
  intros Hn. induction m as [|m IH]; intros c l k Hm HS; [lia|]. rewrite (ctokens_next n c Hn).
  pose proof (cnexttoken_dec n c Hn) as D. pose proof (cnext_glob n F c l k Hn HS) as X.
  destruct (cnexttoken n c) as [[[q t]|e] c'].
  - destruct X as (g & l' & k' & ts & e & -> & E2 & -> & HS' & _). rewrite (IH c' l' k' ltac:(lia) HS'), E2. reflexivity.
  - rewrite X. reflexivity.
Qed.
(* ahead of c are the last of the tokens T *)
Definition suffix_of (F : list (list Z)) (T : list (Z * token) * exn) (c : cp) : Prop :=
  exists k l done, stands F k l c /\ T = pre done (gtoks F k l).
Lemma glob_hnt n F T : (0 < n)%nat -> forall c t ts e, suffix_of F T c -> ctokens n c = (t :: ts, e) ->
  exists c', cnexttoken n c = (Ok t, c') /\ ctokens n c' = (ts, e) /\ suffix_of F T c'.
Proof.
  intros Hn c t ts e (k & l & dn & HS & HT) H. pose proof (cnext_glob n F c l k Hn HS) as X. rewrite (ctokens_next n c Hn) in H.
  destruct (cnexttoken n c) as [[[q t']|e'] c']; [|discriminate].
  destruct (ctokens n c') as [ts' e''] eqn:E. injection H as <- <- <-. exists c'. splits; [reflexivity|assumption|].
  destruct X as (g & l' & k' & ts2 & e & E1 & E2 & -> & HS' & _). exists k', l', (dn ++ [(g, t')]). split; [assumption|].
  rewrite HT, pre_app, E1, E2. reflexivity.
Qed.
Lemma inline_loop_glob n F : (0 < n)%nat -> forall f c i data k r c', at_glob F k c -> inline_loop f n c i data = Ok (r, c') ->
  exists k', at_glob F k' c'.
Proof.
  intros Hn. induction f as [|f IH]; intros c i data k r c' Hk H; cbn [inline_loop] in H; [discriminate|].
  destruct (Nat.leb i 2); [|injection H as <- <-; exists k; assumption].
  destruct (cfill n c) as [c1|] eqn:Ef; [|discriminate]. destruct (at_glob_fill n F k c c1 Hn Hk Ef) as (Hk1 & _ & _).
  destruct i as [|i].
  - destruct (span _ (cbuf c1)) as [a q] eqn:Es. pose proof (span_app _ _ _ _ Es) as Eb. destruct q as [|e q].
    + eapply IH; [|exact H]. rewrite app_nil_r in Eb. apply (at_glob_move F k c1 a []); [assumption|rewrite app_nil_r; assumption].
    + eapply IH; [|exact H]. replace (cpos c1 + Z.of_nat (length a) + 1) with (cpos c1 + Z.of_nat (length (a ++ [e]))) by (rewrite app_length; cbn [length]; lia).
      apply (at_glob_move F k c1 (a ++ [e]) q); [assumption|rewrite <- app_assoc; assumption].
  - destruct (cbuf c1) as [|x b] eqn:Eb; [discriminate|]. eapply IH; [|exact H].
    apply (at_glob_move F k c1 [x] b); assumption.
Qed.

(* the image at the head of the tokens; g is the offset of its ID from the beginning of the page *)
Lemma image_glob n F T c pos0 ts1 pID more e kvs F1 before w0 d nl w rest F2 g :
  (0 < n)%nat -> F = F1 ++ (before ++ bs "ID" ++ [w0] ++ d ++ nl ++ bs "EI" ++ [w] ++ rest) :: F2 ->
  suffix_of F T c -> ctokens n c = ((pos0, KW "BI") :: ts1 ++ (pID, KW "ID") :: more, e) ->
  (exists a b, T = (a ++ (g, KW "ID") :: b, e) /\ length b = length more) -> g = Z.of_nat (length (concat F1) + length before) ->
  WrittenE false false kvs (map snd ts1) -> NoDup (map fst kvs) -> white w0 -> white w ->
  ~ marker_in (d ++ nl) -> (forall a, d ++ nl <> a ++ bs "E") -> (forall a, d ++ nl <> a ++ bs "EI") ->
  strips d nl -> (nl = [] -> d <> []) ->
  exists m p1 p2 c' s1, (forall f, content_nextobject n (m + f) c stk0 = Ok ((p1, OStream (entries kvs) d), c', s1)) /\
    (forall f, content_nextobject n f c' s1 = Ok ((p2, OK "EI"), c', stk0)) /\
    stands F (length (concat F) - length (rest ++ concat F2)) lex0 c'.
Proof.
  intros Hn HF G T0 (a0 & b0 & HT & Hlb) Hg HW Hnd Hw0 Hw Hm H1 H2 Hst Hne.
  destruct (glob_hnt n F T Hn c _ _ _ G T0) as (c1 & N1 & T1 & G1).
  assert (Q : quiet flush_all (start_type stk0 pos0 KInline)) by (split; [reflexivity|left; discriminate]).
  destruct (written_runs (cnexttoken n) (suffix_of F T) (ctokens n) (glob_hnt n F T Hn) (content_keyword n) flush_all false false ltac:(discriminate) ltac:(discriminate)) as (_ & _ & HE).
  destruct (HE _ _ HW (start_type stk0 pos0 KInline) ts1 Q eq_refl) as (l & Hl & R).
  destruct (R c1 _ _ G1 T1) as (m & c3 & G3 & T3 & E5).
  destruct G3 as (k3 & l3 & done3 & S3 & D3).
  pose proof (ctokens_glob n F Hn (S (cmeasure c3)) c3 l3 k3 ltac:(lia) S3) as V3. rewrite T3 in V3.
  pose proof (cnext_glob n F c3 l3 k3 Hn S3) as X. rewrite (ctokens_next n c3 Hn) in T3.
  destruct (cnexttoken n c3) as [[[q t4]|e4] c4] eqn:N4; [|discriminate].
  destruct (ctokens n c4) as [ts4 e4] eqn:T4. injection T3 as -> -> -> ->. rename pID into q.
  destruct X as (g3 & l4 & k4 & tl3 & e3 & X1 & X2 & X3 & S4 & XID).
  assert (Eg : g3 = g).
  { rewrite X1 in D3, V3. cbn [fst snd map] in V3. injection V3 as _ V3 _. apply (f_equal (@length _)) in V3. rewrite map_length in V3.
    rewrite HT in D3. unfold pre in D3. cbn [fst snd] in D3. injection D3 as D3 _.
    assert (HL : length a0 = length done3) by (apply (f_equal (@length _)) in D3; rewrite !app_length in D3; cbn [length] in D3; lia).
    clear - D3 HL. revert done3 D3 HL. induction a0 as [|x a0 IH]; intros [|y dn] D3 HL; try discriminate HL.
    - injection D3 as -> _. reflexivity.
    - injection D3 as _ D3. apply (IH dn D3). cbn in HL. lia. }
  subst g3. destruct (XID eq_refl) as (K4 & B4).
  set (tl := d ++ nl ++ bs "EI" ++ [w] ++ rest) in *.
  set (s := before ++ bs "ID" ++ [w0] ++ tl) in *.
  destruct S4 as (A4 & _ & _). destruct A4 as (F1' & s' & F2' & t4 & k' & EF & A1 & A2 & A3 & A5 & A0 & A6 & A7).
  assert (Hls : length s = (length before + 3 + length tl)%nat) by (unfold s; rewrite !app_length; cbn; lia).
  assert (Hb4 : (0 < length (cbuf c4))%nat) by (destruct (cbuf c4); [congruence|cbn; lia]).
  rewrite HF in EF. destruct (same_stream F1 s F2 F1' s' F2' (length before + 2) k' EF) as (<- & <- & <- & Ek); [lia|lia|lia|].
  assert (Hq : q = Z.of_nat (length before)).
  { rewrite X3, HF, Hg, Nat2Z.inj_add. apply loc_at. lia. }
  set (off := (length before + 3)%nat).
  assert (Hoff : q + 3 = Z.of_nat off) by (unfold off; lia).
  assert (Hd : skipn (Z.to_nat (q + 3)) s ++ concat (cstreams c4) = (d ++ nl) ++ [69; 73; w] ++ (rest ++ concat F2)).
  { rewrite A2, Hoff, Nat2Z.id. unfold s.
    replace (before ++ bs "ID" ++ [w0] ++ tl) with ((before ++ bs "ID" ++ [w0]) ++ tl) by (rewrite <- !app_assoc; reflexivity).
    rewrite skipn_before by (rewrite !app_length; cbn; lia). unfold tl. rewrite <- !app_assoc. reflexivity. }
  pose proof (proj1 (white_space w) Hw) as Hw'.
  destruct (get_inline_lemma n c4 s t4 (q + 3) d nl w (rest ++ concat F2) Hn A1 Hd Hm H1 H2 Hw' Hst Hne) as (c' & I1 & I2 & I3 & I4).
  exists (Datatypes.S (m + 1)), (q + 3), (q + 3), c', (mkStk [] None [] [(q + 3, OK "EI")]). splits.
  - intros f. unfold content_nextobject. cbn [Nat.add]. rewrite nextobject_eq. cbn [stk0 results]. rewrite N1.
    match goal with |- (bind ?x _) = _ => change x with (Ok (c1, start_type stk0 pos0 KInline)) end. cbn [bind].
    rewrite (quiet_flush flush_all _ Q), <- Nat.add_assoc, E5, nextobject_eq.
    change (results (push_all (start_type stk0 pos0 KInline) l)) with (@nil pobj). cbn [Nat.add]. rewrite N4.
    match goal with |- (bind ?x _) = _ => change x with (content_keyword n c4 (push_all (start_type stk0 pos0 KInline) l) q (bs "ID")) end.
    unfold content_keyword. change (list_eqb (bs "ID") (bs "BI")) with false. change (list_eqb (bs "ID") (bs "ID")) with true. cbn iota.
    rewrite end_start, Hl, flatten_even, (build_dict_false kvs (writtenE_nonnull _ _ HW)), build_dict_lemma; [|assumption|intros k _ k'' v' []].
    cbn [bind]. rewrite I1. cbn [bind]. rewrite nextobject_eq. reflexivity.
  - intros f. unfold content_nextobject. rewrite nextobject_eq. reflexivity.
  - assert (P0 : at_glob F (length (concat F1) + off) (mkCp lex0 (q + 3) [] (Some (s, Z.to_nat (q + 3))) (cstreams c4))).
    { exists F1, s, F2, off, off. rewrite Hoff, Nat2Z.id. cbn. splits; try reflexivity; [assumption|assumption|lia|]. unfold off. lia. }
    destruct (inline_loop_glob n F Hn _ _ _ _ _ _ _ P0 I4) as (kk & Hk').
    destruct (at_glob_ahead _ _ _ Hk') as (Ha & Hle). rewrite I2 in Ha.
    assert (Hlen : length (rest ++ concat F2) = (length (concat F) - kk)%nat) by (rewrite Ha; apply skipn_length).
    replace (length (concat F) - length (rest ++ concat F2))%nat with kk by lia.
    unfold stands. splits; [assumption| |unfold kwpos; discriminate]. rewrite I3. split; [unfold lexsim; tauto|]. cbn. symmetry. apply loc_0.
Qed.

Lemma page_from n F : (0 < n)%nat -> forall os pending streams, PageContent os pending streams -> forall c l K A ts,
  stands F K l c -> mode_ l = MMain -> skipn K (concat F) = A ++ concat streams -> LayoutP false 0 ts A [] -> map snd ts = pending ->
  (forall hd tl, streams = hd :: tl -> exists F1 dn, F = F1 ++ (dn ++ hd) :: tl /\ (K + length A = length (concat F1) + length dn)%nat) ->
  exists m, forall fuel, (m <= fuel)%nat -> exists l,
    all_objects (cnexttoken n) (content_keyword n) flush_all fuel c stk0 = (l, PSEOF) /\ map snd l = os.
Proof.
  intros Hn os pending streams HP.
  induction HP as [os pending HI|os pending text vals streams (tx & HL & HV) HP IH
    |os pending vals vals0 kvs etoks text w0 d nl w os' rest streams HE HI Hnd HW (tx & HL & HV) Hw0 Hw Hm H1 H2 Hst Hne HP IH];
    intros c l K A ts HS Hmm HK HA Hts Hpl.
  - cbn [concat] in HK. rewrite app_nil_r in HK.
    pose proof (ctokens_glob n F Hn (S (cmeasure c)) c l K ltac:(lia) HS) as T. unfold gtoks in T. rewrite HK in T.
    pose proof (layoutP_shift _ _ _ _ HA (Z.of_nat K) []) as L.
    destruct (layoutP_lemma _ _ _ _ _ L ltac:(discriminate) l Hmm) as [(ts' & l' & FF & _ & E3) _].
    cbn [app] in E3. rewrite app_nil_r, Z.add_0_l in E3. rewrite E3, toks_nil in T. unfold pre in T. cbn [fst snd] in T. rewrite app_nil_r in T.
    pose proof (tok_eq_snd _ _ FF) as V. rewrite map_map in V. change (map snd ts' = map snd ts) in V. rewrite Hts in V.
    rewrite <- (app_nil_r (map (tloc F) ts')) in T.
    assert (V' : map snd (map (tloc F) ts') = pending) by (rewrite map_map; exact V).
    destruct (content_instr n (fun _ => True) (cnexttoken_tokens n Hn) os _ HI (map (tloc F) ts') c [] PSEOF V' Logic.I T) as (m & lo & c' & Hl & _ & T' & E).
    exists (m + length lo + 2)%nat. intros fuel HF'. exists lo. split; [|assumption].
    rewrite (E fuel ltac:(lia)), (content_end n c' PSEOF Hn T') by lia. rewrite app_nil_r. reflexivity.
  - cbn [concat] in HK.
    apply (IH c l K (A ++ text) (ts ++ map (fun t => (fst t + Z.of_nat (length A), snd t)) tx)); [assumption|assumption|rewrite <- app_assoc; assumption| | |].
    + apply (layoutP_app 0 ts A text); [|rewrite app_nil_r; reflexivity|].
      * pose proof (layoutP_shift _ _ _ _ HA 0 text) as L. cbn [app] in L. rewrite Z.add_0_l in L.
        erewrite map_ext, map_id in L; [exact L|]. intros [? ?]. cbn. rewrite Z.add_0_r. reflexivity.
      * exact (layoutP_shift _ _ _ _ HL (Z.of_nat (length A)) []).
    + rewrite map_app, map_map, Hts. cbn [snd]. rewrite <- HV. reflexivity.
    + intros hd tl ->. destruct (Hpl _ _ eq_refl) as (F1 & dn & HF & Hlen). exists (F1 ++ [dn ++ text]), []. split; [rewrite <- app_assoc; exact HF|].
      rewrite concat_app, !app_length. cbn [concat]. rewrite !app_length. cbn [length]. lia.
  - set (tl := d ++ nl ++ bs "EI" ++ [w] ++ rest) in *.
    destruct (Hpl _ _ eq_refl) as (F1 & dn & HF & Hlen).
    assert (HAt : LayoutP false 0 (ts ++ map (fun t => (fst t + Z.of_nat (length A), snd t)) tx) (A ++ text) ((bs "ID" ++ [w0] ++ tl) ++ concat streams)).
    { apply (layoutP_app 0 ts A (text ++ (bs "ID" ++ [w0] ++ tl) ++ concat streams)); [|reflexivity|].
      - pose proof (layoutP_shift _ _ _ _ HA 0 (text ++ (bs "ID" ++ [w0] ++ tl) ++ concat streams)) as L. cbn [app] in L. rewrite Z.add_0_l in L.
        erewrite map_ext, map_id in L; [exact L|]. intros [? ?]. cbn. rewrite Z.add_0_r. reflexivity.
      - exact (layoutP_shift _ _ _ _ HL (Z.of_nat (length A)) (concat streams)). }
    set (tsA := ts ++ map (fun t => (fst t + Z.of_nat (length A), snd t)) tx) in *.
    assert (VA : map snd tsA = vals0 ++ KW "BI" :: etoks).
    { unfold tsA. rewrite map_app, map_map, Hts. cbn [snd]. rewrite <- HE, <- HV. reflexivity. }
    pose proof (layoutP_shift _ _ _ _ HAt (Z.of_nat K) []) as L. rewrite app_nil_r in L.
    destruct (layoutP_lemma _ _ _ _ _ L ltac:(discriminate) l Hmm) as [(ts' & l' & FF & Hl' & E3) _].
    rewrite Z.add_0_l in E3.
    set (G := Z.of_nat K + Z.of_nat (length (A ++ text))) in *.
    assert (LID : LayoutP false G [(G + Z.of_nat (length (@nil Z)), KW "ID")] ([] ++ bs "ID" ++ []) ([w0] ++ tl ++ concat streams)).
    { eapply LP_tok; [constructor|apply ID_spell| |repeat constructor]. exists w0, (tl ++ concat streams). split; [reflexivity|left; assumption]. }
    assert (Hw0n : forall r, [w0] ++ tl ++ concat streams <> 62 :: r) by (intros r E; injection E as -> _; unfold white in Hw0; lia).
    destruct (layoutP_lemma _ _ _ _ _ LID Hw0n l' Hl') as [(ts2 & l2 & F2 & Hl2 & E4) _].
    inversion F2 as [|[q k] ? ? ? [Hkw Hq] F3]; subst ts2. inversion F3; subst. cbn [snd fst] in *. subst k. destruct Hq as [Hq|Hq]; [|discriminate].
    change (([] ++ bs "ID" ++ []) ++ [w0] ++ tl ++ concat streams) with ((bs "ID" ++ [w0] ++ tl) ++ concat streams) in E4.
    set (F := F1 ++ (dn ++ text ++ bs "ID" ++ [w0] ++ tl) :: streams) in *.
    set (RT := toks l2 (G + Z.of_nat (length ([] ++ bs "ID" ++ []))) ([w0] ++ tl ++ concat streams)) in *.
    assert (GT : gtoks F K l = (ts' ++ (q, KW "ID") :: fst RT, snd RT)).
    { unfold gtoks. rewrite HK. cbn [concat]. replace (A ++ (text ++ bs "ID" ++ [w0] ++ tl) ++ concat streams) with ((A ++ text) ++ (bs "ID" ++ [w0] ++ tl) ++ concat streams) by (rewrite <- !app_assoc; reflexivity).
      rewrite E3, E4. reflexivity. }
    pose proof (ctokens_glob n F Hn (S (cmeasure c)) c l K ltac:(lia) HS) as T. rewrite GT in T. cbn [fst snd] in T.
    pose proof (tok_eq_snd _ _ FF) as V. rewrite map_map in V. change (map snd ts' = map snd tsA) in V. rewrite VA in V.
    apply map_eq_app in V as (pts & bt & -> & V1 & V2). destruct bt as [|[q0 k0] ts1]; [discriminate|]. cbn [map snd] in V2. injection V2 as -> V2.
    rewrite !map_app in T. cbn [map] in T. rewrite <- app_assoc in T. cbn [app] in T.
    assert (SU : suffix_of F (gtoks F K l) c) by (exists K, l, []; split; [assumption|symmetry; apply pre_nil]).
    assert (V1' : map snd (map (tloc F) pts) = vals0) by (rewrite map_map; exact V1).
    destruct (content_instr n (suffix_of F (gtoks F K l)) (glob_hnt n F _ Hn) os _ HI (map (tloc F) pts) c _ _ V1' SU T) as (m & lo & c1 & Hl & G1 & T1 & E1).
    assert (HW' : WrittenE false false kvs (map snd (map (tloc F) ts1))) by (rewrite map_map; change (WrittenE false false kvs (map snd ts1)); rewrite V2; assumption).
    destruct (image_glob n F (gtoks F K l) c1 _ (map (tloc F) ts1) _ _ _ kvs F1 (dn ++ text) w0 d nl w rest streams q Hn ltac:(unfold F, tl; rewrite <- !app_assoc; reflexivity) G1 T1) as (m2 & p1 & p2 & c2 & s1 & X1 & X2 & X3); try assumption.
    { rewrite GT. exists (pts ++ (q0, KW "BI") :: ts1), (fst RT). split; [reflexivity|]. rewrite map_length. reflexivity. }
    { rewrite Hq. unfold G. cbn [length]. rewrite !app_length. lia. }
    set (K2 := (length (concat F) - length (rest ++ concat streams))%nat) in *.
    assert (HcF : concat F = (concat F1 ++ dn ++ text ++ bs "ID" ++ [w0] ++ d ++ nl ++ bs "EI" ++ [w]) ++ rest ++ concat streams).
    { unfold F, tl. rewrite concat_app. cbn [concat]. rewrite <- !app_assoc. reflexivity. }
    assert (HK2 : K2 = length (concat F1 ++ dn ++ text ++ bs "ID" ++ [w0] ++ d ++ nl ++ bs "EI" ++ [w])) by (unfold K2; rewrite HcF, (app_length _ (rest ++ _)); lia).
    destruct (IH c2 lex0 K2 [] []) as (m3 & E3').
    { assumption. }
    { reflexivity. }
    { cbn [concat app]. rewrite HcF. apply skipn_before. assumption. }
    { repeat constructor. }
    { reflexivity. }
    { intros hd tl' E. injection E as <- <-. exists F1, (dn ++ text ++ bs "ID" ++ [w0] ++ d ++ nl ++ bs "EI" ++ [w]). split; [unfold F, tl; rewrite <- !app_assoc; reflexivity|].
      rewrite HK2, (app_length (concat F1)). cbn [length]. lia. }
    exists (m + length lo + 2 + m2 + m3)%nat. intros fuel HFu.
    destruct (E3' (fuel - length lo - 2)%nat ltac:(lia)) as (l3 & E5 & M5).
    exists (lo ++ (p1, OStream (entries kvs) d) :: (p2, OK "EI") :: l3). split; [|rewrite map_app; cbn [map snd]; rewrite Hl, M5; reflexivity].
    rewrite (E1 fuel ltac:(lia)). remember (fuel - length lo)%nat as f eqn:Ef.
    destruct f as [|[|f]]; [lia|lia|]. cbn [all_objects].
    replace (Datatypes.S f) with (m2 + (Datatypes.S f - m2))%nat at 1 by lia. fold (content_nextobject n (m2 + (Datatypes.S f - m2)) c1 stk0). rewrite X1.
    fold (content_nextobject n f c2 s1). rewrite X2. cbn [Nat.sub] in E5. rewrite Nat.sub_0_r in E5. rewrite E5. reflexivity.
Qed.
(* Any page: for every read size the parser delivers exactly the operands and operators of its streams, images
   included, and then signals the end of data (which ends the page). *)
Theorem C85_page_partial n streams os : (0 < n)%nat -> streams <> [] -> PageContent os [] streams ->
  exists m, forall fuel, (m <= fuel)%nat -> exists l, content_objects n fuel streams = (l, PSEOF) /\ map snd l = os.
Proof.
  intros Hn Hs HP. unfold content_objects. destruct streams as [|s r]; [congruence|]. cbn [copen].
  apply (page_from n (s :: r) Hn os [] (s :: r) HP _ lex0 0 [] []); try reflexivity.
  - unfold stands. splits; [|split; [unfold lexsim; tauto|symmetry; apply loc_0]|unfold kwpos; discriminate].
    exists [], s, r, O, O. cbn. splits; try reflexivity. lia.
  - repeat constructor.
  - intros hd tl E. injection E as <- <-. exists [], []. split; reflexivity.
Qed.
(* it covers the pages of C85_streams_partial and C85_inline_images_partial *)
Lemma page_of_streams streams valss : Forall2 Spells streams valss -> forall os pending, Instr os (pending ++ concat valss) -> PageContent os pending streams.
Proof.
  induction 1 as [|s v streams valss HS HF IH]; intros os pending HI; cbn [concat] in HI; [rewrite app_nil_r in HI; apply Pg_end; assumption|].
  apply (Pg_stream os pending s v streams HS). apply IH. rewrite <- app_assoc. assumption.
Qed.
Lemma page_of_contents os text : Contents os text -> PageContent os [] [text].
Proof.
  induction 1 as [os vals text HI HS|os vals kvs etoks text w0 d nl w os' rest HI Hnd HW HL Hw0 Hw Hm H1 H2 Hst Hne HC IH].
  - apply (Pg_stream os [] text vals []); [assumption|]. apply Pg_end. assumption.
  - eapply (Pg_image os [] (vals ++ KW "BI" :: etoks) vals kvs etoks); try eassumption. reflexivity.
Qed.
Corollary C85_page_unambiguous os1 os2 streams : streams <> [] -> PageContent os1 [] streams -> PageContent os2 [] streams -> os1 = os2.
Proof.
  intros Hs H1 H2. destruct (C85_page_partial 1 streams os1 ltac:(lia) Hs H1) as (m1 & E1). destruct (C85_page_partial 1 streams os2 ltac:(lia) Hs H2) as (m2 & E2).
  destruct (E1 (m1 + m2)%nat ltac:(lia)) as (l1 & X1 & <-). destruct (E2 (m1 + m2)%nat ltac:(lia)) as (l2 & X2 & <-). congruence.
Qed.

(* three streams: an array begins in the first and ends in the second, the dictionary of an image begins in the second, its
   data and a further image are in the third *)
Definition w_p1 : list Z := bs "q [1 <0a>".
Definition w_p2 : list Z := bs " 2] 0 d BI/W ".
Definition w_p3 : list Z := bs "2 " ++ bs "ID" ++ [32] ++ [0; 255; 69; 73; 7] ++ [13; 10] ++ bs "EI" ++ [10] ++ bs "Q BI ID" ++ [32; 1] ++ bs "EI ".
Definition w_p4 : list Z := bs "q ".
Example C85_page_case : exists m, forall fuel, (m <= fuel)%nat -> exists l, content_objects 5 fuel [w_p1; w_p2; w_p3; w_p4] = (l, PSEOF) /\
  map snd l = [OK "q"; OArr [OInt 1; OStr [10]; OInt 2]; OInt 0; OK "d"; OStream [(ON "W", OInt 2)] [0; 255; 69; 73; 7]; OK "EI"; OK "Q"; OStream [] [1]; OK "EI"; OK "q"].
Proof.
  apply C85_page_partial; [lia|discriminate|].
  apply (Pg_stream _ [] w_p1 [KW "q"; KW "["; TInt 1; TStr [10]]).
  { eexists. split; [unfold w_p1; cbn [bs app]; kw_tok (@nil Z) (bs "q"); single_tok [32] 91; int_tok (@nil Z) (bs "1")|].
    { eapply (layP _ _ [32] _ (TStr [10]) (60 :: bs "0a" ++ [62]) HexEnd); [reflexivity|reflexivity|reflexivity|apply sep_ok; reflexivity| |discriminate|].
      - apply (Sp_hex [48; 97] [10]). apply (HB_pair [] 48 [] 97 0 10 [] []); [apply Forall_nil|apply Forall_nil|apply (Hex_digit 0); lia|apply (Hex_lower 10); lia|apply HB_end; apply Forall_nil].
      - lay_end. }
    reflexivity. }
  apply (Pg_stream _ _ w_p2 [TInt 2; KW "]"; TInt 0; KW "d"; KW "BI"; TLit (bs "W")]).
  { eexists. split; [unfold w_p2; cbn [bs app]; int_tok [32] (bs "2"); single_tok (@nil Z) 93; int_tok [32] (bs "0"); kw_tok [32] (bs "d"); kw_tok [32] (bs "BI"); name_tok (@nil Z) (bs "W"); lay_end|reflexivity]. }
  apply (Pg_image [OK "q"; OArr [OInt 1; OStr [10]; OInt 2]; OInt 0; OK "d"] _ [TInt 2] [KW "q"; KW "["; TInt 1; TStr [10]; TInt 2; KW "]"; TInt 0; KW "d"]
    [(bs "W", OInt 2)] [TLit (bs "W"); TInt 2] (bs "2 ") 32 [0; 255; 69; 73; 7] [13; 10] 10 [OK "Q"; OStream [] [1]; OK "EI"; OK "q"] (bs "Q BI ID" ++ [32; 1] ++ bs "EI ")).
  - reflexivity.
  - instr_op. apply (In_operand _ [KW "["; TInt 1; TStr [10]; TInt 2; KW "]"]).
    { apply (W_arr false false _ [TInt 1; TStr [10]; TInt 2]). apply (WL_cons _ _ _ _ [TInt 1]); [constructor|]. apply (WL_cons _ _ _ _ [TStr [10]]); [constructor|].
      apply (WL_cons _ _ _ _ [TInt 2]); constructor. }
    apply (In_operand (OInt 0) [TInt 0]); [constructor|]. instr_op. constructor.
  - repeat constructor; cbn; tauto.
  - apply (WE_cons _ _ _ _ _ [TInt 2]); [constructor|constructor].
  - eexists. split; [cbn [bs app]; int_tok (@nil Z) (bs "2"); lay_end|reflexivity].
  - left. reflexivity.
  - right. right. left. reflexivity.
  - apply no_marker_ok. reflexivity.
  - intros a E. apply (f_equal (@rev Z)) in E. rewrite (rev_app_distr a) in E. discriminate E.
  - intros a E. apply (f_equal (@rev Z)) in E. rewrite (rev_app_distr a) in E. discriminate E.
  - left. reflexivity.
  - discriminate.
  - apply (Pg_image [OK "Q"] [] [KW "Q"; KW "BI"] [KW "Q"] [] [] (bs "Q BI ") 32 [1] [] 32 [OK "q"] []).
    + reflexivity.
    + instr_op. constructor.
    + constructor.
    + constructor.
    + eexists. split; [cbn [bs app]; kw_tok (@nil Z) (bs "Q"); kw_tok (bs " ") (bs "BI"); lay_end|reflexivity].
    + left. reflexivity.
    + left. reflexivity.
    + apply no_marker_ok. reflexivity.
    + intros a E. apply (f_equal (@rev Z)) in E. rewrite (rev_app_distr a) in E. discriminate E.
    + intros a E. apply (f_equal (@rev Z)) in E. rewrite (rev_app_distr a) in E. discriminate E.
    + right. right. split; [right; reflexivity|]. intros a x E. destruct a as [|y a]; [injection E as <-; reflexivity|destruct a; discriminate].
    + discriminate.
    + apply (Pg_stream _ [] [] []); [exists []; split; [repeat constructor|reflexivity]|]. apply (Pg_stream _ _ w_p4 [KW "q"]).
      { eexists. split; [unfold w_p4; cbn [bs app]; kw_tok (@nil Z) (bs "q"); lay_end|reflexivity]. }
      apply Pg_end. cbn [app]. instr_op. constructor.
Qed.
