From Coq Require Import String.
From Verif Require Import Base Lex_Model Lex_Chunk Lex_Spec Lex_Proofs Obj Stack_Model Stack_Spec Stack_Proofs Content_Model Content_Spec.
From Coq Require Import ZifyBool ZifyNat.

(* ---- symbol tables ---- *)
Section symtab.
  Context {N : Type} (eqb : N -> N -> bool) (eqb_eq : forall a b, eqb a b = true <-> a = b).
  Definition tab_ok (t : @symtab N) : Prop :=
    forall n i, tab_find eqb (tab t) n = Some i <-> nth_error (heap t) i = Some n.
  Lemma tab_ok0 : tab_ok tab0.
  Proof. intros n i. cbn. split; [discriminate|]. destruct i; discriminate. Qed.
  Lemma intern_lemma t n : tab_ok t -> let (i, t') := intern eqb t n in
    tab_ok t' /\ nth_error (heap t') i = Some n /\ exists more, heap t' = heap t ++ more.
  Proof.
    intros H. unfold intern. destruct (tab_find eqb (tab t) n) as [i|] eqn:E.
    - splits; [assumption|apply H; assumption|exists []; rewrite app_nil_r; reflexivity].
    - assert (Hnew : forall j, nth_error (heap t) j <> Some n) by (intros j Hj; apply H in Hj; congruence).
      splits; [|cbn; rewrite nth_error_app2, Nat.sub_diag by lia; reflexivity|exists [n]; reflexivity].
      intros m i. cbn [tab tab_find heap]. destruct (eqb n m) eqn:En.
      + apply eqb_eq in En. subst m. split.
        * intros Hi. injection Hi as <-. rewrite nth_error_app2, Nat.sub_diag by lia. reflexivity.
        * intros Hi. destruct (Nat.lt_ge_cases i (length (heap t))) as [Hl|Hl].
          -- rewrite nth_error_app1 in Hi by assumption. exfalso. apply (Hnew i Hi).
          -- rewrite nth_error_app2 in Hi by assumption. destruct (i - length (heap t))%nat as [|k] eqn:Ek; [f_equal; lia|].
             destruct k; discriminate.
      + pose proof (H m i) as Hm. split.
        * intros Hi. apply Hm in Hi. rewrite nth_error_app1; [assumption|]. apply nth_error_Some. congruence.
        * intros Hi. destruct (Nat.lt_ge_cases i (length (heap t))) as [Hl|Hl].
          -- rewrite nth_error_app1 in Hi by assumption. apply Hm. assumption.
          -- rewrite nth_error_app2 in Hi by assumption. destruct (i - length (heap t))%nat as [|k]; [|destruct k; discriminate].
             injection Hi as ->. assert (eqb m m = true) by (apply eqb_eq; reflexivity). congruence.
  Qed.
  Lemma interns_lemma ns : forall t, tab_ok t -> let (is_, t') := interns eqb t ns in
    tab_ok t' /\ Forall2 (fun i n => nth_error (heap t') i = Some n) is_ ns /\ exists more, heap t' = heap t ++ more.
  Proof.
    induction ns as [|n ns IH]; intros t H; cbn [interns].
    - splits; [assumption|constructor|exists []; rewrite app_nil_r; reflexivity].
    - pose proof (intern_lemma t n H) as H1. destruct (intern eqb t n) as [i t1]. destruct H1 as (H1 & H2 & (m1 & H3)).
      pose proof (IH t1 H1) as H4. destruct (interns eqb t1 ns) as [is_ t2]. destruct H4 as (H4 & H5 & (m2 & H6)).
      splits; [assumption| |exists (m1 ++ m2); rewrite H6, H3, app_assoc; reflexivity].
      constructor; [|assumption]. rewrite H6, nth_error_app1; [assumption|]. apply nth_error_Some. congruence.
  Qed.
  (* a name has one object *)
  Lemma tab_unique t i j n : tab_ok t -> nth_error (heap t) i = Some n -> nth_error (heap t) j = Some n -> i = j.
  Proof. intros H Hi Hj. apply H in Hi. apply H in Hj. congruence. Qed.
End symtab.

(* ---- lexer states equal up to positions ---- *)
Definition lexsim (a b : lex) : Prop :=
  mode_ a = mode_ b /\ cur a = cur b /\ paren a = paren b /\ oct a = oct b /\ hexd a = hexd b.
Definition otv (t : option (Z * token)) : option token := option_map snd t.

Ltac dinner x := lazymatch x with
  | context [match ?y with _ => _ end] => dinner y
  | _ => destruct x
  end.
Lemma parse_func_sim a b p q s : lexsim a b ->
  match parse_func a p s, parse_func b q s with
  | Ok (a', t, r), Ok (b', u, r') => lexsim a' b' /\ otv t = otv u /\ r = r'
  | Err x, Err y => x = y
  | _, _ => False
  end.
Proof.
  destruct a as [ma ca cpa pa oa ha], b as [mb cb cpb pb ob hb]. intros (H1 & H2 & H3 & H4 & H5). cbn in H1, H2, H3, H4, H5. subst.
  unfold parse_func. cbn [mode_].
  destruct mb; unfold parse_main, parse_comment, parse_literal, parse_literal_hex, parse_number, parse_float, parse_keyword,
    parse_string, parse_string_1, parse_wopen, parse_wclose, parse_hexstring;
  repeat (match goal with |- context [match ?x with _ => _ end] => dinner x end; cbn [mode_ cur paren oct hexd app_cur set_cur set_mode curpos]);
  unfold lexsim, otv; cbn; try tauto; try (splits; reflexivity); try reflexivity.
Qed.

(* ---- the chunks a content parser will read ---- *)
Lemma chop_fuel n : (0 < n)%nat -> forall f g d, (length d <= f)%nat -> (length d <= g)%nat -> chop f n d = chop g n d.
Proof.
  intros Hn. induction f as [|f IH]; intros g d Hf Hg.
  - destruct d; [|cbn in Hf; lia]. destruct g; reflexivity.
  - destruct d as [|x d]; [destruct g; reflexivity|]. destruct g as [|g]; [cbn in Hg; lia|]. cbn [chop].
    f_equal. apply IH; rewrite skipn_length; cbn [length] in *; lia.
Qed.
Lemma read_chunks_cons n d : (0 < n)%nat -> d <> [] -> read_chunks n d = firstn n d :: read_chunks n (skipn n d).
Proof.
  intros Hn Hd. unfold read_chunks. destruct d as [|x d]; [congruence|]. cbn [length chop]. f_equal.
  apply chop_fuel; [assumption| |lia]. rewrite skipn_length. cbn [length]. lia.
Qed.
Definition cchunks (n : nat) (c : cp) : list (list Z) :=
  match cfp c with Some (s, t) => read_chunks n (skipn t s) | None => [] end ++ flat_map (read_chunks n) (cstreams c).
Lemma cchunks_nonempty n c : (0 < n)%nat -> nonempty (cchunks n c).
Proof.
  intros Hn. unfold cchunks, nonempty. apply Forall_app. split.
  - destruct (cfp c) as [[s t]|]; [apply read_chunks_spec; assumption|constructor].
  - induction (cstreams c) as [|s r IH]; [constructor|]. cbn [flat_map]. apply Forall_app. split; [apply read_chunks_spec; assumption|assumption].
Qed.
Lemma cchunks_concat n c : (0 < n)%nat -> cbuf c ++ concat (cchunks n c) = cahead c.
Proof.
  intros Hn. unfold cchunks, cahead. f_equal. rewrite concat_app. f_equal.
  - destruct (cfp c) as [[s t]|]; [apply read_chunks_spec; assumption|reflexivity].
  - induction (cstreams c) as [|s r IH]; [reflexivity|]. cbn [flat_map concat]. rewrite concat_app, IH. f_equal. apply read_chunks_spec; assumption.
Qed.

Lemma open_next_spec n streams : (0 < n)%nat ->
  match open_next n streams with
  | None => flat_map (read_chunks n) streams = []
  | Some (p, b, (s, t), r) => flat_map (read_chunks n) streams = b :: read_chunks n (skipn t s) ++ flat_map (read_chunks n) r /\ b <> []
  end.
Proof.
  intros Hn. induction streams as [|s r IH]; cbn [open_next flat_map]; [reflexivity|].
  destruct s as [|x s].
  - cbn [read_chunks chop length app]. exact IH.
  - rewrite read_chunks_cons by (assumption || discriminate). split; [|destruct n; [lia|discriminate]]. cbn [app]. f_equal. f_equal.
    f_equal. destruct (Nat.le_gt_cases n (length (x :: s))) as [Hl|Hl].
    + rewrite firstn_length. replace (Nat.min n (length (x :: s))) with n by lia. reflexivity.
    + rewrite (firstn_all2 (x :: s)) by lia. rewrite skipn_all, skipn_all2 by lia. reflexivity.
Qed.

Lemma cfill_spec n c : (0 < n)%nat ->
  match cfill n c, fillbuf (cbuf c) (cchunks n c) with
  | Some c1, Some (b, cs) => cbuf c1 = b /\ cchunks n c1 = cs /\ clx c1 = clx c /\ b <> []
  | None, None => True
  | _, _ => False
  end.
Proof.
  intros Hn. unfold cfill, fillbuf. destruct (cbuf c) as [|x b] eqn:Eb.
  - pose proof (open_next_spec n (cstreams c) Hn) as HO.
    change (cchunks n c) with (match cfp c with Some (s, t) => read_chunks n (skipn t s) | None => [] end ++ flat_map (read_chunks n) (cstreams c)).
    assert (Hnext : match match open_next n (cstreams c) with None => None
                        | Some (p, b, fp, r) => Some (mkCp (clx c) p b (Some fp) r) end,
                    match flat_map (read_chunks n) (cstreams c) with [] => None | x :: cs' => Some (x, cs') end with
       | Some c1, Some (b, cs) => cbuf c1 = b /\ cchunks n c1 = cs /\ clx c1 = clx c /\ b <> []
       | None, None => True | _, _ => False end).
    { destruct (open_next n (cstreams c)) as [[[[p b] [s t]] r]|].
      - destruct HO as [-> Hb]. cbn. splits; try reflexivity. assumption.
      - rewrite HO. exact I. }
    destruct (cfp c) as [[s t]|]; [|exact Hnext].
    destruct (skipn t s) as [|y d] eqn:Es.
    + rewrite firstn_nil. cbn [read_chunks chop length app]. exact Hnext.
    + rewrite read_chunks_cons by (assumption || discriminate). cbn [app].
      destruct (firstn n (y :: d)) as [|z b] eqn:Ef; [destruct n; [lia|discriminate]|].
      cbn [cbuf clx]. splits; try reflexivity; [|discriminate]. unfold cchunks. cbn [cfp cstreams]. f_equal. f_equal.
      rewrite (Nat.add_comm t), <- skipn_skipn, Es. rewrite <- Ef, firstn_length.
      destruct (Nat.le_gt_cases n (length (y :: d))) as [Hl|Hl].
      * replace (Nat.min n (length (y :: d))) with n by lia. reflexivity.
      * rewrite Nat.min_r by lia. rewrite skipn_all, skipn_all2 by lia. reflexivity.
  - splits; try reflexivity; [assumption|discriminate].
Qed.

Lemma cnexttoken_sim n : (0 < n)%nat -> forall f c l p, lexsim (clx c) l ->
  let o := nexttoken_loop f l p (cbuf c) (cchunks n c) in
  match cnexttoken_loop f n c with
  | (Ok (_, t), c') => exists q, fst o = Ok (q, t) /\ lexsim (clx c') (lx (snd o)) /\ cbuf c' = buf (snd o) /\ cchunks n c' = chunks (snd o)
  | (Err e, _) => fst o = Err e
  end.
Proof.
  intros Hn. induction f as [|f IH]; intros c l p Hl; [reflexivity|]. cbn [cnexttoken_loop nexttoken_loop].
  pose proof (cfill_spec n c Hn) as HF. destruct (cfill n c) as [c1|]; destruct (fillbuf (cbuf c) (cchunks n c)) as [[b cs]|]; try contradiction; [|reflexivity].
  destruct HF as (H1 & H2 & H3 & H4). rewrite H1. rewrite <- H3 in Hl.
  pose proof (parse_func_sim _ _ (cpos c1) p b Hl) as HS.
  destruct (parse_func (clx c1) (cpos c1) b) as [[[l1 t1] r1]|e1]; destruct (parse_func l p b) as [[[l2 t2] r2]|e2]; try contradiction.
  - destruct HS as (S1 & S2 & <-). destruct t1 as [[q1 t1]|], t2 as [[q2 t2]|]; try discriminate S2.
    + injection S2 as <-. exists q2. cbn. splits; try reflexivity; [assumption|]. rewrite <- H2. reflexivity.
    + specialize (IH (mkCp l1 (cpos c1 + Z.of_nat (length b - length r1)) r1 (cfp c1) (cstreams c1)) l2 (p + Z.of_nat (length b - length r1)) S1).
      cbn [cbuf] in IH.
      rewrite <- H2. exact IH.
  - subst. reflexivity.
Qed.

(* nexttoken and measures on content parsers *)
Definition cmeasure (c : cp) : nat := measure_ (clx c) (length (cahead c)).
Lemma measure_sim a b k : mode_ a = mode_ b -> measure_ a k = measure_ b k.
Proof. unfold measure_. intros ->. reflexivity. Qed.

Lemma cnexttoken_dec n c : (0 < n)%nat ->
  match cnexttoken n c with (Ok _, c') => (cmeasure c' < cmeasure c)%nat | (Err _, _) => True end.
Proof.
  intros Hn. unfold cnexttoken, cmeasure.
  pose proof (cnexttoken_sim n Hn (lex_fuel (length (cahead c))) c (clx c) 0) as S.
  specialize (S ltac:(unfold lexsim; tauto)). cbv zeta in S.
  pose proof (nexttoken_flat (lex_fuel (length (cahead c))) (clx c) 0 (cbuf c) (cchunks n c) (lex_fuel (length (cahead c)))
    (cchunks_nonempty n c Hn)) as F. rewrite (cchunks_concat n c Hn) in F.
  specialize (F (measure_fuel _ _) (measure_fuel _ _)).
  destruct (cnexttoken_loop _ n c) as [[[q t]|e] c'].
  - destruct S as (q' & S1 & (S2 & _) & S3 & S4). destruct (nexttoken_loop _ _ _ _ _) as [r p']. cbn [fst snd] in *. subst r.
    destruct F as (_ & F & _). rewrite (measure_sim _ _ _ S2), <- (cchunks_concat n c' Hn), S3, S4. exact F.
  - exact I.
Qed.

Lemma ctokens_fuel n : (0 < n)%nat -> forall f g c, (cmeasure c < f)%nat -> (cmeasure c < g)%nat ->
  ctokens_loop f n c = ctokens_loop g n c.
Proof.
  intros Hn. induction f as [|f IH]; intros g c Hf Hg; [lia|]. destruct g as [|g]; [lia|]. cbn [ctokens_loop].
  pose proof (cnexttoken_dec n c Hn) as D. destruct (cnexttoken n c) as [[t|e] c']; [|reflexivity].
  rewrite (IH g c') by lia. reflexivity.
Qed.
Lemma ctokens_next n c : (0 < n)%nat ->
  ctokens n c = match cnexttoken n c with (Ok t, c') => let (ts, e) := ctokens n c' in (t :: ts, e) | (Err e, _) => ([], e) end.
Proof.
  intros Hn. unfold ctokens at 1. pose proof (measure_fuel (clx c) (length (cahead c))) as M. 
  destruct (lex_fuel (length (cahead c))) as [|k] eqn:Ek; [unfold lex_fuel in Ek; lia|]. cbn [ctokens_loop].
  pose proof (cnexttoken_dec n c Hn) as D. unfold cmeasure in D. destruct (cnexttoken n c) as [[t|e] c']; [|reflexivity].
  unfold ctokens. rewrite (ctokens_fuel n Hn k (lex_fuel (length (cahead c'))) c'); [reflexivity|unfold cmeasure; lia|apply measure_fuel].
Qed.
Lemma cnexttoken_tokens n : (0 < n)%nat -> forall c t ts e, True -> ctokens n c = (t :: ts, e) ->
  exists c', cnexttoken n c = (Ok t, c') /\ ctokens n c' = (ts, e) /\ True.
Proof.
  intros Hn c t ts e _ H. rewrite (ctokens_next n c Hn) in H. destruct (cnexttoken n c) as [[t'|e'] c']; [|discriminate].
  destruct (ctokens n c') as [ts' e''] eqn:E. injection H as -> -> ->. exists c'. splits; [reflexivity|assumption|exact I].
Qed.

(* values of the tokens: those of the concatenated data *)
Definition vals2 (x : list (Z * token) * exn) : list token * exn := (map snd (fst x), snd x).
Lemma ctokens_values n : (0 < n)%nat -> forall k c p, (cmeasure c < k)%nat -> lexsim (clx c) (lx p) ->
  cbuf c = buf p -> cchunks n c = chunks p -> vals2 (ctokens n c) = vals2 (tokens p).
Proof.
  intros Hn. induction k as [|k IH]; intros c p Hk Hl Hb Hc; [lia|].
  rewrite (ctokens_next n c Hn).
  assert (Hne : nonempty (chunks p)) by (rewrite <- Hc; apply cchunks_nonempty; assumption).
  assert (Ha : cahead c = buf p ++ concat (chunks p)) by (rewrite <- (cchunks_concat n c Hn), Hb, Hc; reflexivity).
  pose proof (cnexttoken_sim n Hn (lex_fuel (length (cahead c))) c (lx p) (pos p) Hl) as SI. cbv zeta in SI.
  pose proof (cnexttoken_dec n c Hn) as D. unfold cnexttoken in *. rewrite Hb, Hc in SI.
  set (g := S (measure_ (lx p) (length (buf p ++ concat (chunks p))))).
  pose proof (nexttoken_flat (lex_fuel (length (cahead c))) (lx p) (pos p) (buf p) (chunks p) g Hne) as F.
  rewrite Ha in F at 1. specialize (F (measure_fuel _ _) ltac:(unfold g; lia)).
  rewrite (tokens_flat p g Hne ltac:(unfold g; lia)).
  destruct (cnexttoken_loop _ n c) as [[[q t]|e] c'].
  - destruct SI as (q' & S1 & S2 & S3 & S4).
    destruct (nexttoken_loop (lex_fuel (length (cahead c))) (lx p) (pos p) (buf p) (chunks p)) as [r p']. cbn [fst snd] in *. subst r.
    destruct F as (F1 & F2 & F3). specialize (F3 g ltac:(unfold g; lia)). rewrite F3.
    specialize (IH c' p' ltac:(lia) S2 S3 S4). unfold vals2 in *.
    rewrite (tokens_flat p' g F1 ltac:(unfold g; lia)) in IH.
    destruct (ctokens n c') as [ts e]; destruct (flat g (lx p') (pos p') (buf p') (chunks p')) as [ts' e']. cbn [fst snd map] in *. congruence.
  - destruct (nexttoken_loop (lex_fuel (length (cahead c))) (lx p) (pos p) (buf p) (chunks p)) as [r p']. cbn [fst snd] in *. subst r.
    rewrite F. reflexivity.
Qed.

Lemma content_values n streams : (0 < n)%nat -> streams <> [] ->
  vals2 (content_tokens n streams) = vals2 (toks lex0 0 (concat streams)).
Proof.
  intros Hn Hs. unfold content_tokens. destruct streams as [|s r]; [congruence|]. cbn [copen].
  set (c := mkCp lex0 0 [] (Some (s, O)) r).
  rewrite (ctokens_values n Hn (S (cmeasure c)) c (open_at 0 (cchunks n c)) ltac:(lia)).
  - rewrite tokens_toks by (apply cchunks_nonempty; assumption). cbn [open_at lx Lex_Model.pos buf chunks app].
    pose proof (cchunks_concat n c Hn) as E. change (cbuf c) with (@nil Z) in E. cbn [app] in E. rewrite E. reflexivity.
  - unfold lexsim. tauto. - reflexivity. - reflexivity.
Qed.

(* ---- the inline image scanner is a byte automaton ---- *)
Definition anext (i : nat) (x : Z) : nat :=
  match i with
  | O => if x =? 69 then 1%nat else O
  | 1%nat => if x =? 73 then 2%nat else O
  | _ => if is_space x then 3%nat else O
  end.
Fixpoint auto (i : nat) (l : list Z) : option (list Z * list Z) :=
  match l with
  | [] => None
  | x :: r => if Nat.eqb (anext i x) 3 then Some ([x], r)
              else match auto (anext i x) r with Some (a, b) => Some (x :: a, b) | None => None end
  end.
Lemma auto_app_E a r : span (fun x => x =? 69) (a ++ r) = (a, r) ->
  auto 0 (a ++ r) = match auto 0 r with Some (x, y) => Some (a ++ x, y) | None => None end.
Proof.
  induction a as [|x a IH]; intros H; cbn [app] in *.
  - destruct (auto 0 r) as [[? ?]|]; reflexivity.
  - cbn [span] in H. cbn [auto anext]. destruct (x =? 69); [discriminate|]. cbn [Nat.eqb].
    destruct (span _ (a ++ r)) as [a' r'] eqn:E. injection H as -> ->. rewrite IH by reflexivity.
    destruct (auto 0 r) as [[? ?]|]; reflexivity.
Qed.
Lemma span_noE b : forall a r rest, span (fun x => x =? 69) b = (a, r) -> r <> [] -> span (fun x => x =? 69) (b ++ rest) = (a, r ++ rest).
Proof. intros a r rest H Hr. apply (span_split _ rest) in H as [H _]. apply H. assumption. Qed.
Lemma span_all b : forall rest, snd (span (fun x => x =? 69) b) = [] -> auto 0 (b ++ rest) = match auto 0 rest with Some (x, y) => Some (b ++ x, y) | None => None end.
Proof.
  induction b as [|x b IH]; intros rest H; cbn [app].
  - destruct (auto 0 rest) as [[? ?]|]; reflexivity.
  - cbn [span] in H. cbn [auto anext]. destruct (x =? 69); [discriminate|]. cbn [Nat.eqb].
    destruct (span _ b) as [a' r'] eqn:E. cbn in H. subst. rewrite IH by reflexivity. destruct (auto 0 rest) as [[? ?]|]; reflexivity.
Qed.

Lemma cahead_fill n c c1 : (0 < n)%nat -> cfill n c = Some c1 -> cahead c1 = cahead c /\ cbuf c1 <> [] /\ clx c1 = clx c.
Proof.
  intros Hn H. pose proof (cfill_spec n c Hn) as F. rewrite H in F.
  destruct (fillbuf (cbuf c) (cchunks n c)) as [[b cs]|] eqn:E; [|contradiction]. destruct F as (F1 & F2 & F3 & F4).
  rewrite <- (cchunks_concat n c1 Hn), <- (cchunks_concat n c Hn), F1, F2. splits; [|assumption|assumption].
  unfold fillbuf in E. destruct (cbuf c) as [|x b']; [destruct (cchunks n c); [discriminate|]; injection E as -> ->; reflexivity|].
  injection E as -> ->. reflexivity.
Qed.
Lemma cahead_fill_none n c : (0 < n)%nat -> cfill n c = None -> cahead c = [].
Proof.
  intros Hn H. pose proof (cfill_spec n c Hn) as F. rewrite H in F. rewrite <- (cchunks_concat n c Hn).
  unfold fillbuf in F. destruct (cbuf c); [|contradiction]. destruct (cchunks n c); [reflexivity|contradiction].
Qed.

Lemma inline_loop_spec n : (0 < n)%nat -> forall f c i data, (i <= 2)%nat -> (length (cahead c) + 1 < f)%nat ->
  match auto i (cahead c) with
  | Some (x, rest) => exists c', inline_loop f n c i data = Ok (data ++ x, c') /\ cahead c' = rest /\ clx c' = clx c
  | None => inline_loop f n c i data = Err PSEOF
  end.
Proof.
  intros Hn. induction f as [|f IH]; intros c i data Hi Hf; [lia|]. cbn [inline_loop].
  replace (Nat.leb i 2) with true by (symmetry; apply Nat.leb_le; assumption).
  destruct (cfill n c) as [c1|] eqn:Ef; [|rewrite (cahead_fill_none n c Hn Ef); reflexivity].
  destruct (cahead_fill n c c1 Hn Ef) as (Ha & Hb & Hl). rewrite <- Ha in *.
  set (tl := match cfp c1 with Some (s, t) => skipn t s | None => [] end ++ concat (cstreams c1)).
  assert (Hc : forall l p b, cahead (mkCp l p b (cfp c1) (cstreams c1)) = b ++ tl) by reflexivity.
  assert (Hc1 : cahead c1 = cbuf c1 ++ tl) by reflexivity. rewrite Hc1 in *.
  destruct i as [|i].
  - destruct (span (fun x => x =? 69) (cbuf c1)) as [a r] eqn:Es. pose proof (span_app _ _ _ _ Es) as Eb.
    destruct r as [|e r].
    + rewrite (span_all (cbuf c1) tl) by (rewrite Es; reflexivity).
      rewrite app_nil_r in Eb. subst a.
      specialize (IH (mkCp (clx c1) (cpos c1 + Z.of_nat (length (cbuf c1))) [] (cfp c1) (cstreams c1)) O (data ++ cbuf c1)).
      rewrite Hc in IH. cbn [app clx] in IH.
      assert (Hlen : (1 <= length (cbuf c1))%nat) by (destruct (cbuf c1); [congruence|cbn; lia]).
      rewrite app_length in Hf. specialize (IH ltac:(lia) ltac:(lia)).
      destruct (auto 0 tl) as [[x rest]|]; [|exact IH]. destruct IH as (c' & I1 & I2 & I3). exists c'. rewrite I1, <- app_assoc.
      splits; [reflexivity|assumption|congruence].
    + assert (He : e = 69).
      { pose proof Es as Es'. clear - Es'. revert a Es'. induction (cbuf c1) as [|x b IHb]; intros a H; cbn [span] in H; [discriminate|].
        destruct (x =? 69) eqn:E; [injection H as <- <- <-; lia|]. destruct (span _ b) as [a' r'] eqn:E2. injection H as <- ->. eapply IHb; reflexivity. }
      subst e. rewrite Eb, <- app_assoc. rewrite auto_app_E.
      2: { rewrite app_assoc, <- Eb. apply (span_noE (cbuf c1) a (69 :: r) tl Es). discriminate. }
      cbn [app auto anext]. change (69 =? 69) with true. cbn [Nat.eqb].
      specialize (IH (mkCp (clx c1) (cpos c1 + Z.of_nat (length a) + 1) r (cfp c1) (cstreams c1)) 1%nat (data ++ a ++ [69]) ltac:(lia)).
      rewrite Hc in IH. cbn [clx] in IH. rewrite Eb, !app_length in Hf. cbn [length] in Hf. rewrite app_length in IH. specialize (IH ltac:(lia)).
      destruct (auto 1 (r ++ tl)) as [[x rest]|]; [|exact IH]. destruct IH as (c' & I1 & I2 & I3). exists c'. rewrite I1, <- !app_assoc.
      splits; [reflexivity|assumption|congruence].
  - destruct (cbuf c1) as [|x b] eqn:Eb; [congruence|].
    assert (Hi' : (if Nat.leb 2 (S i) && is_space x then S (S i) else if Nat.ltb (S i) 2 && (x =? 73) then S (S i) else O) = anext (S i) x).
    { destruct i as [|[|i]]; [| |lia]; cbn; destruct (is_space x), (x =? 73); reflexivity. }
    rewrite Hi'. cbn [app auto].
    assert (Han : (anext (S i) x <= 3)%nat) by (destruct i as [|i]; cbn; [destruct (x =? 73)|destruct (is_space x)]; lia).
    destruct (Nat.eqb_spec (anext (S i) x) 3) as [E3|E3].
    + rewrite E3. exists (mkCp (clx c1) (cpos c1 + 1) b (cfp c1) (cstreams c1)). rewrite Hc. splits; [|reflexivity|exact Hl].
      destruct f as [|f]; [cbn in Hf; lia|]. reflexivity.
    + specialize (IH (mkCp (clx c1) (cpos c1 + 1) b (cfp c1) (cstreams c1)) (anext (S i) x) (data ++ [x]) ltac:(lia)).
      rewrite Hc in IH. cbn [clx app length] in *. specialize (IH ltac:(lia)).
      destruct (auto (anext (S i) x) (b ++ tl)) as [[y rest]|]; [|exact IH]. destruct IH as (c' & I1 & I2 & I3). exists c'.
      rewrite I1, <- app_assoc. splits; [reflexivity|assumption|congruence].
Qed.

(* a payload without EI-and-space, not ending in E or EI *)
Fixpoint arun (i : nat) (d : list Z) : nat := match d with [] => i | x :: r => arun (anext i x) r end.
Lemma auto_payload d tl : forall i, (i <= 2)%nat ->
  (forall a x b, d = a ++ x :: b -> anext (arun i a) x <> 3%nat) ->
  auto i (d ++ tl) = match auto (arun i d) tl with Some (x, y) => Some (d ++ x, y) | None => None end.
Proof.
  induction d as [|x d IH]; intros i Hi H; cbn [app arun].
  - destruct (auto i tl) as [[? ?]|]; reflexivity.
  - cbn [auto]. pose proof (H [] x d eq_refl) as Hx. cbn [arun] in Hx.
    destruct (Nat.eqb_spec (anext i x) 3); [contradiction|].
    assert ((anext i x <= 3)%nat) by (destruct i as [|[|i]]; cbn; [destruct (x =? 69)|destruct (x =? 73)|destruct (is_space x)]; lia).
    rewrite IH; [destruct (auto (arun (anext i x) d) tl) as [[? ?]|]; reflexivity|lia|].
    intros a y b E. subst d. specialize (H (x :: a) y b eq_refl). exact H.
Qed.
Lemma arun_snoc i a x : arun i (a ++ [x]) = anext (arun i a) x.
Proof. revert i. induction a as [|y a IH]; intros i; cbn; [reflexivity|apply IH]. Qed.
Lemma arun_state d : ~ marker_in d ->
  (arun 0 d <= 2)%nat /\ (arun 0 d = 1%nat -> exists a, d = a ++ [69]) /\ (arun 0 d = 2%nat -> exists a, d = a ++ [69; 73]).
Proof.
  induction d as [|x d IH] using rev_ind; intros Hm.
  - cbn. splits; [lia|discriminate|discriminate].
  - assert (Hm' : ~ marker_in d) by (intros (a & w & b & -> & Hw); apply Hm; exists a, w, (b ++ [x]); split; [rewrite <- !app_assoc; reflexivity|assumption]).
    destruct (IH Hm') as (I1 & I2 & I3). rewrite arun_snoc.
    destruct (arun 0 d) as [|[|[|k]]] eqn:E; cbn [anext].
    + destruct (Z.eqb_spec x 69) as [->|]; splits; try lia; intros; try discriminate. exists d. reflexivity.
    + destruct (Z.eqb_spec x 73) as [->|]; splits; try lia; intros; try discriminate. destruct (I2 eq_refl) as (a & ->). exists a. rewrite <- app_assoc. reflexivity.
    + destruct (is_space x) eqn:Ex; splits; try lia; intros; try discriminate.
      exfalso. apply Hm. destruct (I3 eq_refl) as (a & ->). exists a, x, []. split; [rewrite <- app_assoc; reflexivity|assumption].
    + lia.
Qed.
Lemma auto_marker d w rest : ~ marker_in d -> (forall a, d <> a ++ [69]) -> (forall a, d <> a ++ [69; 73]) -> is_space w = true ->
  auto 0 (d ++ [69; 73; w] ++ rest) = Some (d ++ [69; 73; w], rest).
Proof.
  intros Hm H1 H2 Hw. rewrite auto_payload; [|lia|].
  - destruct (arun_state d Hm) as (A1 & A2 & A3).
    destruct (arun 0 d) as [|[|[|k]]] eqn:E; [|destruct (A2 eq_refl) as (a & Ha); exfalso; apply (H1 a Ha)|destruct (A3 eq_refl) as (a & Ha); exfalso; apply (H2 a Ha)|lia].
    cbn. rewrite Hw. reflexivity.
  - intros a x b E. assert (Hm' : ~ marker_in (a ++ [x])).
    { intros (u & v & z & Hu & Hv). apply Hm. exists u, v, (z ++ b). split; [|assumption].
      rewrite E. change (x :: b) with ([x] ++ b). rewrite app_assoc, Hu, <- !app_assoc. reflexivity. }
    destruct (arun_state _ Hm') as (A1 & _ & _). rewrite arun_snoc in A1. lia.
Qed.

(* stripping the end of line *)
Lemma sub_eol_cons2 c c2 r2 : sub_eol (c :: c2 :: r2) =
  if (c =? 13) && (c2 =? 10) && dollar r2 then sub_eol r2
  else if is_eol c && dollar (c2 :: r2) then sub_eol (c2 :: r2) else c :: sub_eol (c2 :: r2).
Proof. reflexivity. Qed.
Lemma sub_eol_spec d nl : strips d nl -> (nl = [] -> d <> []) -> sub_eol (d ++ nl) = d.
Proof.
  intros H Hn. induction d as [|c d IH].
  - destruct H as [->|[->|[[->| ->] _]]]; try reflexivity.
  - assert (Hs : d <> [] -> strips d nl).
    { intros _. destruct H as [->|[->|[H1 H2]]]; [left; reflexivity|right; left; reflexivity|right; right; split; [assumption|]].
      intros a x E. apply (H2 (c :: a) x). rewrite E. reflexivity. }
    destruct d as [|y d].
    + clear IH Hs. cbn [app]. destruct H as [->|[->|[[->| ->] H2]]].
      * rewrite sub_eol_cons2. cbn. rewrite andb_false_r, andb_false_r. reflexivity.
      * rewrite sub_eol_cons2. cbn. rewrite !andb_false_r. reflexivity.
      * specialize (H2 [] c eq_refl). rewrite sub_eol_cons2. rewrite H2. unfold is_eol in H2. replace (c =? 13) with false by lia. reflexivity.
      * specialize (H2 [] c eq_refl). cbn. rewrite H2. reflexivity.
    + specialize (IH (Hs ltac:(discriminate)) ltac:(intros; discriminate)).
      cbn [app] in *. rewrite sub_eol_cons2, IH.
      assert (D1 : (y =? 10) && dollar (d ++ nl) = false).
      { destruct H as [->|[->|[Hnl H2]]].
        - destruct d as [|? [|? ?]]; cbn; rewrite ?andb_false_r; reflexivity.
        - destruct d as [|? [|? ?]]; cbn; rewrite ?andb_false_r; reflexivity.
        - destruct d as [|z d].
          + specialize (H2 [c] y eq_refl). unfold is_eol in H2. replace (y =? 10) with false by lia. reflexivity.
          + destruct d as [|z2 d].
            * specialize (H2 [c; y] z eq_refl). unfold is_eol in H2. destruct Hnl as [->| ->]; cbn; [rewrite ?andb_false_r; reflexivity|].
              replace (z =? 10) with false by lia. apply andb_false_r.
            * cbn. rewrite ?andb_false_r; reflexivity. }
      assert (D2 : dollar (y :: d ++ nl) = false).
      { destruct H as [->|[->|[Hnl H2]]].
        - destruct d as [|? ?]; reflexivity.
        - destruct d as [|? ?]; reflexivity.
        - destruct d as [|z d]; [|reflexivity]. specialize (H2 [c] y eq_refl). unfold is_eol in H2. destruct Hnl as [->| ->]; [reflexivity|].
          cbn. lia. }
      rewrite <- andb_assoc, D1, D2, !andb_false_r. reflexivity.
Qed.

Lemma firstn_app_len {A} (a b : list A) k : (k = length a + 0)%nat -> firstn k (a ++ b) = a.
Proof. intros ->. rewrite Nat.add_0_r, firstn_app, firstn_all, Nat.sub_diag. cbn. apply app_nil_r. Qed.

Lemma get_inline_lemma n c s t pos d nl w rest : (0 < n)%nat -> cfp c = Some (s, t) ->
  skipn (Z.to_nat pos) s ++ concat (cstreams c) = (d ++ nl) ++ [69; 73; w] ++ rest ->
  ~ marker_in (d ++ nl) -> (forall a, d ++ nl <> a ++ [69]) -> (forall a, d ++ nl <> a ++ [69; 73]) -> is_space w = true ->
  strips d nl -> (nl = [] -> d <> []) ->
  exists c', get_inline_data n c pos = Ok (d, c') /\ cahead c' = rest /\ clx c' = lex0 /\
    inline_loop (2 * length (cahead (mkCp lex0 pos [] (Some (s, Z.to_nat pos)) (cstreams c))) + 4) n (mkCp lex0 pos [] (Some (s, Z.to_nat pos)) (cstreams c)) 0 [] = Ok ((d ++ nl) ++ [69; 73; w], c').
Proof.
  intros Hn Hfp Hdata Hm H1 H2 Hw Hst Hne. unfold get_inline_data, cseek. rewrite Hfp. cbn [bind].
  set (c0 := mkCp lex0 pos [] (Some (s, Z.to_nat pos)) (cstreams c)).
  assert (Ha : cahead c0 = (d ++ nl) ++ [69; 73; w] ++ rest) by exact Hdata.
  pose proof (inline_loop_spec n Hn (2 * length (cahead c0) + 4) c0 0 [] ltac:(lia) ltac:(lia)) as L.
  assert (Hau := auto_marker (d ++ nl) w rest Hm H1 H2 Hw). rewrite <- Ha in Hau. rewrite Hau in L. destruct L as (c' & L1 & L2 & L3).
  exists c'. rewrite L1. cbn [bind app]. splits; [|assumption|assumption|reflexivity].
  assert (Hlen : (length ((d ++ nl) ++ [69%Z; 73%Z; w]) - 3 = length (d ++ nl) + 0)%nat) by (rewrite app_length; cbn [length]; lia).
  rewrite (firstn_app_len _ _ _ Hlen), (sub_eol_spec d nl Hst Hne). reflexivity.
Qed.

(* ---- a content made of one stream: exact positions ---- *)
Lemma at_point_ahead s k c : at_point s k c -> cahead c = skipn k s.
Proof. intros (t & H1 & H2 & _ & _ & _ & H5). unfold cahead. rewrite H1, H2. cbn. rewrite app_nil_r. assumption. Qed.
Lemma at_point_fill n s k c c1 : (0 < n)%nat -> at_point s k c -> cfill n c = Some c1 -> at_point s k c1 /\ clx c1 = clx c /\ cbuf c1 <> [].
Proof.
  intros Hn (t & H1 & H2 & H3 & H4 & H0 & H5) H. unfold cfill in H. destruct (cbuf c) as [|x b] eqn:Eb.
  - rewrite H1, H2 in H. cbn [open_next] in H. destruct (firstn n (skipn t s)) as [|y b] eqn:Ef; [discriminate|].
    injection H as <-. cbn [length] in H4. rewrite Nat.add_0_r in H4. subst t. split; [|split; [reflexivity|discriminate]].
    assert (Hl : length (y :: b) = Nat.min n (length (skipn k s))) by (rewrite <- Ef; apply firstn_length).
    exists (k + length (y :: b))%nat. cbn [cfp cstreams cpos cbuf]. splits; try reflexivity; [rewrite skipn_length in Hl; lia|].
    rewrite (Nat.add_comm k), <- skipn_skipn, <- Ef.
    replace (length (firstn n (skipn k s))) with (length (y :: b)) by (rewrite Ef; reflexivity). rewrite Hl.
    destruct (Nat.le_gt_cases n (length (skipn k s))) as [Hle|Hle].
    + rewrite Nat.min_l by assumption. apply firstn_skipn.
    + rewrite Nat.min_r by lia. rewrite skipn_all, firstn_all2, app_nil_r by lia. reflexivity.
  - injection H as <-. split; [|split; [reflexivity|rewrite Eb; discriminate]]. exists t. rewrite Eb. cbn in *. splits; assumption.
Qed.
Lemma at_point_move s k c a b l : at_point s k c -> cbuf c = a ++ b ->
  at_point s (k + length a) (mkCp l (cpos c + Z.of_nat (length a)) b (cfp c) (cstreams c)).
Proof.
  intros (t & H1 & H2 & H3 & H4 & H0 & H5) E. exists t. cbn. rewrite H1, H2, H3. rewrite E in *. rewrite app_length in H4.
  splits; try reflexivity; try lia. rewrite (Nat.add_comm k), <- skipn_skipn, <- H5, <- app_assoc. symmetry. apply skipn_before. reflexivity.
Qed.
Lemma at_point_open s : at_point s 0 (mkCp lex0 0 [] (Some (s, O)) []).
Proof. exists O. splits; cbn; try reflexivity. lia. Qed.

Lemma ctoken_exact n s : (0 < n)%nat -> forall f c k, at_point s k c ->
  match cnexttoken_loop f n c with
  | (Ok t, c') => nexttoken_loop f (clx c) (cpos c) (cbuf c) (cchunks n c) = (Ok t, mkParser (clx c') (cpos c') (cbuf c') (cchunks n c')) /\
                  exists k', at_point s k' c'
  | (Err e, _) => fst (nexttoken_loop f (clx c) (cpos c) (cbuf c) (cchunks n c)) = Err e
  end.
Proof.
  intros Hn. induction f as [|f IH]; intros c k Hk; [reflexivity|]. cbn [cnexttoken_loop nexttoken_loop].
  pose proof (cfill_spec n c Hn) as HF. destruct (cfill n c) as [c1|] eqn:Ef; destruct (fillbuf (cbuf c) (cchunks n c)) as [[b cs]|]; try contradiction; [|reflexivity].
  destruct HF as (H1 & H2 & H3 & H4). destruct (at_point_fill n s k c c1 Hn Hk Ef) as (Hk1 & _ & Hne).
  assert (Ep : cpos c1 = cpos c) by (destruct Hk as (? & _ & _ & -> & _), Hk1 as (? & _ & _ & -> & _); reflexivity).
  rewrite H1, H3, Ep. destruct (parse_func (clx c) (cpos c) b) as [[[l1 t1] r1]|e1] eqn:Epf; [|reflexivity].
  destruct (parse_func_dec _ _ _ _ _ _ H4 Epf) as (_ & Hle & (a & Ha)).
  assert (Hm : at_point s (k + length a) (mkCp l1 (cpos c + Z.of_nat (length b - length r1)) r1 (cfp c1) (cstreams c1))).
  { replace (length b - length r1)%nat with (length a) by (rewrite Ha, app_length; lia). rewrite <- Ep.
    apply at_point_move; [assumption|congruence]. }
  assert (Hcc : cchunks n (mkCp l1 (cpos c + Z.of_nat (length b - length r1)) r1 (cfp c1) (cstreams c1)) = cs) by (rewrite <- H2; reflexivity).
  destruct t1 as [tk|].
  - rewrite Hcc. cbn [clx cpos cbuf]. split; [reflexivity|]. eexists; exact Hm.
  - specialize (IH _ _ Hm). rewrite Hcc in IH. cbn [clx cpos cbuf] in IH. exact IH.
Qed.
Lemma ctokens_exact n s : (0 < n)%nat -> forall m c k, (cmeasure c < m)%nat -> at_point s k c ->
  ctokens n c = tokens (mkParser (clx c) (cpos c) (cbuf c) (cchunks n c)).
Proof.
  intros Hn. induction m as [|m IH]; intros c k Hm Hk; [lia|]. rewrite (ctokens_next n c Hn).
  pose proof (cnexttoken_dec n c Hn) as D. unfold cnexttoken in *.
  pose proof (ctoken_exact n s Hn (lex_fuel (length (cahead c))) c k Hk) as X.
  set (p := mkParser (clx c) (cpos c) (cbuf c) (cchunks n c)).
  assert (Hne : nonempty (chunks p)) by (apply cchunks_nonempty; assumption).
  set (g := S (measure_ (lx p) (length (buf p ++ concat (chunks p))))).
  pose proof (nexttoken_flat (lex_fuel (length (cahead c))) (lx p) (pos p) (buf p) (chunks p) g Hne) as F.
  rewrite <- (cchunks_concat n c Hn) in F at 1. specialize (F (measure_fuel _ _) ltac:(unfold g; lia)).
  rewrite (tokens_flat p g Hne ltac:(unfold g; lia)). cbn [p lx Lex_Model.pos buf chunks] in F |- *.
  destruct (cnexttoken_loop _ n c) as [[tk|e] c'].
  - destruct X as (X & (k' & Hk')). rewrite X in F. destruct F as (F1 & F2 & F3). cbn [lx Lex_Model.pos buf chunks] in *.
    rewrite (F3 g ltac:(unfold g, p; cbn [lx buf chunks]; lia)).
    rewrite (IH c' k' ltac:(lia) Hk'). rewrite (tokens_flat (mkParser (clx c') (cpos c') (cbuf c') (cchunks n c')) g F1); [reflexivity|].
    unfold g, p. cbn [lx buf chunks] in *. lia.
  - destruct (nexttoken_loop _ _ _ _ _) as [r p']. cbn [fst] in X. subst r. rewrite F. reflexivity.
Qed.
Lemma ctokens_toks n s k c : (0 < n)%nat -> at_point s k c -> ctokens n c = toks (clx c) (Z.of_nat k) (skipn k s).
Proof.
  intros Hn Hk. rewrite (ctokens_exact n s Hn (S (cmeasure c)) c k ltac:(lia) Hk).
  rewrite tokens_toks by (apply cchunks_nonempty; assumption). cbn [lx Lex_Model.pos buf chunks].
  rewrite (cchunks_concat n c Hn), (at_point_ahead s k c Hk). destruct Hk as (t & _ & _ & -> & _). reflexivity.
Qed.

Lemma inline_loop_point n s : (0 < n)%nat -> forall f c i data k r c', at_point s k c -> inline_loop f n c i data = Ok (r, c') ->
  exists k', at_point s k' c'.
Proof.
  intros Hn. induction f as [|f IH]; intros c i data k r c' Hk H; cbn [inline_loop] in H; [discriminate|].
  destruct (Nat.leb i 2); [|injection H as <- <-; exists k; assumption].
  destruct (cfill n c) as [c1|] eqn:Ef; [|discriminate]. destruct (at_point_fill n s k c c1 Hn Hk Ef) as (Hk1 & _ & _).
  destruct i as [|i].
  - destruct (span _ (cbuf c1)) as [a q] eqn:Es. pose proof (span_app _ _ _ _ Es) as Eb. destruct q as [|e q].
    + eapply IH; [|exact H]. rewrite app_nil_r in Eb. apply (at_point_move s k c1 a []); [assumption|rewrite app_nil_r; assumption].
    + eapply IH; [|exact H]. replace (cpos c1 + Z.of_nat (length a) + 1) with (cpos c1 + Z.of_nat (length (a ++ [e]))) by (rewrite app_length; cbn [length]; lia).
      apply (at_point_move s k c1 (a ++ [e]) q); [assumption|rewrite <- app_assoc; assumption].
  - destruct (cbuf c1) as [|x b] eqn:Eb; [discriminate|]. eapply IH; [|exact H].
    apply (at_point_move s k c1 [x] b); assumption.
Qed.
