(* Buffering is invisible: lemmas. *)
From Verif Require Import Base Lex_Model.
From Coq Require Import ZifyBool ZifyNat.

Lemma span_app p s : forall a r, span p s = (a, r) -> s = a ++ r.
Proof.
  induction s as [|c s IH]; intros a r H; cbn [span] in H.
  - injection H as <- <-. reflexivity.
  - destruct (p c); [injection H as <- <-; reflexivity|].
    destruct (span p s) as [a' r'] eqn:E. injection H as <- <-. cbn [app]. f_equal. apply IH. reflexivity.
Qed.

Lemma span_split p s2 : forall s1 a r, span p s1 = (a, r) ->
  (r <> [] -> span p (s1 ++ s2) = (a, r ++ s2)) /\
  (r = [] -> a = s1 /\ span p (s1 ++ s2) = let (a2, r2) := span p s2 in (s1 ++ a2, r2)).
Proof.
  induction s1 as [|c s1 IH]; intros a r H; cbn [span app] in *.
  - injection H as <- <-. split; [congruence|]. intros _. split; [reflexivity|]. destruct (span p s2); reflexivity.
  - destruct (p c). { injection H as <- <-. split; [reflexivity|discriminate]. }
    destruct (span p s1) as [a' r'] eqn:E. injection H as <- <-.
    destruct (IH a' r' eq_refl) as [I1 I2]. split; intros Hr.
    + rewrite (I1 Hr). reflexivity.
    + destruct (I2 Hr) as [-> I2']. split; [reflexivity|]. rewrite I2'. destruct (span p s2); reflexivity.
Qed.

Definition weight (m : mode) : nat :=
  match m with MMain => 0 | MLitHex | MWopen | MString1 => 2 | _ => 1 end.
Definition measure_ (l : lex) (n : nat) : nat := (3 * n + weight (mode_ l))%nat.

Ltac inv H := injection H; clear H; intros; subst.

Ltac pf_cases H :=
  repeat match type of H with
  | Ok _ = Ok _ => injection H; clear H; intros; subst
  | Err _ = Ok _ => discriminate H
  | (if ?b then _ else _) = _ => destruct b eqn:?
  | (match ?x with _ => _ end) = _ => destruct x eqn:?
  end.

Lemma span_len p s a r : span p s = (a, r) -> (length a + length r = length s)%nat.
Proof. intros H. apply span_app in H. subst. rewrite app_length. lia. Qed.

Ltac sfx := subst; match goal with
  | |- exists a, ?x = a ++ ?x => exists []; reflexivity
  | |- exists a, ?x ++ ?y = a ++ ?y => exists x; reflexivity
  | |- exists a, ?x ++ ?z :: ?y = a ++ ?y => exists (x ++ [z]); rewrite <- app_assoc; reflexivity
  | |- exists a, ?z :: ?y = a ++ ?y => exists [z]; reflexivity
  | |- exists a, ?x = a ++ [] => exists x; rewrite ?app_nil_r; reflexivity
  end.
Ltac pf_fin E Hs := cbn [mode_ weight length set_mode app_cur set_cur] in *;
  (split; [|split; [try lia|sfx]]); try lia;
  try (subst; rewrite ?app_length, ?app_nil_r in *; cbn [length] in *;
    match goal with H : ?x <> [] |- _ => destruct x; [congruence|cbn [length] in *; lia] end).

(* every step makes progress *)
Lemma parse_func_dec l pos s l' t r : s <> [] -> parse_func l pos s = Ok (l', t, r) ->
  (measure_ l' (length r) < measure_ l (length s))%nat /\ (length r <= length s)%nat /\ exists a, s = a ++ r.
Proof.
  intros Hs H. unfold parse_func in H. unfold measure_.
  destruct l as [m cu cp pa oc hx]. destruct m; cbn [mode_] in H.
  - unfold parse_main in H. destruct (span _ s) as [sp rr] eqn:E. pose proof (span_len _ _ _ _ E) as El.
    apply span_app in E. subst s. rewrite app_length in *.
    destruct rr as [|z rr]; repeat match type of H with (if ?b then _ else _) = _ => destruct b end;
      injection H as <- <- <-; pf_fin E Hs.
  - unfold parse_comment in H. destruct (span _ s) as [sp rr] eqn:E. pose proof (span_len _ _ _ _ E) as El.
    apply span_app in E. subst s. rewrite app_length in *.
    destruct rr as [|z rr]; repeat match type of H with (if ?b then _ else _) = _ => destruct b end;
      injection H as <- <- <-; pf_fin E Hs.
  - unfold parse_literal in H. destruct (span _ s) as [sp rr] eqn:E. pose proof (span_len _ _ _ _ E) as El.
    apply span_app in E. subst s. rewrite app_length in *.
    destruct rr as [|z rr]; repeat match type of H with (if ?b then _ else _) = _ => destruct b end;
      injection H as <- <- <-; pf_fin E Hs.
  - unfold parse_literal_hex in H. destruct s as [|c s]; [congruence|].
    destruct (is_hex c && _) eqn:E1; injection H as <- <- <-.
    + pf_fin E1 Hs.
    + destruct hx; pf_fin E1 Hs.
  - unfold parse_number in H. destruct (span _ s) as [sp rr] eqn:E. pose proof (span_len _ _ _ _ E) as El.
    apply span_app in E. subst s. rewrite app_length in *.
    destruct rr as [|z rr]; repeat match type of H with (if ?b then _ else _) = _ => destruct b end;
      injection H as <- <- <-; pf_fin E Hs.
  - unfold parse_float in H. destruct (span _ s) as [sp rr] eqn:E. pose proof (span_len _ _ _ _ E) as El.
    apply span_app in E. subst s. rewrite app_length in *.
    destruct rr as [|z rr]; repeat match type of H with (if ?b then _ else _) = _ => destruct b end;
      injection H as <- <- <-; pf_fin E Hs.
  - unfold parse_keyword in H. destruct (span _ s) as [sp rr] eqn:E. pose proof (span_len _ _ _ _ E) as El.
    apply span_app in E. subst s. rewrite app_length in *.
    destruct rr as [|z rr]; repeat match type of H with (if ?b then _ else _) = _ => destruct b end;
      injection H as <- <- <-; pf_fin E Hs.
  - unfold parse_string in H. destruct (span _ s) as [sp rr] eqn:E. pose proof (span_len _ _ _ _ E) as El.
    apply span_app in E. subst s. rewrite app_length in *.
    destruct rr as [|z rr]; repeat match type of H with (if ?b then _ else _) = _ => destruct b end;
      injection H as <- <- <-; pf_fin E Hs.
  - unfold parse_string_1 in H. destruct s as [|c s]; [congruence|].
    pf_cases H; pf_fin Hs Hs.
  - unfold parse_wopen in H. destruct s as [|c s]; [congruence|].
    pf_cases H; pf_fin Hs Hs.
  - unfold parse_wclose in H. destruct s as [|c s]; [congruence|].
    pf_cases H; pf_fin Hs Hs.
  - unfold parse_hexstring in H. destruct (span _ s) as [sp rr] eqn:E. pose proof (span_len _ _ _ _ E) as El.
    apply span_app in E. subst s. rewrite app_length in *.
    destruct rr as [|z rr]; repeat match type of H with (if ?b then _ else _) = _ => destruct b end;
      injection H as <- <- <-; pf_fin E Hs.
Qed.

Lemma app_cur_app l a b : app_cur (app_cur l a) b = app_cur l (a ++ b).
Proof. unfold app_cur, set_cur; cbn. rewrite app_assoc. reflexivity. Qed.

(* cutting the input after s1 *)
Definition cut_ok (l : lex) (pos : Z) (s1 s2 : list Z) : Prop :=
  match parse_func l pos s1 with
  | Err e => parse_func l pos (s1 ++ s2) = Err e
  | Ok (l', t, r) =>
      parse_func l pos (s1 ++ s2) = Ok (l', t, r ++ s2) \/
      (r = [] /\ t = None /\ parse_func l pos (s1 ++ s2) = parse_func l' (pos + Z.of_nat (length s1)) s2)
  end.

Lemma parse_func_cut l pos s1 s2 : s1 <> [] -> cut_ok l pos s1 s2.
Proof.
  intros Hs. unfold cut_ok, parse_func. destruct l as [m cu cp pa oc hx]; destruct m; cbn [mode_].
  - unfold parse_main. destruct (span _ s1) as [a r] eqn:E.
    destruct (span_split _ s2 _ _ _ E) as [S1 S2]. destruct r as [|c r].
    + destruct (S2 eq_refl) as [-> S2']. right. split; [reflexivity|]. split; [reflexivity|].
      cbn [mode_]. rewrite S2'. destruct (span _ s2) as [a2 r2]. rewrite app_length.
      replace (pos + Z.of_nat (length s1) + Z.of_nat (length a2)) with (pos + Z.of_nat (length s1 + length a2)) by lia.
      reflexivity.
    + rewrite (S1 ltac:(discriminate)).
      cbn [app]. repeat match goal with |- context [if ?b then _ else _] => destruct b; [left; reflexivity|] end.
      left; reflexivity.
  - unfold parse_comment. destruct (span _ s1) as [a r] eqn:E.
    destruct (span_split _ s2 _ _ _ E) as [S1 S2]. destruct r as [|c r].
    + destruct (S2 eq_refl) as [-> S2']. right. split; [reflexivity|]. split; [reflexivity|].
      rewrite S2'. cbn [mode_ app_cur set_cur]. destruct (span _ s2) as [a2 r2].
      rewrite (app_cur_app (mkLex MComment cu cp pa oc hx) s1 a2). reflexivity.
    + rewrite (S1 ltac:(discriminate)). left; reflexivity.
  - unfold parse_literal. destruct (span _ s1) as [a r] eqn:E.
    destruct (span_split _ s2 _ _ _ E) as [S1 S2]. destruct r as [|c r].
    + destruct (S2 eq_refl) as [-> S2']. right. split; [reflexivity|]. split; [reflexivity|].
      rewrite S2'. cbn [mode_ app_cur set_cur]. destruct (span _ s2) as [a2 r2].
      rewrite (app_cur_app (mkLex MLiteral cu cp pa oc hx) s1 a2). reflexivity.
    + rewrite (S1 ltac:(discriminate)). cbn [app]. destruct (c =? 35); left; reflexivity.
  - unfold parse_literal_hex. destruct s1 as [|c s1]; [congruence|]. cbn [app].
    destruct (is_hex c && _); left; reflexivity.
  - unfold parse_number. destruct (span _ s1) as [a r] eqn:E.
    destruct (span_split _ s2 _ _ _ E) as [S1 S2]. destruct r as [|c r].
    + destruct (S2 eq_refl) as [-> S2']. right. split; [reflexivity|]. split; [reflexivity|].
      rewrite S2'. cbn [mode_ app_cur set_cur]. destruct (span _ s2) as [a2 r2].
      rewrite (app_cur_app (mkLex MNumber cu cp pa oc hx) s1 a2). reflexivity.
    + rewrite (S1 ltac:(discriminate)). cbn [app]. destruct (c =? 46); left; reflexivity.
  - unfold parse_float. destruct (span _ s1) as [a r] eqn:E.
    destruct (span_split _ s2 _ _ _ E) as [S1 S2]. destruct r as [|c r].
    + destruct (S2 eq_refl) as [-> S2']. right. split; [reflexivity|]. split; [reflexivity|].
      rewrite S2'. cbn [mode_ app_cur set_cur]. destruct (span _ s2) as [a2 r2].
      rewrite (app_cur_app (mkLex MFloat cu cp pa oc hx) s1 a2). reflexivity.
    + rewrite (S1 ltac:(discriminate)). left; reflexivity.
  - unfold parse_keyword. destruct (span _ s1) as [a r] eqn:E.
    destruct (span_split _ s2 _ _ _ E) as [S1 S2]. destruct r as [|c r].
    + destruct (S2 eq_refl) as [-> S2']. right. split; [reflexivity|]. split; [reflexivity|].
      rewrite S2'. cbn [mode_ app_cur set_cur]. destruct (span _ s2) as [a2 r2].
      rewrite (app_cur_app (mkLex MKeyword cu cp pa oc hx) s1 a2). reflexivity.
    + rewrite (S1 ltac:(discriminate)). left; reflexivity.
  - unfold parse_string. destruct (span _ s1) as [a r] eqn:E.
    destruct (span_split _ s2 _ _ _ E) as [S1 S2]. destruct r as [|c r].
    + destruct (S2 eq_refl) as [-> S2']. right. split; [reflexivity|]. split; [reflexivity|].
      rewrite S2'. cbn [mode_ app_cur set_cur]. destruct (span _ s2) as [a2 r2].
      rewrite (app_cur_app (mkLex MString cu cp pa oc hx) s1 a2). reflexivity.
    + rewrite (S1 ltac:(discriminate)). cbn [app].
      destruct (c =? 92); [left; reflexivity|]. destruct (c =? 40); [left; reflexivity|].
      destruct (negb _); left; reflexivity.
  - unfold parse_string_1. destruct s1 as [|c s1]; [congruence|]. cbn [app].
    destruct (is_oct c && _); [left; reflexivity|]. cbn [Lex_Model.oct].
    destruct oc; [destruct (esc_string c); left; reflexivity|].
    destruct (_ <? 256); [left; reflexivity|reflexivity].
  - unfold parse_wopen. destruct s1 as [|c s1]; [congruence|]. cbn [app]. destruct (c =? 60); left; reflexivity.
  - unfold parse_wclose. destruct s1 as [|c s1]; [congruence|]. cbn [app]. destruct (c =? 62); left; reflexivity.
  - unfold parse_hexstring. destruct (span _ s1) as [a r] eqn:E.
    destruct (span_split _ s2 _ _ _ E) as [S1 S2]. destruct r as [|c r].
    + destruct (S2 eq_refl) as [-> S2']. right. split; [reflexivity|]. split; [reflexivity|].
      rewrite S2'. cbn [mode_ app_cur set_cur]. destruct (span _ s2) as [a2 r2].
      rewrite (app_cur_app (mkLex MHexString cu cp pa oc hx) s1 a2). reflexivity.
    + rewrite (S1 ltac:(discriminate)). left; reflexivity.
Qed.

(* ---- nexttoken ---- *)
Definition nonempty (cs : list (list Z)) : Prop := Forall (fun c => c <> []) cs.

(* two parsers that have the same bytes still to read *)
Definition same_view (p q : parser) : Prop :=
  lx p = lx q /\ pos p = pos q /\ buf p ++ concat (chunks p) = buf q ++ concat (chunks q).

Lemma nexttoken_canon : forall f1 l pos b cs f2, nonempty cs ->
  (measure_ l (length (b ++ concat cs)) < f1)%nat -> (measure_ l (length (b ++ concat cs)) < f2)%nat ->
  fst (nexttoken_loop f1 l pos b cs) = fst (nexttoken_loop f2 l pos (b ++ concat cs) []) /\
  (forall t, fst (nexttoken_loop f1 l pos b cs) <> Ok t \/
     same_view (snd (nexttoken_loop f1 l pos b cs)) (snd (nexttoken_loop f2 l pos (b ++ concat cs) [])) /\
     nonempty (chunks (snd (nexttoken_loop f1 l pos b cs)))).
Proof.
  induction f1 as [|f1 IH]; intros l p0 b cs f2 Hne H1 H2; [lia|].
  destruct f2 as [|f2]; [lia|]. cbn [nexttoken_loop].
  destruct (fillbuf b cs) as [[b1 cs1]|] eqn:Ef.
  - assert (Hb1 : b1 <> [] /\ b ++ concat cs = b1 ++ concat cs1 /\ nonempty cs1).
    { destruct b as [|x b]; cbn [fillbuf] in Ef.
      - destruct cs as [|c cs]; [discriminate|]. inv Ef. inversion_clear Hne. split; [assumption|]. split; [reflexivity|assumption].
      - inv Ef. split; [discriminate|]. split; [reflexivity|assumption]. }
    destruct Hb1 as (Hb1 & Hcat & Hne1). rewrite Hcat in *. clear Ef Hne b cs Hcat.
    assert (Ef2 : fillbuf (b1 ++ concat cs1) [] = Some (b1 ++ concat cs1, [])).
    { destruct b1; [congruence|reflexivity]. }
    rewrite Ef2. pose proof (parse_func_cut l p0 b1 (concat cs1) Hb1) as Hcut. unfold cut_ok in Hcut.
    destruct (parse_func l p0 b1) as [[[l' t] r]|e] eqn:Ep.
    + destruct (parse_func_dec _ _ _ _ _ _ Hb1 Ep) as (Hdec & Hle & _).
      unfold measure_ in *. rewrite app_length in H1, H2.
      destruct Hcut as [-> | (-> & -> & Hcut)].
      * replace (length (b1 ++ concat cs1) - length (r ++ concat cs1))%nat with (length b1 - length r)%nat
          by (rewrite !app_length; lia).
        destruct t as [t|].
        -- cbn [fst snd]. split; [reflexivity|]. intros t0. right. split; [|exact Hne1].
           split; [reflexivity|]. split; [reflexivity|]. cbn. rewrite app_nil_r. reflexivity.
        -- apply IH; [assumption| |]; rewrite app_length; lia.
      * cbn [length] in Hdec. rewrite Nat.sub_0_r. cbn [app] in *.
        destruct (concat cs1) as [|x rest] eqn:Ecs.
        -- (* nothing follows *)
           rewrite app_nil_r in *. rewrite Ep. cbn [length]. rewrite Nat.sub_0_r.
           specialize (IH l' (p0 + Z.of_nat (length b1)) [] cs1 f2 Hne1). cbn [app] in IH. rewrite Ecs in IH.
           cbn [length] in *. apply IH; lia.
        -- rewrite Hcut.
           specialize (IH l' (p0 + Z.of_nat (length b1)) [] cs1 (S f2) Hne1).
           cbn [app] in IH. rewrite Ecs in IH. specialize (IH ltac:(cbn [length] in *; lia) ltac:(cbn [length] in *; lia)).
           cbn [nexttoken_loop fillbuf] in IH.
           destruct (parse_func l' _ (x :: rest)) as [[[l'' t''] r'']|e] eqn:Ep2.
           ++ assert (Hlen : (length r'' <= length (x :: rest))%nat).
              { apply parse_func_dec in Ep2; [tauto|discriminate]. }
              replace (p0 + Z.of_nat (length b1) + Z.of_nat (length (x :: rest) - length r''))
                with (p0 + Z.of_nat (length (b1 ++ x :: rest) - length r'')) in IH
                by (rewrite app_length; lia).
              exact IH.
           ++ destruct IH as [IH1 _]. cbn [fst] in IH1. cbn [fst]. split; [exact IH1|]. intros tt. left. rewrite IH1. discriminate.
    + rewrite Hcut. split; [reflexivity|]. intros t; left; discriminate.
  - destruct b as [|x b]; [|discriminate]. destruct cs as [|c cs]; [|discriminate].
    cbn. split; [reflexivity|]. intros t. left. discriminate.
Qed.

Lemma measure_fuel l n : (measure_ l n < lex_fuel n)%nat.
Proof. unfold measure_, lex_fuel, weight. destruct (mode_ l); lia. Qed.

Lemma nexttoken_same_lemma p q : nonempty (chunks p) -> nonempty (chunks q) -> same_view p q ->
  fst (nexttoken p) = fst (nexttoken q) /\
  (forall t, fst (nexttoken p) = Ok t ->
     same_view (snd (nexttoken p)) (snd (nexttoken q)) /\
     nonempty (chunks (snd (nexttoken p))) /\ nonempty (chunks (snd (nexttoken q)))).
Proof.
  intros Hp Hq (Hl & Hpos & Hb). unfold nexttoken.
  destruct p as [lp pp bp cp]; destruct q as [lq pq bq cq]; cbn [lx pos buf chunks] in *. subst lq pq.
  rewrite <- !app_length. rewrite Hb.
  set (n := length (bq ++ concat cq)).
  destruct (nexttoken_canon (lex_fuel n) lp pp bp cp (lex_fuel n) Hp) as [A1 A2];
    try (rewrite Hb; apply measure_fuel).
  destruct (nexttoken_canon (lex_fuel n) lp pp bq cq (lex_fuel n) Hq) as [B1 B2];
    try apply measure_fuel.
  rewrite Hb in A1, A2. split; [congruence|].
  intros t Ht. specialize (A2 t). specialize (B2 t). rewrite B1, <- A1 in B2.
  destruct A2 as [A2|[A2 A3]]; [congruence|]. destruct B2 as [B2|[B2 B3]]; [congruence|].
  split; [|split; assumption].
  destruct A2 as (a1&a2&a3). destruct B2 as (b1&b2&b3).
  split; [congruence|]. split; [congruence|]. rewrite a3, b3. reflexivity.
Qed.

(* ---- the whole token sequence ---- *)
Definition opt_list {A} (o : option A) : list A := match o with Some a => [a] | None => [] end.

Fixpoint flat (fuel : nat) (l : lex) (pos : Z) (b : list Z) (cs : list (list Z)) : list (Z * token) * exn :=
  match fuel with
  | O => ([], OutOfFuel)
  | S f =>
      match fillbuf b cs with
      | None => ([], PSEOF)
      | Some (b1, cs1) =>
          match parse_func l pos b1 with
          | Err e => ([], e)
          | Ok (l', t, b2) =>
              let (ts, e) := flat f l' (pos + Z.of_nat (length b1 - length b2)) b2 cs1 in
              (opt_list t ++ ts, e)
          end
      end
  end.

Lemma flat_fuel : forall f1 f2 l pos b cs, nonempty cs ->
  (measure_ l (length (b ++ concat cs)) < f1)%nat -> (measure_ l (length (b ++ concat cs)) < f2)%nat ->
  flat f1 l pos b cs = flat f2 l pos b cs.
Proof.
  induction f1 as [|f1 IH]; intros f2 l p0 b cs Hne H1 H2; [lia|]. destruct f2 as [|f2]; [lia|].
  cbn [flat]. destruct (fillbuf b cs) as [[b1 cs1]|] eqn:Ef; [|reflexivity].
  assert (Hb1 : b1 <> [] /\ b ++ concat cs = b1 ++ concat cs1 /\ nonempty cs1).
  { destruct b as [|x b]; cbn [fillbuf] in Ef.
    - destruct cs as [|c cs]; [discriminate|]. inv Ef. inversion_clear Hne. split; [assumption|]. split; [reflexivity|assumption].
    - inv Ef. split; [discriminate|]. split; [reflexivity|assumption]. }
  destruct Hb1 as (Hb1 & Hcat & Hne1). rewrite Hcat in *.
  destruct (parse_func l p0 b1) as [[[l' t] r]|e] eqn:Ep; [|reflexivity].
  destruct (parse_func_dec _ _ _ _ _ _ Hb1 Ep) as (Hdec & Hle & _). unfold measure_ in *.
  rewrite app_length in H1, H2.
  rewrite (IH f2); [reflexivity|assumption| |]; rewrite app_length; lia.
Qed.

Lemma flat_canon : forall f1 l pos b cs f2, nonempty cs ->
  (measure_ l (length (b ++ concat cs)) < f1)%nat -> (measure_ l (length (b ++ concat cs)) < f2)%nat ->
  flat f1 l pos b cs = flat f2 l pos (b ++ concat cs) [].
Proof.
  induction f1 as [|f1 IH]; intros l p0 b cs f2 Hne H1 H2; [lia|].
  destruct f2 as [|f2]; [lia|]. cbn [flat].
  destruct (fillbuf b cs) as [[b1 cs1]|] eqn:Ef.
  - assert (Hb1 : b1 <> [] /\ b ++ concat cs = b1 ++ concat cs1 /\ nonempty cs1).
    { destruct b as [|x b]; cbn [fillbuf] in Ef.
      - destruct cs as [|c cs]; [discriminate|]. inv Ef. inversion_clear Hne. split; [assumption|]. split; [reflexivity|assumption].
      - inv Ef. split; [discriminate|]. split; [reflexivity|assumption]. }
    destruct Hb1 as (Hb1 & Hcat & Hne1). rewrite Hcat in *. clear Ef Hne b cs Hcat.
    assert (Ef2 : fillbuf (b1 ++ concat cs1) [] = Some (b1 ++ concat cs1, [])).
    { destruct b1; [congruence|reflexivity]. }
    rewrite Ef2. pose proof (parse_func_cut l p0 b1 (concat cs1) Hb1) as Hcut. unfold cut_ok in Hcut.
    destruct (parse_func l p0 b1) as [[[l' t] r]|e] eqn:Ep.
    + destruct (parse_func_dec _ _ _ _ _ _ Hb1 Ep) as (Hdec & Hle & _).
      unfold measure_ in *. rewrite app_length in H1, H2.
      destruct Hcut as [-> | (-> & -> & Hcut)].
      * replace (length (b1 ++ concat cs1) - length (r ++ concat cs1))%nat with (length b1 - length r)%nat
          by (rewrite !app_length; lia).
        rewrite (IH l' _ r cs1 f2); [reflexivity|assumption| |]; rewrite app_length; lia.
      * cbn [length] in Hdec. rewrite Nat.sub_0_r. cbn [app opt_list] in *.
        destruct (concat cs1) as [|x rest] eqn:Ecs.
        -- rewrite app_nil_r in *. rewrite Ep. cbn [length]. rewrite Nat.sub_0_r.
           specialize (IH l' (p0 + Z.of_nat (length b1)) [] cs1 f2 Hne1). cbn [app] in IH. rewrite Ecs in IH.
           cbn [length] in *. rewrite IH by lia. reflexivity.
        -- rewrite Hcut.
           specialize (IH l' (p0 + Z.of_nat (length b1)) [] cs1 (S f2) Hne1).
           cbn [app] in IH. rewrite Ecs in IH. specialize (IH ltac:(cbn [length] in *; lia) ltac:(cbn [length] in *; lia)).
           rewrite IH. cbn [flat fillbuf].
           destruct (parse_func l' _ (x :: rest)) as [[[l'' t''] r'']|e] eqn:Ep2; [|reflexivity].
           assert (Hlen : (length r'' <= length (x :: rest))%nat).
           { apply parse_func_dec in Ep2; [tauto|discriminate]. }
           replace (p0 + Z.of_nat (length b1) + Z.of_nat (length (x :: rest) - length r''))
             with (p0 + Z.of_nat (length (b1 ++ x :: rest) - length r'')) by (rewrite app_length; lia).
           destruct (flat f2 l'' _ r'' []). reflexivity.
    + rewrite Hcut. reflexivity.
  - destruct b as [|x b]; [|discriminate]. destruct cs as [|c cs]; [|discriminate]. reflexivity.
Qed.

(* one call of nexttoken is the first step of the flat loop *)
Lemma nexttoken_flat : forall f l pos b cs g, nonempty cs ->
  (measure_ l (length (b ++ concat cs)) < f)%nat -> (measure_ l (length (b ++ concat cs)) < g)%nat ->
  match nexttoken_loop f l pos b cs with
  | (Ok t, p') => nonempty (chunks p') /\
      (measure_ (lx p') (length (buf p' ++ concat (chunks p'))) < measure_ l (length (b ++ concat cs)))%nat /\
      forall h, (measure_ (lx p') (length (buf p' ++ concat (chunks p'))) < h)%nat ->
      flat g l pos b cs = let (ts, e) := flat h (lx p') (Lex_Model.pos p') (buf p') (chunks p') in (t :: ts, e)
  | (Err e, _) => flat g l pos b cs = ([], e)
  end.
Proof.
  induction f as [|f IH]; intros l p0 b cs g Hne H1 H2; [lia|]. destruct g as [|g]; [lia|].
  cbn [nexttoken_loop flat]. destruct (fillbuf b cs) as [[b1 cs1]|] eqn:Ef; [|reflexivity].
  assert (Hb1 : b1 <> [] /\ b ++ concat cs = b1 ++ concat cs1 /\ nonempty cs1).
  { destruct b as [|x b]; cbn [fillbuf] in Ef.
    - destruct cs as [|c cs]; [discriminate|]. inv Ef. inversion_clear Hne. split; [assumption|]. split; [reflexivity|assumption].
    - inv Ef. split; [discriminate|]. split; [reflexivity|assumption]. }
  destruct Hb1 as (Hb1 & Hcat & Hne1). rewrite Hcat in *.
  destruct (parse_func l p0 b1) as [[[l' t] r]|e] eqn:Ep; [|reflexivity].
  destruct (parse_func_dec _ _ _ _ _ _ Hb1 Ep) as (Hdec & Hle & _). unfold measure_ in *.
  rewrite app_length in H1, H2 |- *.
  destruct t as [t|].
  - cbn [lx buf chunks Lex_Model.pos opt_list app]. split; [assumption|]. split; [rewrite app_length; lia|].
    intros h Hh. rewrite (flat_fuel g h); [reflexivity|assumption| |]; unfold measure_; rewrite ?app_length in *; lia.
  - specialize (IH l' (p0 + Z.of_nat (length b1 - length r)) r cs1 g Hne1).
    rewrite !app_length in IH. specialize (IH ltac:(lia) ltac:(lia)).
    destruct (nexttoken_loop f l' _ r cs1) as [[t|e] p'].
    + destruct IH as (I1 & I2 & I3). split; [assumption|]. split; [lia|]. intros h Hh.
      rewrite (I3 h Hh). destruct (flat h _ _ _ _). reflexivity.
    + rewrite IH. reflexivity.
Qed.

Lemma tokens_loop_flat : forall f p g, nonempty (chunks p) ->
  (measure_ (lx p) (length (buf p ++ concat (chunks p))) < f)%nat ->
  (measure_ (lx p) (length (buf p ++ concat (chunks p))) < g)%nat ->
  tokens_loop f p = flat g (lx p) (pos p) (buf p) (chunks p).
Proof.
  induction f as [|f IH]; intros p g Hne H1 H2; [lia|]. cbn [tokens_loop].
  pose proof (nexttoken_flat (lex_fuel (length (buf p) + length (concat (chunks p)))) (lx p) (pos p) (buf p) (chunks p) g Hne
     ltac:(rewrite app_length; apply measure_fuel) H2) as Hn.
  unfold nexttoken. destruct (nexttoken_loop _ _ _ _ _) as [[t|e] p'].
  - destruct Hn as (N1 & N2 & N3). rewrite (N3 g ltac:(lia)).
    rewrite (IH p' g) by (assumption || lia). reflexivity.
  - rewrite Hn. reflexivity.
Qed.

Lemma tokens_flat p g : nonempty (chunks p) ->
  (measure_ (lx p) (length (buf p ++ concat (chunks p))) < g)%nat ->
  tokens p = flat g (lx p) (pos p) (buf p) (chunks p).
Proof.
  intros Hne Hg. unfold tokens. apply tokens_loop_flat; [assumption| |assumption].
  rewrite app_length. apply measure_fuel.
Qed.

Lemma tokens_same_lemma p q : nonempty (chunks p) -> nonempty (chunks q) -> same_view p q -> tokens p = tokens q.
Proof.
  intros Hp Hq (Hl & Hpos & Hb).
  set (n := length (buf q ++ concat (chunks q))).
  assert (H1 : (measure_ (lx p) (length (buf p ++ concat (chunks p))) < lex_fuel n)%nat) by (rewrite Hb; apply measure_fuel).
  assert (H2 : (measure_ (lx q) (length (buf q ++ concat (chunks q))) < lex_fuel n)%nat) by apply measure_fuel.
  rewrite (tokens_flat p (lex_fuel n) Hp H1), (tokens_flat q (lex_fuel n) Hq H2).
  rewrite (flat_canon _ _ _ _ _ (lex_fuel n) Hp H1 H1), (flat_canon _ _ _ _ _ (lex_fuel n) Hq H2 H2).
  rewrite Hl, Hpos, Hb. reflexivity.
Qed.

(* reading with a given buffer size *)
Lemma chop_spec n : (0 < n)%nat -> forall f data, (length data <= f)%nat ->
  concat (chop f n data) = data /\ nonempty (chop f n data).
Proof.
  intros Hn. induction f as [|f IH]; intros data Hf.
  - destruct data; [|cbn in Hf; lia]. split; [reflexivity|constructor].
  - destruct data as [|x data]; [split; [reflexivity|constructor]|]. cbn [chop concat].
    set (d := x :: data) in *. destruct (IH (skipn n d)) as [I1 I2].
    { rewrite skipn_length. unfold d in *. cbn [length] in *. lia. }
    rewrite I1, firstn_skipn. split; [reflexivity|]. constructor; [|assumption].
    unfold d. destruct n; [lia|]. discriminate.
Qed.

Lemma read_chunks_spec n data : (0 < n)%nat -> concat (read_chunks n data) = data /\ nonempty (read_chunks n data).
Proof. intros Hn. apply chop_spec; [assumption|lia]. Qed.

Lemma tokens_bufsiz_lemma p data n m : (0 < n)%nat -> (0 < m)%nat ->
  tokens (open_at p (read_chunks n data)) = tokens (open_at p (read_chunks m data)).
Proof.
  intros Hn Hm. destruct (read_chunks_spec n data Hn) as [E1 N1]. destruct (read_chunks_spec m data Hm) as [E2 N2].
  apply tokens_same_lemma; [assumption|assumption|]. split; [reflexivity|]. split; [reflexivity|].
  cbn. rewrite E1, E2. reflexivity.
Qed.
