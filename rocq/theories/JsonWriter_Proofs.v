From Verif Require Export Markup_Model Markup_Spec Markup_Proofs.
From Coq Require Import String.
Open Scope Z_scope.
Import ListNotations.

Ltac zcases c := destruct c as [|?p|?p]; try reflexivity; try congruence;
  repeat match goal with
         | q : positive |- _ => destruct q; try reflexivity; try congruence
         end.

Definition jw (w : list Z) : Prop := forallb json_white w = true.
Lemma jskip_white w : forall x, jw w -> jskip (w ++ x) = jskip x.
Proof.
  unfold jw. induction w as [|c w IH]; intros x H; [reflexivity|]. cbn [forallb] in H. apply andb_true_iff in H as [H1 H2].
  cbn [app jskip]. rewrite H1. apply IH. exact H2.
Qed.
Lemma jskip_all w : jw w -> jskip w = [].
Proof. intro H. rewrite <- (app_nil_r w), jskip_white by exact H. reflexivity. Qed.
Lemma jskip_stop c x : json_white c = false -> jskip (c :: x) = c :: x.
Proof. intro H. cbn [jskip]. rewrite H. reflexivity. Qed.
Lemma jw_app x y : jw x -> jw y -> jw (x ++ y).
Proof. unfold jw. rewrite forallb_app. intros -> ->. reflexivity. Qed.
Lemma jw_times n d : jw d -> jw (times n d).
Proof. intro H. induction n; cbn [times]; [reflexivity|apply jw_app; assumption]. Qed.

(* ---------- strings ---------- *)
Lemma jstr_plain c r : 32 <= c -> c <> 34 -> c <> 92 -> jstr (c :: r) = cons_str c (jstr r).
Proof.
  intros H1 H2 H3. assert (E : (if (c <? 32) || (c =? 92) then None else cons_str c (jstr r)) = cons_str c (jstr r)).
  { replace ((c <? 32) || (c =? 92)) with false by lia. reflexivity. }
  rewrite <- E. clear E H1. zcases c.
Qed.
Lemma jstr_quoted x : forall r, Forall plain_char x -> jstr (replace1 34 [92; 34] x ++ 34 :: r) = Some (x, r).
Proof.
  induction x as [|c x IH]; intros r H; [reflexivity|]. inversion H as [|? ? [C1 C2] H']; subst.
  rewrite replace1_cons, replace1_one, <- app_assoc. destruct (Z.eqb_spec c 34) as [->|H34].
  - cbn [app]. change (jstr (92 :: 34 :: ?y)) with (cons_str 34 (jstr y)).
    rewrite (IH r H'). reflexivity.
  - cbn [app]. rewrite jstr_plain, (IH r H') by (lia || assumption). reflexivity.
Qed.
Lemma jstr_key x : forall r, Forall (fun c => plain_char c /\ c <> 34) x -> jstr (x ++ 34 :: r) = Some (x, r).
Proof.
  induction x as [|c x IH]; intros r H; [reflexivity|]. inversion H as [|? ? [[C1 C2] C3] H']; subst.
  cbn [app]. rewrite jstr_plain, (IH r H') by (lia || assumption). reflexivity.
Qed.

Lemma hexdigit v : 0 <= v < 16 ->
  is_hex (if v <? 10 then 48 + v else 87 + v) = true /\ hexval (if v <? 10 then 48 + v else 87 + v) = v.
Proof.
  intro H. destruct (v <? 10) eqn:E; unfold is_hex, hexval, is_digit.
  - replace ((48 <=? 48 + v) && (48 + v <=? 57)) with true by lia. split; [reflexivity|lia].
  - replace ((48 <=? 87 + v) && (87 + v <=? 57)) with false by lia.
    replace ((65 <=? 87 + v) && (87 + v <=? 70)) with false by lia.
    replace ((97 <=? 87 + v) && (87 + v <=? 102)) with true by lia. split; [reflexivity|lia].
Qed.
Lemma hex4_unit c : 0 <= c < 65536 ->
  exists a b d e, hex4 c = [a; b; d; e] /\ hex_unit a b d e = Some c.
Proof.
  intro H. unfold hex4. cbv zeta.
  pose proof (hexdigit (c / 4096 mod 16) (Z.mod_pos_bound _ 16 eq_refl)) as [A1 A2].
  pose proof (hexdigit (c / 256 mod 16) (Z.mod_pos_bound _ 16 eq_refl)) as [B1 B2].
  pose proof (hexdigit (c / 16 mod 16) (Z.mod_pos_bound _ 16 eq_refl)) as [C1 C2].
  pose proof (hexdigit (c mod 16) (Z.mod_pos_bound _ 16 eq_refl)) as [D1 D2].
  do 4 eexists. split; [reflexivity|]. unfold hex_unit. rewrite A1, B1, C1, D1, A2, B2, C2, D2. cbn [andb]. f_equal.
  pose proof (Z.div_mod c 16 ltac:(lia)). pose proof (Z.div_mod (c / 16) 16 ltac:(lia)).
  pose proof (Z.div_mod (c / 256) 16 ltac:(lia)).
  assert (c / 16 / 16 = c / 256) by (rewrite Z.div_div by lia; reflexivity).
  assert (c / 256 / 16 = c / 4096) by (rewrite Z.div_div by lia; reflexivity).
  assert (c / 4096 mod 16 = c / 4096) by (apply Z.mod_small; split; [apply Z.div_pos; lia|apply Z.div_lt_upper_bound; lia]).
  lia.
Qed.
Lemma jstr_u a b c d u r : hex_unit a b c d = Some u -> ~ (55296 <= u <= 56319) ->
  jstr (92 :: 117 :: a :: b :: c :: d :: r) = cons_str u (jstr r).
Proof.
  intros H1 H2.
  change (jstr (92 :: 117 :: a :: b :: c :: d :: r)) with
    (match hex_unit a b c d with
      | None => None
      | Some u =>
          if (55296 <=? u) && (u <=? 56319) then
            match r with
            | 92 :: 117 :: a' :: b' :: c' :: d' :: r' =>
                match hex_unit a' b' c' d' with
                | Some w => if (56320 <=? w) && (w <=? 57343)
                            then cons_str (65536 + (u - 55296) * 1024 + (w - 56320)) (jstr r') else cons_str u (jstr r)
                | None => None
                end
            | _ => cons_str u (jstr r)
            end
          else cons_str u (jstr r)
      end).
  rewrite H1. replace ((55296 <=? u) && (u <=? 56319)) with false by lia. reflexivity.
Qed.
Lemma jstr_uu a b c d u a' b' c' d' w r : hex_unit a b c d = Some u -> 55296 <= u <= 56319 ->
  hex_unit a' b' c' d' = Some w -> 56320 <= w <= 57343 ->
  jstr (92 :: 117 :: a :: b :: c :: d :: 92 :: 117 :: a' :: b' :: c' :: d' :: r) =
  cons_str (65536 + (u - 55296) * 1024 + (w - 56320)) (jstr r).
Proof.
  intros H1 H2 H3 H4.
  change (jstr (92 :: 117 :: a :: b :: c :: d :: 92 :: 117 :: a' :: b' :: c' :: d' :: r)) with
    (match hex_unit a b c d with
      | None => None
      | Some u =>
          if (55296 <=? u) && (u <=? 56319) then
                match hex_unit a' b' c' d' with
                | Some w => if (56320 <=? w) && (w <=? 57343)
                            then cons_str (65536 + (u - 55296) * 1024 + (w - 56320)) (jstr r)
                            else cons_str u (jstr (92 :: 117 :: a' :: b' :: c' :: d' :: r))
                | None => None
                end
          else cons_str u (jstr (92 :: 117 :: a' :: b' :: c' :: d' :: r))
      end).
  rewrite H1. replace ((55296 <=? u) && (u <=? 56319)) with true by lia.
  rewrite H3. replace ((56320 <=? w) && (w <=? 57343)) with true by lia. reflexivity.
Qed.
Lemma jstr_dump_char c r : scalar c -> jstr (dump_char c ++ r) = cons_str c (jstr r).
Proof.
  intro H. unfold dump_char.
  destruct (Z.eqb_spec c 34) as [->|]; [reflexivity|]. destruct (Z.eqb_spec c 92) as [->|]; [reflexivity|].
  destruct (Z.eqb_spec c 10) as [->|]; [reflexivity|]. destruct (Z.eqb_spec c 13) as [->|]; [reflexivity|].
  destruct (Z.eqb_spec c 9) as [->|]; [reflexivity|]. destruct (Z.eqb_spec c 12) as [->|]; [reflexivity|].
  destruct (Z.eqb_spec c 8) as [->|]; [reflexivity|].
  destruct ((32 <=? c) && (c <? 127)) eqn:E; [cbn [app]; apply jstr_plain; lia|].
  unfold scalar in H. destruct (c <? 65536) eqn:E2.
  - destruct (hex4_unit c ltac:(lia)) as (x1 & x2 & x3 & x4 & Hh & Hu). rewrite Hh.
    apply (jstr_u x1 x2 x3 x4 c r Hu). lia.
  - cbv zeta. set (v := c - 65536).
    assert (Hd : v = 1024 * (v / 1024) + v mod 1024) by (apply Z.div_mod; lia).
    assert (Hm : 0 <= v mod 1024 < 1024) by (apply Z.mod_pos_bound; lia).
    assert (Hq : 0 <= v / 1024 < 1024) by lia.
    destruct (hex4_unit (55296 + v / 1024) ltac:(lia)) as (x1 & x2 & x3 & x4 & Hh & Hu).
    destruct (hex4_unit (56320 + v mod 1024) ltac:(lia)) as (y1 & y2 & y3 & y4 & Hh' & Hu'). rewrite Hh, Hh'.
    rewrite <- !app_assoc. cbn [app].
    etransitivity; [exact (jstr_uu x1 x2 x3 x4 _ y1 y2 y3 y4 _ r Hu ltac:(lia) Hu' ltac:(lia))|].
    f_equal. lia.
Qed.
Lemma jstr_dump x : forall r, Forall scalar x -> jstr (flat_map dump_char x ++ 34 :: r) = Some (x, r).
Proof.
  induction x as [|c x IH]; intros r H; [reflexivity|]. inversion H; subst.
  cbn [flat_map]. rewrite <- app_assoc, jstr_dump_char, (IH r) by assumption. reflexivity.
Qed.

(* ---------- numbers ---------- *)
Lemma span_app p x y : forallb p x = true -> match y with c :: _ => p c = false | [] => True end -> span p (x ++ y) = (x, y).
Proof.
  induction x as [|c x IH]; intros H Hy.
  - cbn [app]. destruct y as [|d y]; [reflexivity|]. cbn [span]. rewrite Hy. reflexivity.
  - cbn [forallb] in H. apply andb_true_iff in H as [H1 H2]. cbn [app span]. rewrite H1, (IH H2 Hy). reflexivity.
Qed.
Lemma span_spec p x : forall a b, span p x = (a, b) -> x = a ++ b /\ forallb p a = true.
Proof.
  induction x as [|c x IH]; intros a b H; cbn [span] in H; [injection H as <- <-; auto|].
  destruct (p c) eqn:E; [|injection H as <- <-; auto].
  destruct (span p x) as [a' b']. injection H as <- <-. destruct (IH a' b' eq_refl) as [-> F]. cbn. rewrite E, F. auto.
Qed.
Lemma digit_number x : forallb is_digit x = true -> forallb number_char x = true.
Proof. rewrite !forallb_forall. intros H c Hc. unfold number_char. rewrite (H c Hc). reflexivity. Qed.
Lemma json_exp_chars x : json_exp x = true -> forallb number_char x = true.
Proof.
  destruct x as [|e r]; [reflexivity|]. cbn [json_exp forallb]. intro H. apply andb_true_iff in H as [H1 H2].
  assert (E : number_char e = true) by (unfold number_char; apply orb_true_iff in H1 as [H1|H1]; rewrite H1, ?orb_true_r; reflexivity).
  rewrite E. cbn [andb]. destruct r as [|s r']; [reflexivity|].
  destruct ((s =? 43) || (s =? 45)) eqn:Es.
  - destruct r' as [|d r']; [discriminate|]. cbn [forallb].
    rewrite (digit_number (d :: r') H2 : forallb number_char (d :: r') = true) || (pose proof (digit_number (d :: r') H2) as Q).
    cbn [forallb] in Q. rewrite Q. unfold number_char. apply orb_true_iff in Es as [Es|Es]; rewrite Es, ?orb_true_r; reflexivity.
  - apply (digit_number (s :: r') H2).
Qed.
Lemma json_frac_chars x : json_frac x = true -> forallb number_char x = true.
Proof.
  intro H. destruct x as [|c r]; [reflexivity|]. destruct (Z.eq_dec c 46) as [->|Hc].
  - unfold json_frac in H. destruct (span is_digit r) as [d r'] eqn:E. destruct (span_spec _ _ _ _ E) as [-> F].
    destruct d as [|d0 d]; [discriminate|]. change (forallb number_char (46 :: (d0 :: d) ++ r')) with (forallb number_char ((d0 :: d) ++ r')).
    rewrite forallb_app, (digit_number _ F), (json_exp_chars _ H). reflexivity.
  - apply json_exp_chars. rewrite <- H. symmetry. unfold json_frac. clear H. zcases c.
Qed.
Lemma json_int_chars x : json_int x = true -> forallb number_char x = true.
Proof.
  intro H. destruct x as [|c r]; [reflexivity|]. destruct (Z.eq_dec c 48) as [->|Hc].
  - cbn [forallb]. change (number_char 48) with true. exact (json_frac_chars r H).
  - assert (E : json_int (c :: r) = is_digit c && (let '(_, r) := span is_digit (c :: r) in json_frac r)).
    { unfold json_int. clear H. zcases c. }
    rewrite E in H. apply andb_true_iff in H as [H1 H2].
    destruct (span is_digit (c :: r)) as [d r'] eqn:S. destruct (span_spec _ _ _ _ S) as [-> F].
    rewrite forallb_app, (digit_number _ F), (json_frac_chars _ H2). reflexivity.
Qed.
Definition minus_or_digit (c : Z) : Prop := c = 45 \/ 48 <= c <= 57.
Lemma json_int_first x : json_int x = true -> exists c r, x = c :: r /\ 48 <= c <= 57.
Proof.
  destruct x as [|c r]; [discriminate|]. intro H. exists c, r. split; [reflexivity|].
  destruct (Z.eq_dec c 48) as [->|Hc]; [lia|].
  assert (E : json_int (c :: r) = is_digit c && (let '(_, r) := span is_digit (c :: r) in json_frac r)).
  { unfold json_int. clear H. zcases c. }
  rewrite E in H. apply andb_true_iff in H as [H1 _]. unfold is_digit in H1. lia.
Qed.
Lemma json_number_chars x : json_number x = true ->
  forallb number_char x = true /\ exists c r, x = c :: r /\ minus_or_digit c.
Proof.
  intro H. destruct x as [|c r]; [discriminate|]. destruct (Z.eq_dec c 45) as [->|Hc].
  - split; [|exists 45, r; split; [reflexivity|left; reflexivity]].
    cbn [forallb]. change (number_char 45) with true. exact (json_int_chars r H).
  - assert (E : json_number (c :: r) = json_int (c :: r)) by (unfold json_number; clear H; zcases c).
    rewrite E in H. split; [exact (json_int_chars _ H)|]. destruct (json_int_first _ H) as (d & r' & [= <- <-] & Hd).
    exists c, r. split; [reflexivity|]. right. exact Hd.
Qed.

(* ---------- values, elements, members ---------- *)
Definition ends (r : list Z) : Prop := match r with c :: _ => number_char c = false | [] => True end.
Definition starts (T : list Z) : Prop := exists c r, T = c :: r /\ json_white c = false /\ c <> 93 /\ c <> 125.
Definition parses (T : list Z) (v : json) : Prop :=
  starts T /\
  exists K, forall k w rest, (K <= k)%nat -> jw w -> ends rest -> jvalue k (w ++ T ++ rest) = Some (v, rest).

Lemma jskip_starts w T rest : jw w -> starts T -> jskip (w ++ T ++ rest) = T ++ rest.
Proof.
  intros Hw (c & r & -> & Hc & _). rewrite jskip_white by exact Hw. apply jskip_stop. exact Hc.
Qed.
Lemma parses_number t : json_number t = true -> parses t (JNum t).
Proof.
  intro H. destruct (json_number_chars t H) as (Hc & c & r & -> & Hm). split.
  - exists c, r. splits; [reflexivity| | |]; unfold minus_or_digit, json_white in *; lia.
  - exists 1%nat. intros [|k] w rest Hk Hw He; [lia|].
    cbn [jvalue]. rewrite jskip_white by exact Hw. cbn [app]. rewrite jskip_stop by (unfold minus_or_digit, json_white in *; lia).
    assert (S : span number_char (c :: r ++ rest) = (c :: r, rest)) by (apply (span_app number_char (c :: r) rest Hc He)).
    assert (G : (let '(n, r0) := span number_char (c :: r ++ rest) in if json_number n then Some (JNum n, r0) else None)
                = Some (JNum (c :: r), rest)) by (rewrite S, H; reflexivity).
    clear S H Hc He. destruct Hm as [->|Hm]; [exact G|].
    assert (D : c = 48 \/ c = 49 \/ c = 50 \/ c = 51 \/ c = 52 \/ c = 53 \/ c = 54 \/ c = 55 \/ c = 56 \/ c = 57) by lia.
    repeat (destruct D as [->|D]; [exact G|]). subst c. exact G.
Qed.
Lemma parses_string T x : (forall r, jstr (T ++ r) = Some (x, r)) -> parses (34 :: T) (JStr x).
Proof.
  intro H. split.
  - exists 34, T. splits; [reflexivity|reflexivity|discriminate|discriminate].
  - exists 1%nat. intros [|k] w rest Hk Hw He; [lia|].
    cbn [jvalue]. rewrite jskip_white by exact Hw. cbn [app]. rewrite jskip_stop by reflexivity.
    rewrite H. reflexivity.
Qed.

Inductive Elems : list Z -> list json -> Prop :=
| El_one w T v w' : jw w -> jw w' -> parses T v -> Elems (w ++ T ++ w' ++ [93]) [v]
| El_cons w T v x l : jw w -> parses T v -> Elems x l -> Elems (w ++ T ++ 44 :: x) (v :: l).
Inductive Mems : list Z -> list (list Z * json) -> Prop :=
| Me_one w K n w1 T v w' : jw w -> jw w1 -> jw w' -> (forall r, jstr (K ++ r) = Some (n, r)) -> parses T v ->
    Mems (w ++ 34 :: K ++ 58 :: w1 ++ T ++ w' ++ [125]) [(n, v)]
| Me_cons w K n w1 T v x l : jw w -> jw w1 -> (forall r, jstr (K ++ r) = Some (n, r)) -> parses T v -> Mems x l ->
    Mems (w ++ 34 :: K ++ 58 :: w1 ++ T ++ 44 :: x) ((n, v) :: l).

Lemma white_ends w c r : jw w -> number_char c = false -> ends (w ++ c :: r).
Proof.
  intros Hw Hc. destruct w as [|d w]; [exact Hc|]. unfold jw in Hw. cbn [forallb] in Hw. apply andb_true_iff in Hw as [Hd _].
  unfold ends. cbn [app]. unfold json_white in Hd. unfold number_char, is_digit. lia.
Qed.

Lemma elems_parse x l : Elems x l -> exists K, forall k rest, (K <= k)%nat -> jelements k (x ++ rest) = Some (l, rest).
Proof.
  induction 1 as [w T v w' Hw Hw' [Hs [K HT]]|w T v x l Hw [Hs [K HT]] _ [K' IH]].
  - exists (S K). intros [|k] rest Hk; [lia|]. cbn [jelements]. rewrite <- !app_assoc. cbn [app].
    rewrite (HT k w (w' ++ 93 :: rest)); [|lia|exact Hw|apply white_ends; [exact Hw'|reflexivity]].
    rewrite jskip_white by exact Hw'. rewrite jskip_stop by reflexivity. reflexivity.
  - exists (S (K + K')). intros [|k] rest Hk; [lia|]. cbn [jelements]. rewrite <- !app_assoc. cbn [app].
    rewrite (HT k w (44 :: x ++ rest)); [|lia|exact Hw|reflexivity].
    rewrite jskip_stop by reflexivity. rewrite IH by lia. reflexivity.
Qed.
Lemma mems_parse x l : Mems x l -> exists K, forall k rest, (K <= k)%nat -> jmembers k (x ++ rest) = Some (l, rest).
Proof.
  induction 1 as [w N n w1 T v w' Hw Hw1 Hw' HN [Hs [K HT]]|w N n w1 T v x l Hw Hw1 HN [Hs [K HT]] _ [K' IH]].
  - exists (S K). intros [|k] rest Hk; [lia|]. cbn [jmembers].
    repeat (rewrite <- !app_assoc; cbn [app]).
    rewrite jskip_white by exact Hw. rewrite jskip_stop by reflexivity. rewrite HN. rewrite jskip_stop by reflexivity.
    rewrite (HT k w1 (w' ++ 125 :: rest)); [|lia|exact Hw1|apply white_ends; [exact Hw'|reflexivity]].
    rewrite jskip_white by exact Hw'. rewrite jskip_stop by reflexivity. reflexivity.
  - exists (S (K + K')). intros [|k] rest Hk; [lia|]. cbn [jmembers].
    repeat (rewrite <- !app_assoc; cbn [app]).
    rewrite jskip_white by exact Hw. rewrite jskip_stop by reflexivity. rewrite HN. rewrite jskip_stop by reflexivity.
    rewrite (HT k w1 (44 :: x ++ rest)); [|lia|exact Hw1|reflexivity].
    rewrite jskip_stop by reflexivity. rewrite IH by lia. reflexivity.
Qed.
Lemma elems_first x l : Elems x l -> forall rest, exists c r, jskip (x ++ rest) = c :: r /\ c <> 93.
Proof.
  intros H rest. inversion H as [w T v w' Hw Hw' [(c & r & -> & Hc & H93 & _) _]|w T v y l' Hw [(c & r & -> & Hc & H93 & _) _] _]; subst.
  - exists c, (r ++ w' ++ [93] ++ rest). split; [|exact H93]. rewrite <- !app_assoc. rewrite jskip_white by exact Hw.
    cbn [app]. apply jskip_stop. exact Hc.
  - exists c, (r ++ 44 :: y ++ rest). split; [|exact H93]. rewrite <- !app_assoc. rewrite jskip_white by exact Hw.
    cbn [app]. apply jskip_stop. exact Hc.
Qed.
Lemma mems_first x l : Mems x l -> forall rest, exists r, jskip (x ++ rest) = 34 :: r.
Proof.
  intros H rest. inversion H; subst; eexists; rewrite <- app_assoc, jskip_white by assumption; reflexivity.
Qed.
Lemma parses_array x l : Elems x l -> parses (91 :: x) (JArr l).
Proof.
  intro H. split.
  - exists 91, x. splits; [reflexivity|reflexivity|discriminate|discriminate].
  - destruct (elems_parse x l H) as [K HK]. exists (S K). intros [|k] w rest Hk Hw _; [lia|].
    cbn [jvalue]. rewrite jskip_white by exact Hw. cbn [app]. rewrite jskip_stop by reflexivity.
    destruct (elems_first x l H rest) as (c & r & E & Hc). rewrite E.
    assert (G : match jelements k (x ++ rest) with Some (l, r') => Some (JArr l, r') | None => None end = Some (JArr l, rest))
      by (rewrite HK by lia; reflexivity).
    clear E. zcases c; try exact G.
Qed.
Lemma parses_array_nil w : jw w -> parses (91 :: w ++ [93]) (JArr []).
Proof.
  intro H. split.
  - exists 91, (w ++ [93]). splits; [reflexivity|reflexivity|discriminate|discriminate].
  - exists 1%nat. intros [|k] w' rest Hk Hw _; [lia|].
    cbn [jvalue]. rewrite jskip_white by exact Hw. cbn [app]. rewrite jskip_stop by reflexivity.
    rewrite <- app_assoc, jskip_white by exact H. reflexivity.
Qed.
Lemma parses_object x l : Mems x l -> parses (123 :: x) (JObj l).
Proof.
  intro H. split.
  - exists 123, x. splits; [reflexivity|reflexivity|discriminate|discriminate].
  - destruct (mems_parse x l H) as [K HK]. exists (S K). intros [|k] w rest Hk Hw _; [lia|].
    cbn [jvalue]. rewrite jskip_white by exact Hw. cbn [app]. rewrite jskip_stop by reflexivity.
    destruct (mems_first x l H rest) as (r & E). rewrite E. rewrite HK by lia. reflexivity.
Qed.
Lemma parses_object_nil w : jw w -> parses (123 :: w ++ [125]) (JObj []).
Proof.
  intro H. split.
  - exists 123, (w ++ [125]). splits; [reflexivity|reflexivity|discriminate|discriminate].
  - exists 1%nat. intros [|k] w' rest Hk Hw _; [lia|].
    cbn [jvalue]. rewrite jskip_white by exact Hw. cbn [app]. rewrite jskip_stop by reflexivity.
    rewrite <- app_assoc, jskip_white by exact H. reflexivity.
Qed.

(* ---------- json.dumps ---------- *)
Section pyval_ind2.
  Variable P : pyval -> Prop.
  Hypothesis HS : forall x, P (PyStr x).
  Hypothesis HN : forall x, P (PyNum x).
  Hypothesis HL : forall l, Forall P l -> P (PyList l).
  Hypothesis HD : forall l, Forall (fun p => P (snd p)) l -> P (PyDict l).
  Fixpoint pyval_ind2 (v : pyval) : P v :=
    match v with
    | PyStr x => HS x
    | PyNum x => HN x
    | PyList l => HL l ((fix go (l : list pyval) : Forall P l :=
                           match l with [] => Forall_nil P | c :: r => Forall_cons c (pyval_ind2 c) (go r) end) l)
    | PyDict l => HD l ((fix go (l : list (list Z * pyval)) : Forall (fun p => P (snd p)) l :=
                           match l with [] => Forall_nil _ | c :: r => Forall_cons c (pyval_ind2 (snd c)) (go r) end) l)
    end.
End pyval_ind2.

Lemma dumps_elems l : forall T v, parses T v -> Forall (fun p => parses (dumps p) (of_py p)) l -> forall w, jw w ->
  Elems (w ++ join (bs ", ") (T :: map dumps l) ++ [93]) (v :: map of_py l).
Proof.
  induction l as [|a l IH]; intros T v HT Hl w Hw.
  - cbn [map join]. apply (El_one w T v [] Hw eq_refl HT).
  - inversion Hl as [|? ? Ha Hl']; subst. cbn [map].
    change (join (bs ", ") (T :: dumps a :: map dumps l)) with (T ++ 44 :: 32 :: join (bs ", ") (dumps a :: map dumps l)).
    rewrite <- app_assoc. cbn [app]. apply El_cons; [exact Hw|exact HT|]. apply (IH (dumps a) (of_py a) Ha Hl' [32] eq_refl).
Qed.
Lemma dump_str_cons x : dump_str x = 34 :: flat_map dump_char x ++ [34].
Proof. reflexivity. Qed.
Lemma jstr_dump_str x r : Forall scalar x -> jstr ((flat_map dump_char x ++ [34]) ++ r) = Some (x, r).
Proof. intro H. rewrite <- app_assoc. apply jstr_dump. exact H. Qed.
Definition dump_pair (p : list Z * pyval) : list Z := dump_str (fst p) ++ bs ": " ++ dumps (snd p).
Definition pair_of (p : list Z * pyval) := (fst p, of_py (snd p)).
Lemma dumps_mems l : forall p, Forall (fun p => Forall scalar (fst p) /\ parses (dumps (snd p)) (of_py (snd p))) (p :: l) ->
  forall w, jw w -> Mems (w ++ join (bs ", ") (map dump_pair (p :: l)) ++ [125]) (map pair_of (p :: l)).
Proof.
  induction l as [|a l IH]; intros p Hl w Hw; inversion Hl as [|? ? [Hk Hp] Hl']; subst.
  - cbn [map join]. unfold dump_pair. rewrite dump_str_cons. change (bs ": ") with [58; 32].
    replace (w ++ (((34 :: flat_map dump_char (fst p) ++ [34]) ++ [58; 32] ++ dumps (snd p))) ++ [125])
      with (w ++ 34 :: (flat_map dump_char (fst p) ++ [34]) ++ 58 :: [32] ++ dumps (snd p) ++ [] ++ [125])
      by (cbn [app]; rewrite <- !app_assoc; reflexivity).
    apply Me_one; try reflexivity; try assumption. intro r. apply jstr_dump_str. exact Hk.
  - specialize (IH a Hl' [32] eq_refl).
    set (J := join (bs ", ") (map dump_pair (a :: l))) in *.
    assert (E : join (bs ", ") (map dump_pair (p :: a :: l)) = dump_pair p ++ 44 :: 32 :: J) by reflexivity.
    rewrite E. change (map pair_of (p :: a :: l)) with (pair_of p :: map pair_of (a :: l)).
    unfold dump_pair. rewrite dump_str_cons. change (bs ": ") with [58; 32].
    replace (w ++ ((((34 :: flat_map dump_char (fst p) ++ [34]) ++ [58; 32] ++ dumps (snd p))) ++ 44 :: 32 :: J) ++ [125])
      with (w ++ 34 :: (flat_map dump_char (fst p) ++ [34]) ++ 58 :: [32] ++ dumps (snd p) ++ 44 :: ([32] ++ J ++ [125]))
      by (cbn [app]; repeat (rewrite <- !app_assoc; cbn [app]); reflexivity).
    apply Me_cons; try reflexivity; try assumption. intro r. apply jstr_dump_str. exact Hk.
Qed.
Lemma dumps_parses v : GoodPy v -> parses (dumps v) (of_py v).
Proof.
  revert v. apply (pyval_ind2 (fun v => GoodPy v -> parses (dumps v) (of_py v))).
  - intros x G. inversion G; subst. cbn [dumps of_py]. rewrite dump_str_cons. apply parses_string. intro r. apply jstr_dump_str. assumption.
  - intros x G. inversion G; subst. apply parses_number. assumption.
  - intros l IH G. inversion G as [| |? Hg|]; subst.
    assert (H : Forall (fun p => parses (dumps p) (of_py p)) l) by (apply Forall_forall; intros x Hx; rewrite Forall_forall in IH, Hg; auto).
    destruct l as [|a l]; [exact (parses_array_nil [] eq_refl)|].
    inversion H as [|? ? Ha Hl]; subst. apply (parses_array _ _ (dumps_elems l (dumps a) (of_py a) Ha Hl [] eq_refl)).
  - intros l IH G. inversion G as [| | |? Hg]; subst.
    assert (H : Forall (fun p => Forall scalar (fst p) /\ parses (dumps (snd p)) (of_py (snd p))) l).
    { apply Forall_forall. intros x Hx. rewrite Forall_forall in IH, Hg. destruct (Hg x Hx). auto. }
    destruct l as [|a l]; [exact (parses_object_nil [] eq_refl)|].
    apply (parses_object _ _ (dumps_mems l a H [] eq_refl)).
Qed.

(* ---------- the writer ---------- *)
Section jcall_ind2.
  Variable P : jcall -> Prop.
  Hypothesis HN : forall x, P (JNumber x).
  Hypothesis HS : forall x, P (JString x).
  Hypothesis HP : forall x, P (JPlace x).
  Hypothesis HO : forall l, Forall (fun p => P (snd p)) l -> P (JObject l).
  Hypothesis HA : forall l, Forall (fun p => P (snd p)) l -> P (JArray l).
  Hypothesis HR : P JRaise.
  Fixpoint jcall_ind2 (v : jcall) : P v :=
    let go := fix go (l : list (list Z * jcall)) : Forall (fun p => P (snd p)) l :=
                match l with [] => Forall_nil _ | c :: r => Forall_cons c (jcall_ind2 (snd c)) (go r) end in
    match v with
    | JNumber x => HN x
    | JString x => HS x
    | JPlace x => HP x
    | JObject l => HO l (go l)
    | JArray l => HA l (go l)
    | JRaise => HR
    end.
End jcall_ind2.

Fixpoint told_list (l : list (list Z * jcall)) : list (list Z * json) * bool :=
  match l with
  | [] => ([], false)
  | (_, JRaise) :: _ => ([], true)
  | (k, c) :: r => let '(v, stopped) := told c in
                   if stopped then ([(k, v)], true) else let '(l', stopped') := told_list r in ((k, v) :: l', stopped')
  end.
Lemma told_object l : told (JObject l) = let '(m, s) := told_list l in (JObj m, s).
Proof.
  cbn [told]. match goal with |- match ?G l with _ => _ end = _ => assert (E : forall l, G l = told_list l) end.
  { induction l0 as [|[k c] r IH]; [reflexivity|]. cbn [told_list]. rewrite <- IH. destruct c; reflexivity. }
  rewrite E. reflexivity.
Qed.
Lemma told_array l : told (JArray l) = let '(m, s) := told_list l in (JArr (map snd m), s).
Proof.
  cbn [told]. match goal with |- match ?G l with _ => _ end = _ => assert (E : forall l, G l = told_list l) end.
  { induction l0 as [|[k c] r IH]; [reflexivity|]. cbn [told_list]. rewrite <- IH. destruct c; reflexivity. }
  rewrite E. reflexivity.
Qed.

Definition is_raise (c : jcall) : bool := match c with JRaise => true | _ => false end.
Fixpoint jmem (L : nat) (keys : list (list Z)) (l : list (list Z * jcall)) : list Z * bool :=
  match l with
  | [] => ([], false)
  | (k, c) :: r =>
      if is_raise c then ([], true) else
      let '(v, raised) := jrender L c in
      let '(t, keys') :=
        match c with
        | JObject _ | JArray _ => let '(p, keys') := jprop L keys k [] in (p ++ v, keys')
        | _ => jprop L keys k v
        end in
      if raised then (t, true) else let '(t', raised') := jmem L keys' r in (t ++ t', raised')
  end.
Fixpoint jele (L : nat) (count : nat) (l : list (list Z * jcall)) : list Z * bool :=
  match l with
  | [] => ([], false)
  | (_, c) :: r =>
      if is_raise c then ([], true) else
      let '(v, raised) := jrender L c in
      let t := match c with
               | JObject _ | JArray _ => jelem L count [] ++ v
               | _ => jelem L count v
               end in
      if raised then (t, true) else let '(t', raised') := jele L (S count) r in (t ++ t', raised')
  end.
Lemma jrender_object level l :
  jrender level (JObject l) = let '(t, raised) := jmem (S level) [] l in (bs "{" ++ t ++ jwrite level (bs "}") nl, raised).
Proof.
  cbn [jrender]. match goal with |- match ?G [] l with _ => _ end = _ => assert (E : forall l k, G k l = jmem (S level) k l) end.
  { clear. induction l as [|[k c] r IH]; intro ks; [reflexivity|].
    destruct c; cbn -[jrender jprop jelem]; try reflexivity;
      match goal with |- context [jrender (S level) ?c] => destruct (jrender (S level) c) as [? []] end;
      try match goal with |- context [jprop ?a ?b ?c ?d] => destruct (jprop a b c d) end;
      try reflexivity; rewrite IH; reflexivity. }
  rewrite E. reflexivity.
Qed.
Lemma jrender_array level l :
  jrender level (JArray l) = let '(t, raised) := jele (S level) 0 l in (bs "[" ++ t ++ jwrite level (bs "]") nl, raised).
Proof.
  cbn [jrender]. match goal with |- match ?G _ l with _ => _ end = _ => assert (E : forall l k, G k l = jele (S level) k l) end.
  { clear. induction l as [|[k c] r IH]; intro ks; [reflexivity|].
    destruct c; cbn -[jrender jprop jelem]; try reflexivity;
      match goal with |- context [jrender (S level) ?c] => destruct (jrender (S level) c) as [? []] end;
      try match goal with |- context [jprop ?a ?b ?c ?d] => destruct (jprop a b c d) end;
      try reflexivity; rewrite IH; reflexivity. }
  rewrite E. reflexivity.
Qed.

Definition writes (c : jcall) : Prop := forall level,
  snd (jrender level c) = snd (told c) /\ (is_raise c = false -> parses (fst (jrender level c)) (fst (told c))).

Definition indent (L : nat) : list Z := times L (bs "  ").
Lemma jw_indent L : jw (indent L).
Proof. apply jw_times. reflexivity. Qed.
Definition sep {A} (l : list A) : list Z := match l with [] => [] | _ => [44] end.
(* one property or element, containers included *)
Lemma prop_text L keys k c v : has_key k keys = false ->
  (match c with
   | JObject _ | JArray _ => let '(p, keys') := jprop L keys k [] in (p ++ v, keys')
   | _ => jprop L keys k v
   end) = (sep keys ++ 10 :: indent L ++ 34 :: (k ++ [34]) ++ 58 :: [32] ++ v, k :: keys).
Proof.
  intro H. unfold jprop, jwrite. rewrite H. fold (indent L).
  assert (E : (match keys with [] => nl | _ => bs "," ++ nl end) = sep keys ++ [10]) by (destruct keys; reflexivity).
  rewrite E. change (bs ": ") with [58; 32]. destruct c; cbn [app]; repeat (rewrite <- ?app_assoc; cbn [app]);
    rewrite ?app_nil_r; repeat (rewrite <- ?app_assoc; cbn [app]); reflexivity.
Qed.
Definition csep (n : nat) : list Z := match n with O => [] | _ => [44] end.
Lemma elem_text L n c v :
  (match c with JObject _ | JArray _ => jelem L n [] ++ v | _ => jelem L n v end) = csep n ++ 10 :: indent L ++ v.
Proof.
  unfold jelem, jwrite. fold (indent L).
  assert (E : (match n with O => nl | _ => bs "," ++ nl end) = csep n ++ [10]) by (destruct n; reflexivity).
  rewrite E. destruct c; repeat (rewrite <- ?app_assoc; cbn [app]); rewrite ?app_nil_r; reflexivity.
Qed.

Lemma told_list_cons k c r : is_raise c = false ->
  told_list ((k, c) :: r) = let '(v, stopped) := told c in
    if stopped then ([(k, v)], true) else let '(l', stopped') := told_list r in ((k, v) :: l', stopped').
Proof. destruct c; try discriminate; reflexivity. Qed.
Lemma key_text k : Forall (fun c => plain_char c /\ c <> 34) k -> forall r, jstr ((k ++ [34]) ++ r) = Some (k, r).
Proof. intros H r. rewrite <- app_assoc. apply jstr_key. exact H. Qed.

Lemma jmem_writes L l : forall keys,
  Forall (fun p => writes (snd p)) l -> NoDup (map fst l) ->
  Forall (fun p => Forall (fun c => plain_char c /\ c <> 34) (fst p)) l ->
  Forall (fun p => has_key (fst p) keys = false) l ->
  snd (jmem L keys l) = snd (told_list l) /\
  match fst (told_list l) with
  | [] => fst (jmem L keys l) = []
  | m => exists u, fst (jmem L keys l) = sep keys ++ u /\ forall w, jw w -> Mems (u ++ w ++ [125]) m
  end.
Proof.
  induction l as [|[k c] l IH]; intros keys HW HD HK HN; [split; reflexivity|].
  inversion HW as [|? ? Hc HW']; subst. inversion HK as [|? ? Hk HK']; subst. inversion HN as [|? ? Hn HN']; subst.
  cbn [map] in HD. inversion HD as [|? ? Hni HD']; subst. cbn [fst snd] in *.
  cbn [jmem]. destruct (is_raise c) eqn:Er; [destruct c; try discriminate; split; reflexivity|].
  rewrite told_list_cons by exact Er. destruct (Hc L) as [F P]. specialize (P Er).
  destruct (jrender L c) as [T raised]. destruct (told c) as [v stopped]. cbn [fst snd] in *. subst raised.
  rewrite (prop_text L keys k c T Hn).
  assert (G : Forall (fun p => has_key (fst p) (k :: keys) = false) l).
  { apply Forall_forall. intros p Hp. unfold has_key. cbn [existsb]. rewrite Forall_forall in HN'. fold (has_key (fst p) keys).
    rewrite (HN' p Hp), orb_false_r. apply not_true_is_false. intro E. apply list_eqb_eq in E. apply Hni. rewrite <- E.
    apply in_map. exact Hp. }
  destruct stopped.
  - split; [reflexivity|]. eexists. split; [reflexivity|]. intros w Hw.
    replace ((10 :: indent L ++ 34 :: (k ++ [34]) ++ 58 :: [32] ++ T) ++ w ++ [125])
      with ((10 :: indent L) ++ 34 :: (k ++ [34]) ++ 58 :: [32] ++ T ++ w ++ [125])
      by (repeat (rewrite <- ?app_assoc; cbn [app]); reflexivity).
    apply Me_one; try assumption; [apply (jw_indent L)|reflexivity|apply key_text; exact Hk].
  - specialize (IH (k :: keys) HW' HD' HK' G).
    destruct (jmem L (k :: keys) l) as [t' raised']. destruct (told_list l) as [m stopped']. cbn [fst snd] in *.
    destruct IH as [-> IH]. split; [reflexivity|].
    exists ((10 :: indent L ++ 34 :: (k ++ [34]) ++ 58 :: [32] ++ T) ++ t'). split; [rewrite <- app_assoc; reflexivity|].
    intros w Hw. destruct m as [|p m].
    + subst t'. rewrite app_nil_r.
      replace ((10 :: indent L ++ 34 :: (k ++ [34]) ++ 58 :: [32] ++ T) ++ w ++ [125])
      with ((10 :: indent L) ++ 34 :: (k ++ [34]) ++ 58 :: [32] ++ T ++ w ++ [125])
      by (repeat (rewrite <- ?app_assoc; cbn [app]); reflexivity).
      apply Me_one; try assumption; [apply (jw_indent L)|reflexivity|apply key_text; exact Hk].
    + destruct IH as (u & -> & Hu). cbn [sep].
      replace (((10 :: indent L ++ 34 :: (k ++ [34]) ++ 58 :: [32] ++ T) ++ [44] ++ u) ++ w ++ [125])
      with ((10 :: indent L) ++ 34 :: (k ++ [34]) ++ 58 :: [32] ++ T ++ 44 :: (u ++ w ++ [125]))
      by (repeat (rewrite <- ?app_assoc; cbn [app]); reflexivity).
      apply Me_cons; try assumption; [apply (jw_indent L)|reflexivity|apply key_text; exact Hk|apply Hu; exact Hw].
Qed.
Lemma jele_writes L l : forall n,
  Forall (fun p => writes (snd p)) l ->
  snd (jele L n l) = snd (told_list l) /\
  match fst (told_list l) with
  | [] => fst (jele L n l) = []
  | m => exists u, fst (jele L n l) = csep n ++ u /\ forall w, jw w -> Elems (u ++ w ++ [93]) (map snd m)
  end.
Proof.
  induction l as [|[k c] l IH]; intros n HW; [split; reflexivity|].
  inversion HW as [|? ? Hc HW']; subst. cbn [fst snd] in *.
  cbn [jele]. destruct (is_raise c) eqn:Er; [destruct c; try discriminate; split; reflexivity|].
  rewrite told_list_cons by exact Er. destruct (Hc L) as [F P]. specialize (P Er).
  destruct (jrender L c) as [T raised]. destruct (told c) as [v stopped]. cbn [fst snd] in *. subst raised.
  rewrite (elem_text L n c T). destruct stopped.
  - split; [reflexivity|]. exists (10 :: indent L ++ T). split; [reflexivity|]. intros w Hw.
    replace ((10 :: indent L ++ T) ++ w ++ [93]) with ((10 :: indent L) ++ T ++ w ++ [93])
      by (repeat (rewrite <- ?app_assoc; cbn [app]); reflexivity).
    cbn [map snd]. apply El_one; try assumption. apply (jw_indent L).
  - specialize (IH (S n) HW'). cbv zeta.
    destruct (jele L (S n) l) as [t' raised']. destruct (told_list l) as [m stopped']. cbn [fst snd] in *.
    destruct IH as [-> IH]. split; [reflexivity|].
    exists ((10 :: indent L ++ T) ++ t'). split; [rewrite <- app_assoc; reflexivity|].
    intros w Hw. cbn [map snd]. destruct m as [|p m].
    + subst t'. rewrite app_nil_r.
      replace ((10 :: indent L ++ T) ++ w ++ [93]) with ((10 :: indent L) ++ T ++ w ++ [93])
        by (repeat (rewrite <- ?app_assoc; cbn [app]); reflexivity).
      cbn [map]. apply El_one; try assumption. apply (jw_indent L).
    + destruct IH as (u & -> & Hu). cbn [csep].
      replace (((10 :: indent L ++ T) ++ [44] ++ u) ++ w ++ [93]) with ((10 :: indent L) ++ T ++ 44 :: (u ++ w ++ [93]))
        by (repeat (rewrite <- ?app_assoc; cbn [app]); reflexivity).
      apply El_cons; try assumption; [apply (jw_indent L)|apply Hu; exact Hw].
Qed.

Lemma good_writes c : GoodJ c -> writes c.
Proof.
  revert c. apply (jcall_ind2 (fun c => GoodJ c -> writes c)).
  - intros t G level. inversion G; subst. split; [reflexivity|]. intros _. apply parses_number. assumption.
  - intros x G level. inversion G; subst. split; [reflexivity|]. intros _. cbn [jrender told fst]. unfold jstring_text. cbn [app].
    apply parses_string. intro r. rewrite <- app_assoc. apply jstr_quoted. assumption.
  - intros v G level. inversion G; subst. split; [reflexivity|]. intros _. apply dumps_parses. assumption.
  - intros l IH G level. inversion G as [| | |? HD HG| |]; subst.
    assert (W : Forall (fun p => writes (snd p)) l).
    { apply Forall_forall. intros p Hp. rewrite Forall_forall in IH, HG. destruct (HG p Hp). auto. }
    assert (K : Forall (fun p => Forall (fun c => plain_char c /\ c <> 34) (fst p)) l).
    { apply Forall_forall. intros p Hp. rewrite Forall_forall in HG. destruct (HG p Hp). auto. }
    destruct (jmem_writes (S level) l [] W HD K) as [F M]; [apply Forall_forall; reflexivity|].
    rewrite jrender_object, told_object. destruct (jmem (S level) [] l) as [t raised]. destruct (told_list l) as [m stopped].
    cbn [fst snd] in *. split; [exact F|]. intros _. unfold jwrite. fold (indent level).
    change (bs "{") with [123]. change (bs "}") with [125]. unfold nl. destruct m as [|p m].
    + subst t. cbn [app]. change (10 :: indent level ++ [125]) with ((10 :: indent level) ++ [125]).
      apply parses_object_nil. apply (jw_indent level).
    + destruct M as (u & -> & Hu). cbn [sep app]. apply parses_object.
      change (10 :: indent level ++ [125]) with ((10 :: indent level) ++ [125]). apply Hu. apply (jw_indent level).
  - intros l IH G level. inversion G as [| | | |? HG|]; subst.
    assert (W : Forall (fun p => writes (snd p)) l).
    { apply Forall_forall. intros p Hp. rewrite Forall_forall in IH, HG. auto. }
    destruct (jele_writes (S level) l 0%nat W) as [F M].
    rewrite jrender_array, told_array. destruct (jele (S level) 0 l) as [t raised]. destruct (told_list l) as [m stopped].
    cbn [fst snd] in *. split; [exact F|]. intros _. unfold jwrite. fold (indent level).
    change (bs "[") with [91]. change (bs "]") with [93]. unfold nl. destruct m as [|p m].
    + subst t. cbn [app]. change (10 :: indent level ++ [93]) with ((10 :: indent level) ++ [93]).
      apply parses_array_nil. apply (jw_indent level).
    + destruct M as (u & -> & Hu). cbn [csep app]. apply parses_array.
      change (10 :: indent level ++ [93]) with ((10 :: indent level) ++ [93]). apply Hu. apply (jw_indent level).
  - intros _ level. split; [reflexivity|]. discriminate.
Qed.

Lemma parses_text T v : parses T v -> JsonText T v.
Proof.
  intros [_ [K H]]. exists K, []. split; [|reflexivity].
  specialize (H K [] [] (Nat.le_refl K) eq_refl Logic.I). cbn [app] in H. rewrite app_nil_r in H. exact H.
Qed.
Lemma json_file_good l : GoodJ (JObject l) ->
  snd (json_file l) = snd (told (JObject l)) /\ JsonText (fst (json_file l)) (fst (told (JObject l))).
Proof.
  intro G. destruct (good_writes _ G 0%nat) as [F P]. split; [exact F|]. apply parses_text. apply P. reflexivity.
Qed.

(* the reader's answer does not depend on the bound *)
Lemma reader_mono k :
  (forall x r, jvalue k x = Some r -> jvalue (S k) x = Some r) /\
  (forall x r, jmembers k x = Some r -> jmembers (S k) x = Some r) /\
  (forall x r, jelements k x = Some r -> jelements (S k) x = Some r).
Proof.
  induction k as [|k (IV & IM & IE)]; [splits; intros; discriminate|]. split; [|split]; intros x r H.
  - remember (S k) as n eqn:En. cbn [jvalue]. rewrite En in H. cbn [jvalue] in H.
    destruct (jskip x) as [|c y]; [discriminate|].
    destruct (Z.eq_dec c 123) as [->|Ho]; [|destruct (Z.eq_dec c 91) as [->|Ha]].
    + destruct (jskip y) as [|d z] eqn:Ey; [destruct (jmembers k y) as [[l r']|] eqn:E; [|discriminate]; rewrite (IM _ _ E); exact H|].
      destruct (Z.eq_dec d 125) as [->|Hd]; [exact H|].
      assert (H' : match jmembers k y with Some (l, r') => Some (JObj l, r') | None => None end = Some r)
        by (rewrite <- H; clear - Hd; zcases d).
      assert (G : match jmembers n y with Some (l, r') => Some (JObj l, r') | None => None end = Some r)
        by (destruct (jmembers k y) as [[l r']|] eqn:E; [|discriminate]; rewrite (IM _ _ E); exact H').
      rewrite <- G. clear - Hd. zcases d.
    + destruct (jskip y) as [|d z] eqn:Ey; [destruct (jelements k y) as [[l r']|] eqn:E; [|discriminate]; rewrite (IE _ _ E); exact H|].
      destruct (Z.eq_dec d 93) as [->|Hd]; [exact H|].
      assert (H' : match jelements k y with Some (l, r') => Some (JArr l, r') | None => None end = Some r)
        by (rewrite <- H; clear - Hd; zcases d).
      assert (G : match jelements n y with Some (l, r') => Some (JArr l, r') | None => None end = Some r)
        by (destruct (jelements k y) as [[l r']|] eqn:E; [|discriminate]; rewrite (IE _ _ E); exact H').
      rewrite <- G. clear - Hd. zcases d.
    + rewrite <- H. clear - Ho Ha. zcases c.
  - remember (S k) as n eqn:En. cbn [jmembers]. rewrite En in H. cbn [jmembers] in H.
    destruct (jskip x) as [|c x1]; [discriminate|].
    destruct (Z.eq_dec c 34) as [->|Hc]; [|exfalso; revert H; zcases c].
    destruct (jstr x1) as [[s r1]|]; [|discriminate].
    destruct (jskip r1) as [|c x2]; [discriminate|].
    destruct (Z.eq_dec c 58) as [->|Hc]; [|exfalso; revert H; zcases c].
    destruct (jvalue k x2) as [[v r3]|] eqn:E; [|discriminate]. apply IV in E. rewrite E.
    destruct (jskip r3) as [|c x4]; [discriminate|].
    destruct (Z.eq_dec c 44) as [->|Hc].
    + destruct (jmembers k x4) as [[l r5]|] eqn:E2; [|discriminate]. apply IM in E2. rewrite E2. exact H.
    + revert H. clear - Hc. zcases c.
  - remember (S k) as n eqn:En. cbn [jelements]. rewrite En in H. cbn [jelements] in H.
    destruct (jvalue k x) as [[v r3]|] eqn:E; [|discriminate]. apply IV in E. rewrite E.
    destruct (jskip r3) as [|c x4]; [discriminate|].
    destruct (Z.eq_dec c 44) as [->|Hc].
    + destruct (jelements k x4) as [[l r5]|] eqn:E2; [|discriminate]. apply IE in E2. rewrite E2. exact H.
    + revert H. clear - Hc. zcases c.
Qed.
Lemma jvalue_more k k' x r : jvalue k x = Some r -> (k <= k')%nat -> jvalue k' x = Some r.
Proof. intros H Hle. induction Hle as [|k' _ IH]; [exact H|]. apply (proj1 (reader_mono k')). exact IH. Qed.
Lemma json_text_unique x v v' : JsonText x v -> JsonText x v' -> v = v'.
Proof.
  intros (k & r & H & _) (k' & r' & H' & _).
  pose proof (jvalue_more _ (k + k')%nat _ _ H ltac:(lia)) as E. pose proof (jvalue_more _ (k + k')%nat _ _ H' ltac:(lia)) as E'.
  rewrite E in E'. injection E' as -> _. reflexivity.
Qed.
