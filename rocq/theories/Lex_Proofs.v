(* Reading any laid-out text gives its tokens: lemmas. *)
From Coq Require Import String.
From Verif Require Import Base Lex_Model Lex_Chunk Lex_Spec.
From Coq Require Import ZifyBool ZifyNat.

Definition toks (l : lex) (pos : Z) (s : list Z) : list (Z * token) * exn :=
  flat (S (measure_ l (length s))) l pos s [].
Definition pre (t : list (Z * token)) (x : list (Z * token) * exn) := (t ++ fst x, snd x).

Lemma toks_nil l pos : toks l pos [] = ([], PSEOF).
Proof. reflexivity. Qed.

Lemma tokens_toks p : nonempty (chunks p) -> tokens p = toks (lx p) (pos p) (buf p ++ concat (chunks p)).
Proof.
  intros H. unfold toks.
  rewrite (tokens_flat p (S (measure_ (lx p) (length (buf p ++ concat (chunks p))))) H) by lia.
  apply flat_canon; [assumption|lia|lia].
Qed.

Lemma toks_cut l pos s1 s2 l' t r : s1 <> [] -> parse_func l pos s1 = Ok (l', t, r) ->
  toks l pos (s1 ++ s2) = pre (opt_list t) (toks l' (pos + Z.of_nat (length s1 - length r)) (r ++ s2)).
Proof.
  intros Hs Hp.
  assert (Hne : nonempty (match s2 with [] => [] | _ => [s2] end)).
  { destruct s2; repeat constructor. discriminate. }
  assert (Hc : concat (match s2 with [] => [] | _ => [s2] end) = s2).
  { destruct s2; cbn; rewrite ?app_nil_r; reflexivity. }
  set (cs := match s2 with [] => [] | _ => [s2] end) in *.
  pose proof (parse_func_dec _ _ _ _ _ _ Hs Hp) as (Hd & _ & _). unfold measure_ in Hd.
  unfold toks. rewrite <- Hc. rewrite <- (flat_canon (S (measure_ l (length (s1 ++ concat cs)))) l pos s1 cs); try lia; [|assumption].
  match goal with |- _ = ?rhs => remember rhs as R eqn:HR end.
  cbn [flat]. destruct s1 as [|x s1]; [congruence|]. cbn [fillbuf]. rewrite Hp.
  rewrite (flat_canon _ l' _ r cs (S (measure_ l' (length (r ++ concat cs))))); [|assumption| |lia].
  - subst R. destruct (flat _ l' _ _ _). reflexivity.
  - unfold measure_. rewrite !app_length. lia.
Qed.

Lemma toks_byte l pos c s l' t : parse_func l pos [c] = Ok (l', t, []) ->
  toks l pos (c :: s) = pre (opt_list t) (toks l' (pos + 1) s).
Proof. intros H. apply (toks_cut l pos [c] s) in H; [exact H|discriminate]. Qed.
Lemma toks_byte0 l pos c s l' t : parse_func l pos [c] = Ok (l', t, [c]) ->
  toks l pos (c :: s) = pre (opt_list t) (toks l' pos (c :: s)).
Proof.
  intros H. apply (toks_cut l pos [c] s) in H; [|discriminate].
  cbn [app length] in H. rewrite Nat.sub_diag, Z.add_0_r in H. exact H.
Qed.
Lemma toks_byteN l pos c s l' : parse_func l pos [c] = Ok (l', None, []) ->
  toks l pos (c :: s) = toks l' (pos + 1) s.
Proof. intros H. rewrite (toks_byte _ _ _ s _ _ H). unfold pre, opt_list; rewrite app_nil_l; symmetry; apply surjective_pairing. Qed.
Lemma toks_byte0N l pos c s l' : parse_func l pos [c] = Ok (l', None, [c]) ->
  toks l pos (c :: s) = toks l' pos (c :: s).
Proof. intros H. rewrite (toks_byte0 _ _ _ s _ _ H). unfold pre, opt_list; rewrite app_nil_l; symmetry; apply surjective_pairing. Qed.

(* ---- byte classes ---- *)
Lemma white_space c : white c <-> is_space c = true.
Proof. unfold white, is_space. lia. Qed.
Lemma eol_is c : eol c <-> is_eol c = true.
Proof. unfold eol, is_eol. lia. Qed.
Lemma delim_iff c : delim c <-> (c = 40 \/ c = 41 \/ c = 60 \/ c = 62 \/ c = 91 \/ c = 93 \/ c = 123 \/ c = 125 \/ c = 47 \/ c = 37).
Proof. unfold delim. cbn [In]. lia. Qed.
Lemma regular_lit c : regular c /\ c <> 35 <-> is_end_literal c = false.
Proof. unfold regular. rewrite delim_iff. unfold white, is_end_literal, is_space. lia. Qed.
Lemma boundary_lit c : white c \/ delim c -> is_end_literal c = true /\ c <> 35.
Proof. rewrite delim_iff. unfold white, is_end_literal, is_space. lia. Qed.
Lemma boundary_num c : white c \/ delim c -> is_digit c = false /\ c <> 46.
Proof. rewrite delim_iff. unfold white, is_digit. lia. Qed.
Lemma hex_is a x : Hex a x -> is_hex a = true /\ hexval a = x /\ 0 <= x <= 15.
Proof. intros []; unfold is_hex, hexval, is_digit; splits; try lia; repeat match goal with |- context [if ?b then _ else _] => destruct b eqn:?; try lia end. Qed.

(* ---- white space and comments ---- *)
Lemma main_white l pos c s : mode_ l = MMain -> white c -> toks l pos (c :: s) = toks l (pos + 1) s.
Proof.
  intros Hm Hw. apply toks_byteN. unfold parse_func. rewrite Hm. unfold parse_main. cbn [span].
  apply white_space in Hw. rewrite Hw. reflexivity.
Qed.

Lemma comment_body body : Forall (fun c => ~ eol c) body -> forall l pos s, mode_ l = MComment ->
  exists l', mode_ l' = MComment /\ toks l pos (body ++ s) = toks l' (pos + Z.of_nat (length body)) s.
Proof.
  induction 1 as [|c body Hc Hb IH]; intros l pos s Hm.
  - exists l. cbn. change (Z.of_nat 0) with 0. rewrite Z.add_0_r. split; [assumption|reflexivity].
  - assert (He : is_eol c = false). { pose proof (eol_is c). destruct (is_eol c); tauto. }
    destruct (IH (app_cur l [c]) (pos + 1) s Hm) as (l' & Hl' & E). exists l'. split; [assumption|].
    cbn [app length]. rewrite (toks_byteN l pos c _ (app_cur l [c])).
    + rewrite E. f_equal. lia.
    + unfold parse_func. rewrite Hm. unfold parse_comment. cbn [span]. rewrite He. reflexivity.
Qed.

Lemma comment_end l pos c s : mode_ l = MComment -> eol c ->
  exists l', mode_ l' = MMain /\ toks l pos (c :: s) = toks l' (pos + 1) s.
Proof.
  intros Hm He. pose proof He as He'. apply eol_is in He'.
  exists (set_mode (app_cur l []) MMain). split; [reflexivity|].
  rewrite (toks_byte0N l pos c s (set_mode (app_cur l []) MMain)).
  - apply main_white; [reflexivity|]. unfold eol in He. unfold white. lia.
  - unfold parse_func. rewrite Hm. unfold parse_comment. cbn [span]. rewrite He'. reflexivity.
Qed.

Lemma sep_lemma g : Sep g -> forall l pos s, mode_ l = MMain ->
  exists l', mode_ l' = MMain /\ toks l pos (g ++ s) = toks l' (pos + Z.of_nat (length g)) s.
Proof.
  induction 1 as [|c g Hc Hg IH|body e g Hb He Hg IH]; intros l pos s Hm.
  - exists l. cbn. change (Z.of_nat 0) with 0. rewrite Z.add_0_r. split; [assumption|reflexivity].
  - destruct (IH l (pos + 1) s Hm) as (l' & Hl' & E). exists l'. split; [assumption|].
    cbn [app length]. rewrite main_white by assumption. rewrite E. f_equal. lia.
  - cbn [app length]. rewrite <- app_assoc. cbn [app].
    rewrite (toks_byteN l pos 37 _ (mkLex MComment [37] pos (paren l) (oct l) (hexd l))).
    2: { unfold parse_func. rewrite Hm. unfold parse_main. cbn. change (Z.of_nat 0) with 0. rewrite Z.add_0_r. reflexivity. }
    destruct (comment_body body Hb (mkLex MComment [37] pos (paren l) (oct l) (hexd l)) (pos + 1) (e :: g ++ s) eq_refl)
      as (l1 & Hl1 & E1). rewrite E1.
    destruct (comment_end l1 (pos + 1 + Z.of_nat (length body)) e (g ++ s) Hl1 He) as (l2 & Hl2 & E2). rewrite E2.
    destruct (IH l2 (pos + 1 + Z.of_nat (length body) + 1) s Hl2) as (l3 & Hl3 & E3).
    exists l3. split; [assumption|]. rewrite E3. f_equal. rewrite app_length. cbn [length]. lia.
Qed.

Lemma last_comment body : Forall (fun c => ~ eol c) body -> forall l pos, mode_ l = MMain ->
  toks l pos (37 :: body) = ([], PSEOF).
Proof.
  intros Hb l pos Hm.
  rewrite (toks_byteN l pos 37 _ (mkLex MComment [37] pos (paren l) (oct l) (hexd l))).
  2: { unfold parse_func. rewrite Hm. unfold parse_main. cbn. change (Z.of_nat 0) with 0. rewrite Z.add_0_r. reflexivity. }
  destruct (comment_body body Hb (mkLex MComment [37] pos (paren l) (oct l) (hexd l)) (pos + 1) [] eq_refl)
      as (l1 & Hl1 & E1). rewrite app_nil_r in E1. rewrite E1. apply toks_nil.
Qed.

(* ---- a first byte that starts a token ---- *)
Definition start_mode (c : Z) : option (mode * list Z) :=
  if c =? 47 then Some (MLiteral, [])
  else if (c =? 45) || (c =? 43) || is_digit c then Some (MNumber, [c])
  else if c =? 46 then Some (MFloat, [c])
  else if is_alpha c then Some (MKeyword, [c])
  else if c =? 60 then Some (MWopen, []) else if c =? 62 then Some (MWclose, []) else None.

Lemma main_start l pos c s m cu : mode_ l = MMain -> start_mode c = Some (m, cu) ->
  toks l pos (c :: s) = toks (mkLex m cu pos (paren l) (oct l) (hexd l)) (pos + 1) s.
Proof.
  intros Hm Hs. apply toks_byteN. unfold parse_func. rewrite Hm. unfold parse_main. cbn [span].
  assert (is_space c = false).
  { unfold start_mode, is_digit, is_alpha in Hs. unfold is_space.
    repeat match type of Hs with (if ?b then _ else _) = _ => destruct b eqn:?; [lia|] end. discriminate. }
  rewrite H. cbn [negb]. cbn [length]. change (Z.of_nat 0) with 0. rewrite Z.add_0_r.
  unfold start_mode in Hs.
  destruct (c =? 47) eqn:E1. { injection Hs as <- <-. replace (c =? 37) with false by lia. reflexivity. }
  destruct ((c =? 45) || (c =? 43) || is_digit c) eqn:E2.
  { injection Hs as <- <-. replace (c =? 37) with false by (unfold is_digit in E2; lia). reflexivity. }
  destruct (c =? 46) eqn:E3. { injection Hs as <- <-. replace (c =? 37) with false by lia. reflexivity. }
  destruct (is_alpha c) eqn:E4.
  { injection Hs as <- <-. replace (c =? 37) with false by (unfold is_alpha in E4; lia). reflexivity. }
  destruct (c =? 60) eqn:E5. { injection Hs as <- <-. replace (c =? 37) with false by lia. replace (c =? 40) with false by lia. reflexivity. }
  destruct (c =? 62) eqn:E6; [|discriminate].
  injection Hs as <- <-. replace (c =? 37) with false by lia. replace (c =? 40) with false by lia. reflexivity.
Qed.

Definition one (pos : Z) (t : token) (x : list (Z * token) * exn) := pre [(pos, t)] x.

(* ---- numbers ---- *)
Lemma number_digits a : Forall digit a -> forall l pos s, mode_ l = MNumber ->
  toks l pos (a ++ s) = toks (app_cur l a) (pos + Z.of_nat (length a)) s.
Proof.
  induction 1 as [|c a Hc Ha IH]; intros l pos s Hm.
  - cbn. change (Z.of_nat 0) with 0. rewrite Z.add_0_r. unfold app_cur, set_cur. rewrite app_nil_r. destruct l; reflexivity.
  - cbn [app length]. rewrite (toks_byteN l pos c _ (app_cur l [c])).
    + rewrite IH by assumption. rewrite app_cur_app. f_equal. lia.
    + unfold parse_func. rewrite Hm. unfold parse_number, is_end_number. cbn [span].
      replace (is_digit c) with true by (unfold digit in Hc; unfold is_digit; lia). reflexivity.
Qed.
Lemma float_digits a : Forall digit a -> forall l pos s, mode_ l = MFloat ->
  toks l pos (a ++ s) = toks (app_cur l a) (pos + Z.of_nat (length a)) s.
Proof.
  induction 1 as [|c a Hc Ha IH]; intros l pos s Hm.
  - cbn. change (Z.of_nat 0) with 0. rewrite Z.add_0_r. unfold app_cur, set_cur. rewrite app_nil_r. destruct l; reflexivity.
  - cbn [app length]. rewrite (toks_byteN l pos c _ (app_cur l [c])).
    + rewrite IH by assumption. rewrite app_cur_app. f_equal. lia.
    + unfold parse_func. rewrite Hm. unfold parse_float, is_end_number. cbn [span].
      replace (is_digit c) with true by (unfold digit in Hc; unfold is_digit; lia). reflexivity.
Qed.

Lemma dec_digit t v : Dec t v -> Forall digit t /\ t <> [].
Proof.
  induction 1 as [d H|t v d H [IH1 IH2] Hd].
  - split; [repeat constructor; unfold digit; lia|discriminate].
  - split; [apply Forall_app; split; [assumption|repeat constructor; unfold digit; lia]|].
    destruct t; discriminate.
Qed.
Lemma dec_digits_app t : Forall digit t -> forall acc u, dec_digits acc (t ++ u) =
  match dec_digits acc t with Some a => dec_digits a u | None => None end.
Proof.
  induction 1 as [|c t Hc Ht IH]; intros acc u; cbn [dec_digits app]; [reflexivity|].
  replace (is_digit c) with true by (unfold digit in Hc; unfold is_digit; lia). apply IH.
Qed.
Lemma dec_val t v : Dec t v -> dec_digits 0 t = Some v.
Proof.
  induction 1 as [d H|t v d H IH Hd].
  - cbn [dec_digits]. unfold is_digit. replace ((48 <=? 48 + d) && (48 + d <=? 57)) with true by lia. f_equal. lia.
  - rewrite dec_digits_app by (apply (dec_digit _ _ H)). rewrite IH. cbn [dec_digits]. unfold is_digit.
    replace ((48 <=? 48 + d) && (48 + d <=? 57)) with true by lia. f_equal. lia.
Qed.
Lemma dec_pos t v : Dec t v -> 0 <= v.
Proof. induction 1; lia. Qed.

Lemma py_int_spec sg k t v : Sign sg k -> Dec t v -> py_int (sg ++ t) = Some (k * v).
Proof.
  intros Hs Hd. pose proof (dec_digit _ _ Hd) as [Hf Hn]. pose proof (dec_val _ _ Hd) as Hv.
  destruct Hs; cbn [app py_int].
  - destruct t as [|c t]; [congruence|]. inversion_clear Hf as [|? ? Hc _]. unfold digit in Hc.
    cbn [py_int]. replace (c =? 43) with false by lia. replace (c =? 45) with false by lia. rewrite Hv. f_equal. lia.
  - destruct t; [congruence|]. cbn [Z.eqb Pos.eqb]. rewrite Hv. f_equal. lia.
  - destruct t; [congruence|]. cbn [Z.eqb Pos.eqb]. rewrite Hv. cbn [option_map]. f_equal; lia.
Qed.

Lemma number_end l pos c s : mode_ l = MNumber -> white c \/ delim c ->
  toks l pos (c :: s) =
  pre (match py_int (cur l) with Some z => [(curpos l, TInt z)] | None => [] end) (toks (set_mode l MMain) pos (c :: s)).
Proof.
  intros Hm Hb. apply boundary_num in Hb as [H1 H2].
  rewrite (toks_byte0 l pos c s (set_mode l MMain) (match py_int (cur l) with Some z => Some (curpos l, TInt z) | None => None end)).
  - destruct (py_int (cur l)); reflexivity.
  - unfold parse_func. rewrite Hm. unfold parse_number, is_end_number. cbn [span]. rewrite H1.
    cbn [negb]. replace (c =? 46) with false by lia. unfold app_cur, set_cur. rewrite app_nil_r. destruct l; reflexivity.
Qed.
Lemma float_end l pos c s : mode_ l = MFloat -> white c \/ delim c -> py_float_ok (cur l) = true ->
  toks l pos (c :: s) = pre [(curpos l, TReal (cur l))] (toks (set_mode l MMain) pos (c :: s)).
Proof.
  intros Hm Hb Hf. apply boundary_num in Hb as [H1 H2].
  rewrite (toks_byte0 l pos c s (set_mode l MMain) (Some (curpos l, TReal (cur l)))).
  - reflexivity.
  - unfold parse_func. rewrite Hm. unfold parse_float, is_end_number. cbn [span]. rewrite H1.
    cbn [negb]. unfold app_cur, set_cur. rewrite app_nil_r. destruct l as [m0 cu c0 p0 o0 h0]; cbn [cur mode_ curpos paren oct hexd] in *. rewrite Hf. reflexivity.
Qed.

Lemma pre_nil x : pre [] x = x.
Proof. destruct x; reflexivity. Qed.

Lemma sign_start sg k t v l pos s : Sign sg k -> Forall digit t -> t = v -> (sg <> [] \/ t <> []) -> mode_ l = MMain ->
  toks l pos ((sg ++ t) ++ s) =
  toks (mkLex MNumber (sg ++ t) pos (paren l) (oct l) (hexd l)) (pos + Z.of_nat (length (sg ++ t))) s.
Proof.
  intros Hs Hd _ Hn Hm.
  assert (Hx : exists c u, sg ++ t = c :: u /\ start_mode c = Some (MNumber, [c]) /\ Forall digit u).
  { destruct Hs.
    - destruct t as [|c t]; [tauto|]. inversion_clear Hd. exists c, t. split; [reflexivity|]. split; [|assumption].
      unfold start_mode. unfold digit in *. replace (c =? 47) with false by lia.
      replace ((c =? 45) || (c =? 43) || is_digit c) with true by (unfold is_digit; lia). reflexivity.
    - exists 43, t. split; [reflexivity|]. split; [reflexivity|assumption].
    - exists 45, t. split; [reflexivity|]. split; [reflexivity|assumption]. }
  destruct Hx as (c & u & -> & Hst & Hu). cbn [app]. rewrite (main_start l pos c _ _ _ Hm Hst).
  rewrite number_digits by (assumption || reflexivity). unfold app_cur, set_cur. cbn [cur mode_ curpos paren oct hexd app length]. f_equal. lia.
Qed.

Lemma int_lemma sg k t v l pos s : Sign sg k -> Dec t v -> (exists c r, s = c :: r /\ (white c \/ delim c)) -> mode_ l = MMain ->
  exists l', mode_ l' = MMain /\
  toks l pos ((sg ++ t) ++ s) = one pos (TInt (k * v)) (toks l' (pos + Z.of_nat (length (sg ++ t))) s).
Proof.
  intros Hs Hd (c & r & -> & Hc) Hm. pose proof (dec_digit _ _ Hd) as [Hf Hn].
  rewrite (sign_start sg k t t l pos _ Hs Hf eq_refl (or_intror Hn) Hm).
  rewrite number_end by (reflexivity || assumption). cbn [cur curpos].
  rewrite (py_int_spec _ _ _ _ Hs Hd). eexists. split; [|reflexivity]. reflexivity.
Qed.

Lemma existsb_digit a : Forall digit a -> a <> [] -> existsb is_digit a = true.
Proof.
  intros Hf Hn. destruct a; [congruence|]. inversion_clear Hf. cbn [existsb]. unfold digit in *. unfold is_digit at 1.
  replace ((48 <=? z) && (z <=? 57)) with true by lia. reflexivity.
Qed.

Lemma real_lemma sg k a b l pos s : Sign sg k -> Forall digit a -> Forall digit b -> a <> [] \/ b <> [] ->
  (exists c r, s = c :: r /\ (white c \/ delim c)) -> mode_ l = MMain ->
  exists l', mode_ l' = MMain /\
  toks l pos ((sg ++ a ++ 46 :: b) ++ s) =
    one pos (TReal (sg ++ a ++ 46 :: b)) (toks l' (pos + Z.of_nat (length (sg ++ a ++ 46 :: b))) s).
Proof.
  intros Hs Ha Hb Hab (c & r & -> & Hc) Hm.
  assert (Hok : py_float_ok (sg ++ a ++ 46 :: b) = true).
  { unfold py_float_ok. rewrite !existsb_app. cbn [existsb]. destruct Hab as [Hn|Hn].
    - rewrite (existsb_digit a Ha Hn). destruct (existsb is_digit sg); reflexivity.
    - rewrite (existsb_digit b Hb Hn). rewrite !orb_true_r. reflexivity. }
  assert (Hf : exists l1, mode_ l1 = MFloat /\ cur l1 = (sg ++ a) ++ [46] /\ curpos l1 = pos /\
      toks l pos ((sg ++ a ++ 46 :: b) ++ c :: r) = toks l1 (pos + Z.of_nat (length (sg ++ a)) + 1) (b ++ c :: r)).
  { replace ((sg ++ a ++ 46 :: b) ++ c :: r) with ((sg ++ a) ++ 46 :: b ++ c :: r) by (rewrite <- !app_assoc; reflexivity).
    destruct (sg ++ a) as [|z u] eqn:E.
    - exists (mkLex MFloat [46] pos (paren l) (oct l) (hexd l)). splits; try reflexivity.
      cbn [app length]. rewrite (main_start l pos 46 _ MFloat [46] Hm eq_refl). f_equal. cbn. lia.
    - assert (Hn : sg <> [] \/ a <> []). { destruct sg; [right|left]; [destruct a; [discriminate|discriminate]|discriminate]. }
      rewrite <- E. rewrite (sign_start sg k a a l pos _ Hs Ha eq_refl Hn Hm).
      exists (mkLex MFloat ((sg ++ a) ++ [46]) pos (paren l) (oct l) (hexd l)). splits; try reflexivity.
      apply toks_byteN. unfold parse_func, parse_number; cbn; unfold set_mode, app_cur, set_cur; cbn; rewrite app_nil_r. reflexivity. }
  destruct Hf as (l1 & M1 & C1 & P1 & ->).
  rewrite float_digits by assumption. rewrite float_end; try assumption.
  - cbn [app_cur set_cur curpos cur]. rewrite C1, P1.
    exists (set_mode (app_cur l1 b) MMain). split; [reflexivity|]. unfold one. f_equal.
    + rewrite <- !app_assoc. reflexivity.
    + f_equal. rewrite !app_length. cbn [length]. lia.
  - cbn [app_cur set_cur cur]. rewrite C1, <- !app_assoc. exact Hok.
Qed.

(* ---- keywords and names ---- *)
Lemma keyword_body t : Forall (fun c => regular c /\ c <> 35) t -> forall l pos s, mode_ l = MKeyword ->
  toks l pos (t ++ s) = toks (app_cur l t) (pos + Z.of_nat (length t)) s.
Proof.
  induction 1 as [|c a Hc Ha IH]; intros l pos s Hm.
  - cbn. change (Z.of_nat 0) with 0. rewrite Z.add_0_r. unfold app_cur, set_cur. rewrite app_nil_r. destruct l; reflexivity.
  - cbn [app length]. rewrite (toks_byteN l pos c _ (app_cur l [c])).
    + rewrite IH by assumption. rewrite app_cur_app. f_equal. lia.
    + unfold parse_func. rewrite Hm. unfold parse_keyword. cbn [span]. apply regular_lit in Hc. rewrite Hc. reflexivity.
Qed.

Definition kwd_token (t : list Z) : token :=
  if list_eqb t (bs "true") then TBool true else if list_eqb t (bs "false") then TBool false else TKwd t.

Lemma keyword_lemma c t l pos s : letter c -> Forall (fun c => regular c /\ c <> 35) t ->
  (exists c r, s = c :: r /\ (white c \/ delim c)) -> mode_ l = MMain ->
  exists l', mode_ l' = MMain /\
  toks l pos ((c :: t) ++ s) = one pos (kwd_token (c :: t)) (toks l' (pos + Z.of_nat (length (c :: t))) s).
Proof.
  intros Hc Ht (d & r & -> & Hd) Hm. cbn [app].
  rewrite (main_start l pos c _ MKeyword [c] Hm).
  2: { unfold start_mode, is_digit, is_alpha, letter in *. replace (c =? 47) with false by lia.
       replace ((c =? 45) || (c =? 43) || _) with false by lia. replace (c =? 46) with false by lia.
       replace ((65 <=? c) && (c <=? 90) || _) with true by lia. reflexivity. }
  rewrite keyword_body by (assumption || reflexivity).
  apply boundary_lit in Hd as [Hd _].
  set (l1 := app_cur (mkLex MKeyword [c] pos (paren l) (oct l) (hexd l)) t).
  rewrite (toks_byte0 l1 _ d r (set_mode l1 MMain) (Some (pos, kwd_token (c :: t)))).
  - exists (set_mode l1 MMain). split; [reflexivity|]. unfold one. cbn [opt_list]. f_equal. f_equal. cbn [length]. lia.
  - unfold parse_func, parse_keyword, kwd_token. cbn [mode_ l1 app_cur set_cur span]. rewrite Hd.
    subst l1. unfold app_cur, set_cur. cbn [cur app curpos mode_ paren oct hexd]. rewrite app_nil_r. reflexivity.
Qed.

(* state of a name being read: the value so far *)
Definition lit_state (l : lex) (cp : Z) (v : list Z) : Prop := mode_ l = MLiteral /\ cur l = v /\ curpos l = cp.

Lemma name_body t v : NameBody t v -> forall l pos cp v0 s, lit_state l cp v0 -> (exists c r, s = c :: r /\ (white c \/ delim c)) ->
  exists l', lit_state l' cp (v0 ++ v) /\ toks l pos (t ++ s) = toks l' (pos + Z.of_nat (length t)) s.
Proof.
  induction 1 as [|c t v Hc H35 Hb IH|a b x y t v Ha Hb' Hb IH]; intros l pos cp v0 s Hl Hs.
  - exists l. rewrite app_nil_r. split; [assumption|]. cbn. change (Z.of_nat 0) with 0. rewrite Z.add_0_r. reflexivity.
  - destruct Hl as (Hm & Hcu & Hcp).
    destruct (IH (app_cur l [c]) (pos + 1) cp (v0 ++ [c]) s) as (l' & Hl' & E).
    { (hnf; splits); [assumption| |assumption]. cbn. rewrite Hcu. reflexivity. } { assumption. }
    exists l'. split; [rewrite <- app_assoc in Hl'; exact Hl'|]. cbn [app length].
    rewrite (toks_byteN l pos c _ (app_cur l [c])).
    + rewrite E. f_equal. lia.
    + unfold parse_func. rewrite Hm. unfold parse_literal. cbn [span].
      rewrite (proj1 (regular_lit c) (conj Hc H35)). reflexivity.
  - destruct Hl as (Hm & Hcu & Hcp). apply hex_is in Ha as (Ha & Hax & Hxr). apply hex_is in Hb' as (Hbb & Hby & Hyr).
    destruct l as [m cu cp' pa oc hx]. cbn [mode_ cur curpos] in *. subst m cu cp'. cbn [app length].
    rewrite (toks_byteN _ pos 35 _ (mkLex MLitHex v0 cp pa oc [])).
    2: { unfold parse_func, parse_literal. cbn. rewrite app_nil_r. reflexivity. }
    rewrite (toks_byteN _ (pos + 1) a _ (mkLex MLitHex v0 cp pa oc [a])).
    2: { unfold parse_func, parse_literal_hex. cbn. rewrite Ha. reflexivity. }
    rewrite (toks_byteN _ (pos + 1 + 1) b _ (mkLex MLitHex v0 cp pa oc [a; b])).
    2: { unfold parse_func, parse_literal_hex. cbn. rewrite Hbb. reflexivity. }
    destruct (IH (mkLex MLiteral (v0 ++ [16 * x + y]) cp pa oc [a; b]) (pos + 1 + 1 + 1) cp (v0 ++ [16 * x + y]) s)
      as (l' & Hl' & E). { (hnf; splits); reflexivity. } { assumption. }
    exists l'. split; [rewrite <- app_assoc in Hl'; exact Hl'|].
    assert (Hne : exists c u, t ++ s = c :: u).
    { destruct t; [|eexists; eexists; reflexivity]. destruct Hs as (c & r & -> & _). exists c, r. reflexivity. }
    destruct Hne as (c & u & Ecu). rewrite Ecu in *.
    rewrite (toks_byte0N _ (pos + 1 + 1 + 1) c u (mkLex MLiteral (v0 ++ [16 * x + y]) cp pa oc [a; b])).
    + rewrite E. f_equal. lia.
    + unfold parse_func, parse_literal_hex. cbn [mode_ hexd length Nat.ltb Nat.leb]. rewrite andb_false_r.
      unfold hex_val. cbn [fold_left]. unfold app_cur, set_cur, set_mode. cbn. rewrite Hax, Hby.
      replace ((0 * 16 + x) * 16 + y) with (16 * x + y) by lia. reflexivity.
Qed.

Lemma name_lemma t v l pos s : NameBody t v -> (exists c r, s = c :: r /\ (white c \/ delim c)) -> mode_ l = MMain ->
  exists l', mode_ l' = MMain /\
  toks l pos ((47 :: t) ++ s) = one pos (TLit v) (toks l' (pos + Z.of_nat (length (47 :: t))) s).
Proof.
  intros Hb Hs Hm. cbn [app]. rewrite (main_start l pos 47 _ MLiteral [] Hm eq_refl).
  destruct (name_body t v Hb (mkLex MLiteral [] pos (paren l) (oct l) (hexd l)) (pos + 1) pos [] s) as (l1 & (M1 & C1 & P1) & E);
    [(hnf; splits); reflexivity|assumption|]. rewrite E. destruct Hs as (c & r & -> & Hc). apply boundary_lit in Hc as [Hc H35].
  rewrite (toks_byte0 l1 _ c r (set_mode l1 MMain) (Some (pos, TLit v))).
  - exists (set_mode l1 MMain). split; [reflexivity|]. unfold one. cbn [opt_list]. f_equal. f_equal. cbn [length]. lia.
  - unfold parse_func. rewrite M1. unfold parse_literal. cbn [span]. rewrite Hc. replace (c =? 35) with false by lia.
    unfold app_cur, set_cur. rewrite app_nil_r, C1, P1. cbn [app cur]. unfold set_mode. cbn. rewrite C1, P1. reflexivity.
Qed.

(* ---- literal strings ---- *)
Definition str_state (l : lex) (cp d : Z) (v : list Z) : Prop :=
  mode_ l = MString /\ cur l = v /\ curpos l = cp /\ paren l = d.

Lemma str_ord l pos cp d v0 c s : str_state l cp d v0 -> is_end_string c = false ->
  exists l', str_state l' cp d (v0 ++ [c]) /\ toks l pos (c :: s) = toks l' (pos + 1) s.
Proof.
  intros (Hm & Hcu & Hcp & Hpa) Hc. exists (app_cur l [c]). split.
  - (hnf; splits); cbn; congruence.
  - apply toks_byteN. unfold parse_func. rewrite Hm. unfold parse_string. cbn [span]. rewrite Hc. reflexivity.
Qed.

(* after a backslash *)
Definition esc_state (l : lex) (cp d : Z) (v o : list Z) : Prop :=
  mode_ l = MString1 /\ cur l = v /\ curpos l = cp /\ paren l = d /\ oct l = o.
Lemma str_bs l pos cp d v0 s : str_state l cp d v0 ->
  exists l', esc_state l' cp d v0 [] /\ toks l pos (92 :: s) = toks l' (pos + 1) s.
Proof.
  intros (Hm & Hcu & Hcp & Hpa). exists (mkLex MString1 (cur l) (curpos l) (paren l) [] (hexd l)). split.
  - (hnf; splits); cbn; congruence.
  - apply toks_byteN. unfold parse_func. rewrite Hm. unfold parse_string. cbn. rewrite app_nil_r. reflexivity.
Qed.
Lemma esc_oct l pos cp d v0 o x s : esc_state l cp d v0 o -> (length o < 3)%nat -> 0 <= x <= 7 ->
  exists l', esc_state l' cp d v0 (o ++ [48 + x]) /\ toks l pos (48 + x :: s) = toks l' (pos + 1) s.
Proof.
  intros (Hm & Hcu & Hcp & Hpa & Ho) Hl Hx.
  exists (mkLex MString1 (cur l) (curpos l) (paren l) (oct l ++ [48 + x]) (hexd l)). split.
  - (hnf; splits); cbn; congruence.
  - apply toks_byteN. unfold parse_func. rewrite Hm. unfold parse_string_1, is_oct.
    replace ((48 <=? 48 + x) && (48 + x <=? 55)) with true by lia.
    rewrite Ho. destruct (Nat.ltb_spec (length o) 3); [|lia]. reflexivity.
Qed.
(* the octal digits end at a byte that is not one, or after three *)
Lemma esc_oct_end l pos cp d v0 o c s : esc_state l cp d v0 o -> o <> [] -> (length o = 3%nat \/ ~ octal c) -> oct_val o < 256 ->
  exists l', str_state l' cp d (v0 ++ [oct_val o]) /\ toks l pos (c :: s) = toks l' pos (c :: s).
Proof.
  intros (Hm & Hcu & Hcp & Hpa & Ho) Hn Hc Hv.
  exists (set_mode (app_cur l [oct_val o]) MString). split.
  - (hnf; splits); cbn; congruence.
  - apply toks_byte0N. unfold parse_func. rewrite Hm. unfold parse_string_1.
    assert (Hf : is_oct c && Nat.ltb (length (oct l)) 3 = false).
    { rewrite Ho. destruct Hc as [->|Hc]; [apply andb_false_r|].
      replace (is_oct c) with false; [reflexivity|]. unfold is_oct, octal in *. lia. }
    rewrite Hf. rewrite Ho. destruct o; [congruence|]. replace (oct_val _ <? 256) with true by lia. reflexivity.
Qed.

Lemma escape_spec c e : Escape c e -> esc_string c = Some e /\ is_oct c = false.
Proof. intros []; split; reflexivity. Qed.

Lemma eol_esc e : eol e -> esc_string e = None /\ is_oct e = false.
Proof. intros [->| ->]; split; reflexivity. Qed.

Lemma esc_other l pos cp d v0 c s : esc_state l cp d v0 [] -> is_oct c = false ->
  exists l', str_state l' cp d (v0 ++ opt_list (esc_string c)) /\ toks l pos (c :: s) = toks l' (pos + 1) s.
Proof.
  intros (Hm & Hcu & Hcp & Hpa & Ho) Hc.
  exists (match esc_string c with Some v => set_mode (app_cur l [v]) MString | None => set_mode l MString end). split.
  - destruct (esc_string c); cbn; (hnf; splits); cbn; try congruence. rewrite app_nil_r. assumption.
  - apply toks_byteN. unfold parse_func. rewrite Hm. unfold parse_string_1. rewrite Hc, Ho.
    destruct (esc_string c); reflexivity.
Qed.

Lemma str_open l pos cp d v0 s : str_state l cp d v0 ->
  exists l', str_state l' cp (d + 1) (v0 ++ [40]) /\ toks l pos (40 :: s) = toks l' (pos + 1) s.
Proof.
  intros (Hm & Hcu & Hcp & Hpa). exists (mkLex MString (cur l ++ [40]) (curpos l) (paren l + 1) (oct l) (hexd l)). split.
  - (hnf; splits); cbn; congruence.
  - apply toks_byteN. unfold parse_func. rewrite Hm. unfold parse_string. cbn. rewrite app_nil_r. reflexivity.
Qed.
Lemma str_close_in l pos cp d v0 s : str_state l cp (d + 1) v0 -> 0 < d ->
  exists l', str_state l' cp d (v0 ++ [41]) /\ toks l pos (41 :: s) = toks l' (pos + 1) s.
Proof.
  intros (Hm & Hcu & Hcp & Hpa) Hd. exists (mkLex MString (cur l ++ [41]) (curpos l) d (oct l) (hexd l)). split.
  - (hnf; splits); cbn; congruence.
  - apply toks_byteN. unfold parse_func. rewrite Hm. unfold parse_string. cbn [span is_end_string].
    cbn [Z.eqb Pos.eqb orb]. rewrite Hpa. replace (d + 1 - 1) with d by lia. replace (d =? 0) with false by lia. cbn [negb].
    unfold app_cur, set_cur. cbn. rewrite app_nil_r. reflexivity.
Qed.
Lemma str_close l pos cp v0 s : str_state l cp 1 v0 ->
  exists l', mode_ l' = MMain /\ toks l pos (41 :: s) = one cp (TStr v0) (toks l' (pos + 1) s).
Proof.
  intros (Hm & Hcu & Hcp & Hpa). exists (mkLex MMain (cur l) (curpos l) 0 (oct l) (hexd l)). split; [reflexivity|].
  apply (toks_byte _ _ _ _ _ (Some (cp, TStr v0))). unfold parse_func. rewrite Hm. unfold parse_string. cbn [span is_end_string].
  cbn [Z.eqb Pos.eqb orb]. rewrite Hpa. cbn. rewrite app_nil_r, Hcu, Hcp. reflexivity.
Qed.

Lemma head_not_oct t s : no_octal_head t -> exists c u, t ++ 41 :: s = c :: u /\ ~ octal c.
Proof.
  intros H. destruct t as [|c t].
  - exists 41, s. split; [reflexivity|]. unfold octal; lia.
  - exists c, (t ++ 41 :: s). split; [reflexivity|]. apply (H c t eq_refl).
Qed.

Lemma str_body t v : StrBody t v -> forall l pos cp d v0 s, 0 < d -> str_state l cp d v0 ->
  exists l', str_state l' cp d (v0 ++ v) /\ toks l pos (t ++ 41 :: s) = toks l' (pos + Z.of_nat (length t)) (41 :: s).
Proof.
  induction 1 as [|c t v H1 H2 H3 Hb IH|c e t v He Hb IH|a b c t v Ha Hb' Hc Hb IH|b c t v Hb' Hc Hn Hb IH
                 |c t v Hc Hn Hb IH|e t v He Hcr Hb IH|ti vi t v Hi IHi Hb IH]; intros l pos cp d v0 s Hd Hl.
  - exists l. rewrite app_nil_r. split; [assumption|]. cbn. change (Z.of_nat 0) with 0. rewrite Z.add_0_r. reflexivity.
  - cbn [app length]. destruct (str_ord l pos cp d v0 c (t ++ 41 :: s) Hl) as (l1 & Hl1 & ->). { unfold is_end_string. lia. }
    destruct (IH l1 (pos + 1) cp d _ s Hd Hl1) as (l2 & Hl2 & ->). exists l2. rewrite <- app_assoc in Hl2.
    split; [exact Hl2|]. f_equal. lia.
  - cbn [app length]. destruct (str_bs l pos cp d v0 (c :: t ++ 41 :: s) Hl) as (l1 & Hl1 & ->).
    apply escape_spec in He as [He Ho].
    destruct (esc_other l1 (pos + 1) cp d v0 c (t ++ 41 :: s) Hl1 Ho) as (l2 & Hl2 & ->). rewrite He in Hl2. cbn [opt_list] in Hl2.
    destruct (IH l2 (pos + 1 + 1) cp d _ s Hd Hl2) as (l3 & Hl3 & ->). exists l3. rewrite <- app_assoc in Hl3.
    split; [exact Hl3|]. f_equal. lia.
  - cbn [app length]. destruct (str_bs l pos cp d v0 (48 + a :: 48 + b :: 48 + c :: t ++ 41 :: s) Hl) as (l1 & Hl1 & ->).
    destruct (esc_oct l1 (pos + 1) cp d v0 [] a (48 + b :: 48 + c :: t ++ 41 :: s) Hl1) as (l2 & Hl2 & ->); [cbn; lia|lia|].
    destruct (esc_oct l2 (pos + 1 + 1) cp d v0 _ b (48 + c :: t ++ 41 :: s) Hl2) as (l3 & Hl3 & ->); [cbn; lia|lia|].
    destruct (esc_oct l3 (pos + 1 + 1 + 1) cp d v0 _ c (t ++ 41 :: s) Hl3) as (l4 & Hl4 & ->); [cbn; lia|lia|].
    cbn [app] in Hl4.
    assert (Hne : exists z u, t ++ 41 :: s = z :: u). { destruct t; eexists; eexists; reflexivity. }
    destruct Hne as (z & u & Ezu). rewrite Ezu.
    assert (Hov : oct_val [48 + a; 48 + b; 48 + c] = 64 * a + 8 * b + c). { unfold oct_val. cbn [fold_left]. lia. }
    destruct (esc_oct_end l4 (pos + 1 + 1 + 1 + 1) cp d v0 _ z u Hl4) as (l5 & Hl5 & ->); [discriminate|left; reflexivity|lia|].
    rewrite <- Ezu. rewrite Hov in Hl5.
    destruct (IH l5 (pos + 1 + 1 + 1 + 1) cp d _ s Hd Hl5) as (l6 & Hl6 & ->). exists l6. rewrite <- app_assoc in Hl6.
    split; [exact Hl6|]. f_equal. lia.
  - cbn [app length]. destruct (str_bs l pos cp d v0 (48 + b :: 48 + c :: t ++ 41 :: s) Hl) as (l1 & Hl1 & ->).
    destruct (esc_oct l1 (pos + 1) cp d v0 [] b (48 + c :: t ++ 41 :: s) Hl1) as (l2 & Hl2 & ->); [cbn; lia|lia|].
    destruct (esc_oct l2 (pos + 1 + 1) cp d v0 _ c (t ++ 41 :: s) Hl2) as (l3 & Hl3 & ->); [cbn; lia|lia|].
    cbn [app] in Hl3.
    destruct (head_not_oct t s Hn) as (z & u & Ezu & Hz). rewrite Ezu.
    assert (Hov : oct_val [48 + b; 48 + c] = 8 * b + c). { unfold oct_val. cbn [fold_left]. lia. }
    destruct (esc_oct_end l3 (pos + 1 + 1 + 1) cp d v0 _ z u Hl3) as (l5 & Hl5 & ->); [discriminate|right; assumption|lia|].
    rewrite <- Ezu. rewrite Hov in Hl5.
    destruct (IH l5 (pos + 1 + 1 + 1) cp d _ s Hd Hl5) as (l6 & Hl6 & ->). exists l6. rewrite <- app_assoc in Hl6.
    split; [exact Hl6|]. f_equal. lia.
  - cbn [app length]. destruct (str_bs l pos cp d v0 (48 + c :: t ++ 41 :: s) Hl) as (l1 & Hl1 & ->).
    destruct (esc_oct l1 (pos + 1) cp d v0 [] c (t ++ 41 :: s) Hl1) as (l2 & Hl2 & ->); [cbn; lia|lia|].
    cbn [app] in Hl2.
    destruct (head_not_oct t s Hn) as (z & u & Ezu & Hz). rewrite Ezu.
    assert (Hov : oct_val [48 + c] = c). { unfold oct_val. cbn [fold_left]. lia. }
    destruct (esc_oct_end l2 (pos + 1 + 1) cp d v0 _ z u Hl2) as (l5 & Hl5 & ->); [discriminate|right; assumption|lia|].
    rewrite <- Ezu. rewrite Hov in Hl5.
    destruct (IH l5 (pos + 1 + 1) cp d _ s Hd Hl5) as (l6 & Hl6 & ->). exists l6. rewrite <- app_assoc in Hl6.
    split; [exact Hl6|]. f_equal. lia.
  - cbn [app length]. destruct (str_bs l pos cp d v0 (e :: t ++ 41 :: s) Hl) as (l1 & Hl1 & ->).
    apply eol_esc in He as [He Ho].
    destruct (esc_other l1 (pos + 1) cp d v0 e (t ++ 41 :: s) Hl1 Ho) as (l2 & Hl2 & ->). rewrite He in Hl2. cbn [opt_list] in Hl2.
    rewrite app_nil_r in Hl2.
    destruct (IH l2 (pos + 1 + 1) cp d _ s Hd Hl2) as (l3 & Hl3 & ->). exists l3.
    split; [exact Hl3|]. f_equal. lia.
  - cbn [app length]. rewrite <- !app_assoc. cbn [app].
    destruct (str_open l pos cp d v0 (ti ++ 41 :: t ++ 41 :: s) Hl) as (l1 & Hl1 & ->).
    destruct (IHi l1 (pos + 1) cp (d + 1) _ (t ++ 41 :: s) ltac:(lia) Hl1) as (l2 & Hl2 & ->).
    destruct (str_close_in l2 (pos + 1 + Z.of_nat (length ti)) cp d _ (t ++ 41 :: s) Hl2 Hd) as (l3 & Hl3 & ->).
    destruct (IH l3 (pos + 1 + Z.of_nat (length ti) + 1) cp d _ s Hd Hl3) as (l4 & Hl4 & ->).
    exists l4. split.
    + rewrite <- !app_assoc in Hl4. exact Hl4.
    + f_equal. rewrite app_length. cbn [length]. lia.
Qed.

Lemma str_lemma t v l pos s : StrBody t v -> mode_ l = MMain ->
  exists l', mode_ l' = MMain /\
  toks l pos ((40 :: t ++ [41]) ++ s) = one pos (TStr v) (toks l' (pos + Z.of_nat (length (40 :: t ++ [41]))) s).
Proof.
  intros Hb Hm. cbn [app]. rewrite <- app_assoc. cbn [app].
  rewrite (toks_byteN l pos 40 _ (mkLex MString [] pos 1 (oct l) (hexd l))).
  2: { unfold parse_func. rewrite Hm. unfold parse_main. cbn. change (Z.of_nat 0) with 0. rewrite Z.add_0_r. reflexivity. }
  destruct (str_body t v Hb (mkLex MString [] pos 1 (oct l) (hexd l)) (pos + 1) pos 1 [] s) as (l1 & Hl1 & ->);
    [lia|(hnf; splits); reflexivity|].
  destruct (str_close l1 (pos + 1 + Z.of_nat (length t)) pos _ s Hl1) as (l2 & Hl2 & ->).
  exists l2. split; [assumption|]. unfold one. f_equal. f_equal. cbn [length]. rewrite app_length. cbn [length]. lia.
Qed.

(* ---- hexadecimal strings ---- *)
Lemma hexstr_ord t : Forall (fun c => is_end_hex c = false) t -> forall l pos s, mode_ l = MHexString ->
  toks l pos (t ++ s) = toks (app_cur l t) (pos + Z.of_nat (length t)) s.
Proof.
  induction 1 as [|c a Hc Ha IH]; intros l pos s Hm.
  - cbn. change (Z.of_nat 0) with 0. rewrite Z.add_0_r. unfold app_cur, set_cur. rewrite app_nil_r. destruct l; reflexivity.
  - cbn [app length]. rewrite (toks_byteN l pos c _ (app_cur l [c])).
    + rewrite IH by assumption. rewrite app_cur_app. f_equal. lia.
    + unfold parse_func. rewrite Hm. unfold parse_hexstring. cbn [span]. rewrite Hc. reflexivity.
Qed.

Lemma white_end_hex w : Forall white w -> Forall (fun c => is_end_hex c = false) w.
Proof. intros H. eapply Forall_impl; [|exact H]. cbn. intros c Hc. apply white_space in Hc. unfold is_end_hex. rewrite Hc. reflexivity. Qed.
Lemma white_filter w : Forall white w -> filter (fun c => negb (is_space c)) w = [].
Proof. induction 1 as [|c w Hc Hw IH]; cbn [filter]; [reflexivity|]. apply white_space in Hc. rewrite Hc. cbn. assumption. Qed.
Lemma hex_not_space a x : Hex a x -> is_space a = false.
Proof. intros []; unfold is_space; lia. Qed.

Lemma hex_body t v : HexBody t v -> Forall (fun c => is_end_hex c = false) t /\
  hex_pair_sub (filter (fun c => negb (is_space c)) t) = v.
Proof.
  induction 1 as [w Hw|w1 a w2 b x y t v H1 H2 Ha Hb Ht [IH1 IH2]].
  - split; [apply white_end_hex; assumption|]. rewrite white_filter by assumption. reflexivity.
  - pose proof (hex_is _ _ Ha) as (Ha1 & Ha2 & _). pose proof (hex_is _ _ Hb) as (Hb1 & Hb2 & _).
    pose proof (hex_not_space _ _ Ha) as Ha3. pose proof (hex_not_space _ _ Hb) as Hb3. split.
    + apply Forall_app. split; [apply white_end_hex; assumption|]. constructor; [unfold is_end_hex; rewrite Ha1, orb_true_r; reflexivity|].
      apply Forall_app. split; [apply white_end_hex; assumption|]. constructor; [unfold is_end_hex; rewrite Hb1, orb_true_r; reflexivity|].
      assumption.
    + rewrite filter_app, white_filter by assumption. cbn [filter app]. rewrite Ha3. cbn [negb].
      rewrite filter_app, white_filter by assumption. cbn [filter app]. rewrite Hb3. cbn [negb hex_pair_sub].
      rewrite IH2, Ha2, Hb2. reflexivity.
Qed.

(* the closing '>' is left in the input *)
Lemma hex_lemma t v l pos s : HexBody t v -> mode_ l = MMain ->
  exists l', mode_ l' = MMain /\
  toks l pos ((60 :: t ++ [62]) ++ s) = one pos (TStr v) (toks l' (pos + Z.of_nat (length (60 :: t ++ [62])) - 1) (62 :: s)).
Proof.
  intros Hb Hm. apply hex_body in Hb as [Hf Hv]. cbn [app]. rewrite <- app_assoc. cbn [app].
  rewrite (main_start l pos 60 _ MWopen [] Hm eq_refl).
  set (l0 := mkLex MWopen [] pos (paren l) (oct l) (hexd l)).
  assert (Hne : exists c u, t ++ 62 :: s = c :: u /\ c <> 60).
  { destruct t as [|c t]; [exists 62, s; split; [reflexivity|lia]|]. exists c, (t ++ 62 :: s). split; [reflexivity|].
    inversion_clear Hf as [|? ? Hc _]. intros ->. discriminate Hc. }
  assert (E0 : toks l0 (pos + 1) (t ++ 62 :: s) = toks (set_mode l0 MHexString) (pos + 1) (t ++ 62 :: s)).
  { destruct Hne as (c & u & -> & Hc). apply toks_byte0N. unfold parse_func, parse_wopen. cbn [mode_ l0].
    replace (c =? 60) with false by lia. reflexivity. }
  rewrite E0. rewrite hexstr_ord by (assumption || reflexivity).
  set (l1 := app_cur (set_mode l0 MHexString) t).
  exists (set_mode l1 MMain). split; [reflexivity|].
  rewrite (toks_byte0 l1 _ 62 s (set_mode l1 MMain) (Some (pos, TStr v))).
  - unfold one. cbn [opt_list]. f_equal. f_equal. cbn [length]. rewrite app_length. cbn [length]. lia.
  - subst l1 l0. unfold parse_func, parse_hexstring, app_cur, set_cur, set_mode.
    cbn [mode_ span is_end_hex]. cbn [is_space is_hex]. cbn. rewrite app_nil_r. unfold is_hex in Hv. rewrite Hv. reflexivity.
Qed.

(* a '>' left over from a hexadecimal string *)
Lemma pending_skip l pos s : mode_ l = MMain -> (forall r, s <> 62 :: r) ->
  exists l', mode_ l' = MMain /\ toks l pos (62 :: s) = toks l' (pos + 1) s.
Proof.
  intros Hm Hs. rewrite (main_start l pos 62 s MWclose [] Hm eq_refl).
  set (l0 := mkLex MWclose [] pos (paren l) (oct l) (hexd l)). exists (set_mode l0 MMain). split; [reflexivity|].
  destruct s as [|c s]; [reflexivity|]. apply toks_byte0N. unfold parse_func, parse_wclose. cbn [mode_ l0].
  destruct (Z.eqb_spec c 62) as [->|]; [exfalso; apply (Hs s); reflexivity|reflexivity].
Qed.
Lemma close_lemma l pos s : mode_ l = MMain ->
  exists l', mode_ l' = MMain /\ toks l pos (62 :: 62 :: s) = one pos (TKwd [62; 62]) (toks l' (pos + 2) s).
Proof.
  intros Hm. rewrite (main_start l pos 62 (62 :: s) MWclose [] Hm eq_refl).
  set (l0 := mkLex MWclose [] pos (paren l) (oct l) (hexd l)). exists (set_mode l0 MMain). split; [reflexivity|].
  rewrite (toks_byte l0 (pos + 1) 62 s (set_mode l0 MMain) (Some (pos, TKwd [62; 62]))) by reflexivity.
  unfold one. cbn [opt_list]. f_equal. f_equal. lia.
Qed.
Lemma open_lemma l pos s : mode_ l = MMain ->
  exists l', mode_ l' = MMain /\ toks l pos (60 :: 60 :: s) = one pos (TKwd [60; 60]) (toks l' (pos + 2) s).
Proof.
  intros Hm. rewrite (main_start l pos 60 (60 :: s) MWopen [] Hm eq_refl).
  set (l0 := mkLex MWopen [] pos (paren l) (oct l) (hexd l)). exists (set_mode l0 MMain). split; [reflexivity|].
  rewrite (toks_byte l0 (pos + 1) 60 s (set_mode l0 MMain) (Some (pos, TKwd [60; 60]))) by reflexivity.
  unfold one. cbn [opt_list]. f_equal. f_equal. lia.
Qed.
Lemma single_lemma c l pos s : In c [91; 93; 123; 125; 39; 34] -> mode_ l = MMain ->
  exists l', mode_ l' = MMain /\ toks l pos (c :: s) = one pos (TKwd [c]) (toks l' (pos + 1) s).
Proof.
  intros Hc Hm. exists (mkLex MMain (cur l) pos (paren l) (oct l) (hexd l)). split; [reflexivity|].
  apply (toks_byte _ _ _ _ _ (Some (pos, TKwd [c]))). unfold parse_func. rewrite Hm. unfold parse_main.
  destruct l as [m cu cp pa oc hx]. cbn [mode_ cur paren oct hexd] in *. subst m.
  cbn [In] in Hc. destruct Hc as [<-|[<-|[<-|[<-|[<-|[<-|[]]]]]]]; cbn; change (Z.of_nat 0) with 0; rewrite Z.add_0_r; reflexivity.
Qed.

Lemma spell_nonempty t sp k : Spell t sp k -> sp <> [].
Proof.
  intros []; try discriminate.
  - pose proof (dec_digit _ _ H0) as [_ Hn]. destruct sg; [assumption|discriminate].
  - destruct sg; [|discriminate]. destruct a; discriminate.
Qed.

(* one token *)
Lemma spell_lemma t sp k : Spell t sp k -> forall e l pos s, follows e k s -> mode_ l = MMain ->
  exists l', mode_ l' = MMain /\
  toks l pos (sp ++ s) = one pos t
    match k with
    | HexEnd => toks l' (pos + Z.of_nat (length sp) - 1) (62 :: s)
    | _ => toks l' (pos + Z.of_nat (length sp)) s
    end.
Proof.
  intros Hsp e l pos s Hf Hm. destruct Hsp; cbn [follows] in Hf.
  - apply int_lemma; assumption.
  - eapply real_lemma; eassumption.
  - change (TBool true) with (kwd_token (bs "true")).
    apply (keyword_lemma 116 (bs "rue")); [unfold letter; lia| |assumption|assumption].
    repeat (constructor; [apply regular_lit; reflexivity|]). constructor.
  - change (TBool false) with (kwd_token (bs "false")).
    apply (keyword_lemma 102 (bs "alse")); [unfold letter; lia| |assumption|assumption].
    repeat (constructor; [apply regular_lit; reflexivity|]). constructor.
  - replace (TKwd (c :: t)) with (kwd_token (c :: t)). { apply keyword_lemma; assumption. }
    unfold kwd_token. destruct (list_eqb (c :: t) (bs "true")) eqn:E1; [apply list_eqb_eq in E1; congruence|].
    destruct (list_eqb (c :: t) (bs "false")) eqn:E2; [apply list_eqb_eq in E2; congruence|]. reflexivity.
  - apply name_lemma; assumption.
  - apply str_lemma; assumption.
  - apply hex_lemma; assumption.
  - apply single_lemma; assumption.
  - apply open_lemma; assumption.
  - apply close_lemma; assumption.
Qed.

Definition vals (x : list (Z * token) * exn) : list token * exn := (map snd (fst x), snd x).
Lemma vals_one p t x ts e : vals x = (ts, e) -> vals (one p t x) = (t :: ts, e).
Proof. unfold vals, one, pre. cbn. intros H. injection H as <- <-. reflexivity. Qed.

(* values, whatever follows a hexadecimal string *)
Lemma sep_head g s r : Sep g -> g ++ s = 62 :: r -> g = [] .
Proof.
  intros Hg H. destruct Hg as [|c g0 Hw Hg|body e g0 Hb He Hg]; [reflexivity| |].
  - injection H as -> _. unfold white in Hw. lia.
  - discriminate H.
Qed.
Lemma spell_head t sp k s r : Spell t sp k -> sp ++ s = 62 :: r -> t = TKwd [62; 62] /\ sp = [62; 62] /\ k = SelfDelimited.
Proof.
  intros Hsp; destruct Hsp; intros HE; try discriminate HE; try ((hnf; splits); reflexivity); exfalso.
  - pose proof (dec_digit _ _ H0) as [Hf Hn]. destruct H; cbn in HE; try discriminate HE.
    destruct t as [|z t]; [congruence|]. injection HE as -> _. inversion_clear Hf as [|? ? Hd _]. unfold digit in Hd. lia.
  - destruct H; cbn in HE; try discriminate HE. destruct a as [|z a]; [discriminate HE|]. injection HE as -> _.
    inversion_clear H0 as [|? ? Hd _]. unfold digit in Hd. lia.
  - injection HE as -> _. unfold letter in H. lia.
  - cbn [In] in H. destruct H as [<-|[<-|[<-|[<-|[<-|[<-|[]]]]]]]; discriminate HE.
Qed.

Lemma head_dec (s : list Z) : (exists r, s = 62 :: r) \/ (forall r, s <> 62 :: r).
Proof.
  destruct s as [|c s]; [right; discriminate|]. destruct (Z.eq_dec c 62) as [->|H].
  - left. exists s. reflexivity.
  - right. intros r E. congruence.
Qed.

Lemma layout_values_lemma e pos ts s : Layout e pos ts s -> forall l p, mode_ l = MMain ->
  vals (toks l p s) = (map snd ts, PSEOF) /\ vals (toks l p (62 :: s)) = (map snd ts, PSEOF).
Proof.
  induction 1 as [pos g Hg|pos g body Hg Hb|pos g t sp k ts rest Hg Hsp Hf Hl IH]; intros l p Hm.
  - assert (A : forall l p, mode_ l = MMain -> vals (toks l p g) = ([], PSEOF)).
    { intros l0 p0 Hm0. destruct (sep_lemma g Hg l0 p0 [] Hm0) as (l' & _ & E). rewrite app_nil_r in E. rewrite E, toks_nil. reflexivity. }
    split; [apply A; assumption|].
    destruct (pending_skip l p g Hm) as (l' & Hl' & E).
    { intros r Er. pose proof (sep_head g [] r Hg) as Hh. rewrite app_nil_r in Hh. rewrite (Hh Er) in Er. discriminate. }
    rewrite E. apply A. assumption.
  - assert (A : forall l p, mode_ l = MMain -> vals (toks l p (g ++ 37 :: body)) = ([], PSEOF)).
    { intros l0 p0 Hm0. destruct (sep_lemma g Hg l0 p0 (37 :: body) Hm0) as (l' & Hl' & E). rewrite E.
      rewrite last_comment by assumption. reflexivity. }
    split; [apply A; assumption|].
    destruct (pending_skip l p (g ++ 37 :: body) Hm) as (l' & Hl' & E).
    { intros r Er. rewrite (sep_head g _ r Hg Er) in Er. discriminate. }
    rewrite E. apply A. assumption.
  - assert (A : forall l p, mode_ l = MMain -> vals (toks l p (g ++ sp ++ rest)) = (t :: map snd ts, PSEOF)).
    { intros l0 p0 Hm0. destruct (sep_lemma g Hg l0 p0 (sp ++ rest) Hm0) as (l1 & Hl1 & ->).
      destruct (spell_lemma _ _ _ Hsp e l1 (p0 + Z.of_nat (length g)) rest Hf Hl1) as (l2 & Hl2 & ->).
      apply vals_one. destruct k; apply IH; assumption. }
    cbn [map snd]. split; [apply A; assumption|].
    destruct (head_dec (g ++ sp ++ rest)) as [[r Er]|Hn].
    + pose proof (sep_head _ _ _ Hg Er) as ->. cbn [app] in *.
      destruct (spell_head _ _ _ _ _ Hsp Er) as (-> & -> & ->). cbn [app].
      destruct (close_lemma l p (62 :: rest) Hm) as (l' & Hl' & E). rewrite E. apply vals_one. apply IH. assumption.
    + destruct (pending_skip l p _ Hm Hn) as (l' & Hl' & E). rewrite E. apply A. assumption.
Qed.

Lemma layout_exact_lemma pos ts s : Layout true pos ts s -> forall l, mode_ l = MMain -> toks l pos s = (ts, PSEOF).
Proof.
  induction 1 as [pos g Hg|pos g body Hg Hb|pos g t sp k ts rest Hg Hsp Hf Hl IH]; intros l Hm.
  - destruct (sep_lemma g Hg l pos [] Hm) as (l' & _ & E). rewrite app_nil_r in E. rewrite E. apply toks_nil.
  - destruct (sep_lemma g Hg l pos (37 :: body) Hm) as (l' & Hl' & E). rewrite E. apply last_comment; assumption.
  - destruct (sep_lemma g Hg l pos (sp ++ rest) Hm) as (l1 & Hl1 & ->).
    destruct (spell_lemma _ _ _ Hsp true l1 (pos + Z.of_nat (length g)) rest Hf Hl1) as (l2 & Hl2 & ->).
    unfold one, pre. destruct k.
    + rewrite (IH l2 Hl2). reflexivity.
    + destruct (pending_skip l2 (pos + Z.of_nat (length g) + Z.of_nat (length sp) - 1) rest Hl2 (Hf eq_refl)) as (l3 & Hl3 & ->).
      replace (pos + Z.of_nat (length g) + Z.of_nat (length sp) - 1 + 1) with (pos + Z.of_nat (length g) + Z.of_nat (length sp)) by lia.
      rewrite (IH l3 Hl3). reflexivity.
    + rewrite (IH l2 Hl2). reflexivity.
Qed.
