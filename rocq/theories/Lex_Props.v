(* Properties C09, C12-C15, C17, C18, C61: the tokenizer. *)
From Coq Require Import String.
From Verif Require Import Base Lex_Model Lex_Chunk Lex_Spec Lex_Proofs.
From Coq Require Import ZifyBool ZifyNat.

(* ---------- C09: buffering is invisible ---------- *)
(* Two readers of the same bytes, whatever the sizes of the pieces fp.read returns, give the same tokens at the
   same positions and end with the same exception. *)
Theorem C09_tokens_any_chunks pos cs1 cs2 :
  Forall (fun c => c <> []) cs1 -> Forall (fun c => c <> []) cs2 -> concat cs1 = concat cs2 ->
  tokens (open_at pos cs1) = tokens (open_at pos cs2).
Proof.
  intros H1 H2 H. apply tokens_same_lemma; [assumption|assumption|].
  split; [reflexivity|]. split; [reflexivity|]. cbn. assumption.
Qed.

(* in particular the BUFSIZ constant is irrelevant *)
Theorem C09_tokens_bufsiz pos data n m : (0 < n)%nat -> (0 < m)%nat ->
  tokens (open_at pos (read_chunks n data)) = tokens (open_at pos (read_chunks m data)).
Proof. apply tokens_bufsiz_lemma. Qed.

(* and at every intermediate point: two parsers in the same lexical state with the same bytes ahead return the
   same token and are again in the same state with the same bytes ahead *)
Theorem C09_nexttoken_step p q t p' :
  Forall (fun c => c <> []) (chunks p) -> Forall (fun c => c <> []) (chunks q) ->
  lx p = lx q -> pos p = pos q -> buf p ++ concat (chunks p) = buf q ++ concat (chunks q) ->
  nexttoken p = (Ok t, p') ->
  exists q', nexttoken q = (Ok t, q') /\ lx p' = lx q' /\ pos p' = pos q' /\
    buf p' ++ concat (chunks p') = buf q' ++ concat (chunks q').
Proof.
  intros Hp Hq H1 H2 H3 Hn. destruct (nexttoken_same_lemma p q Hp Hq (conj H1 (conj H2 H3))) as [E S].
  rewrite Hn in E, S. cbn [fst snd] in *. destruct (S t eq_refl) as ((S1 & S2 & S3) & _ & _).
  exists (snd (nexttoken q)). splits; try assumption.
  rewrite E. apply surjective_pairing.
Qed.

Example C09_case :
  tokens (open_at 0 [bs "<</Le"; bs "ngth 1"; bs "2>>(a\0"; bs "53b) "]) =
    ([(0, KW "<<"); (2, TLit (bs "Length")); (10, TInt 12); (12, KW ">>"); (14, TStr (bs "a+b"))], PSEOF)
  /\ tokens (open_at 0 (read_chunks 1 (bs "<</Length 12>>(a\053b) "))) =
     tokens (open_at 0 (read_chunks 4096 (bs "<</Length 12>>(a\053b) "))).
Proof. split; [vm_compute; reflexivity|apply C09_tokens_bufsiz; lia]. Qed.

(* ---------- the layout theorem ---------- *)
(* Any text that spells a sequence of tokens according to Lex_Spec is read as exactly those tokens, each at the
   offset of its first byte, provided no hexadecimal string is directly followed by '>' . *)
Theorem C18_layout_positions_partial n pos ts text : (0 < n)%nat -> Layout true pos ts text ->
  tokens (open_at pos (read_chunks n text)) = (ts, PSEOF).
Proof.
  intros Hn HL. destruct (read_chunks_spec n text Hn) as [E N].
  rewrite tokens_toks by exact N. cbn [open_at lx Lex_Model.pos buf chunks app]. rewrite E. apply layout_exact_lemma; [assumption|reflexivity].
Qed.

(* without that proviso the values are still right *)
Theorem C18_layout_values n pos ts text : (0 < n)%nat -> Layout false pos ts text ->
  map snd (fst (tokens (open_at pos (read_chunks n text)))) = map snd ts /\
  snd (tokens (open_at pos (read_chunks n text))) = PSEOF.
Proof.
  intros Hn HL. destruct (read_chunks_spec n text Hn) as [E N].
  rewrite tokens_toks by exact N. cbn [open_at lx Lex_Model.pos buf chunks app]. rewrite E.
  destruct (layout_values_lemma false pos ts text HL lex0 pos eq_refl) as [H _].
  unfold vals in H. injection H as H1 H2. split; assumption.
Qed.

(* but the position of a >> directly after a hexadecimal string is one too small *)
Theorem C18_position_after_hex_refuted :
  Layout false 0 [(0, TStr [171]); (4, TKwd [62; 62])] (bs "<AB>>>") /\
  fst (tokens (open_at 0 [bs "<AB>>>"])) = [(0, TStr [171]); (3, TKwd [62; 62])].
Proof.
  split; [|vm_compute; reflexivity].
  apply (L_tok false 0 [] (TStr [171]) (bs "<AB>") HexEnd [(4, TKwd [62; 62])] (bs ">>")).
  - constructor.
  - apply (Sp_hex (bs "AB") [171]). apply (HB_pair [] 65 [] 66 10 11 [] []); [constructor|constructor|apply (Hex_upper 10); lia|apply (Hex_upper 11); lia|constructor; constructor].
  - cbn. discriminate.
  - apply (L_tok false 4 [] (TKwd [62; 62]) (bs ">>") SelfDelimited [] []); [constructor|constructor|exact I|].
    apply L_end. constructor.
Qed.

(* ---------- C18: white space and comments only separate ---------- *)
Theorem C18_gaps_irrelevant n pos1 pos2 ts1 ts2 text1 text2 : (0 < n)%nat ->
  Layout false pos1 ts1 text1 -> Layout false pos2 ts2 text2 -> map snd ts1 = map snd ts2 ->
  map snd (fst (tokens (open_at pos1 (read_chunks n text1)))) =
  map snd (fst (tokens (open_at pos2 (read_chunks n text2)))).
Proof.
  intros Hn H1 H2 E. destruct (C18_layout_values n _ _ _ Hn H1) as [-> _].
  destruct (C18_layout_values n _ _ _ Hn H2) as [-> _]. assumption.
Qed.

(* NUL is white space in a PDF file, but it is read as a token *)
Theorem C18_nul_refuted :
  tokens (open_at 0 [bs "1 " ++ [0] ++ bs " 2 "]) = ([(0, TInt 1); (2, TKwd [0]); (4, TInt 2)], PSEOF).
Proof. vm_compute. reflexivity. Qed.

Lemma follows_space k e s : k <> HexEnd -> follows e k (32 :: s).
Proof.
  destruct k; intros H; cbn; [exact I|congruence|]. exists 32, s. split; [reflexivity|]. left. unfold white. lia.
Qed.

(* one spelled token, with anything before it that is a gap and a space after *)
Lemma single_token_lemma t sp k g n pos : (0 < n)%nat -> Sep g -> Spell t sp k ->
  tokens (open_at pos (read_chunks n (g ++ sp ++ [32]))) = ([(pos + Z.of_nat (length g), t)], PSEOF).
Proof.
  intros Hn Hg Hs. apply C18_layout_positions_partial; [assumption|].
  apply (L_tok true pos g t sp k [] [32]); [assumption|assumption| |].
  - destruct k; cbn; [exact I|discriminate|]. exists 32, []. split; [reflexivity|]. left; unfold white; lia.
  - apply L_end. apply Sep_white; [unfold white; lia|constructor].
Qed.

(* ---------- C12: literal strings ---------- *)
Lemma write_string_body s : StrBody (flat_map esc_byte s) s.
Proof.
  induction s as [|c s IH]; cbn [flat_map]; [constructor|]. unfold esc_byte at 1.
  destruct (Z.eqb_spec c 40) as [->|H1]; [apply SB_esc; [constructor|assumption]|].
  destruct (Z.eqb_spec c 41) as [->|H2]; [apply SB_esc; [constructor|assumption]|].
  destruct (Z.eqb_spec c 92) as [->|H3]; [apply SB_esc; [constructor|assumption]|].
  cbn. apply SB_byte; assumption.
Qed.

(* Every spelling of a byte string (raw bytes, escapes, octal escapes, nested parentheses, line continuations)
   is read back as that string. *)
Theorem C12_literal_string_partial t v n pos g : (0 < n)%nat -> Sep g -> StrBody t v ->
  tokens (open_at pos (read_chunks n (g ++ (40 :: t ++ [41]) ++ [32]))) = ([(pos + Z.of_nat (length g), TStr v)], PSEOF).
Proof. intros Hn Hg Hb. eapply single_token_lemma; [assumption|assumption|apply Sp_str; eassumption]. Qed.
(* missing: the spellings of C12_*_refuted below *)

Theorem C12_write_string_roundtrip s n pos : (0 < n)%nat ->
  tokens (open_at pos (read_chunks n (write_string s ++ [32]))) = ([(pos, TStr s)], PSEOF).
Proof.
  intros Hn. pose proof (C12_literal_string_partial (flat_map esc_byte s) s n pos [] Hn Sep_nil (write_string_body s)) as H.
  cbn [app length] in H. change (Z.of_nat 0) with 0 in H. rewrite Z.add_0_r in H. exact H.
Qed.

Ltac nb := let Hx := fresh in intros Hx; vm_compute in Hx; discriminate Hx.
Example C12_case : StrBody (bs "a(b\)c)\\\0533") (bs "a(b)c)\+3").
Proof.
  apply SB_byte; [nb|nb|nb|]. apply (SB_paren (bs "b\)c") (bs "b)c") (bs "\\\0533") (bs "\+3")).
  - apply SB_byte; [nb|nb|nb|]. apply SB_esc; [constructor|]. apply SB_byte; [nb|nb|nb|]. constructor.
  - apply SB_esc; [constructor|]. apply (SB_oct3 0 5 3 (bs "3") (bs "3")); [lia|lia|lia|].
    apply SB_byte; [nb|nb|nb|]. constructor.
Qed.

(* ISO 32000 7.3.4.2: a backslash before another character is ignored; the code drops the character too *)
Theorem C12_unknown_escape_refuted : tokens (open_at 0 [bs "(\Ab) "]) = ([(0, TStr (bs "b"))], PSEOF).
Proof. vm_compute. reflexivity. Qed.
(* a high-order overflow in an octal escape shall be ignored; the code raises struct.error *)
Theorem C12_octal_overflow_refuted : tokens (open_at 0 [bs "(\777) "]) = ([], StructError).
Proof. vm_compute. reflexivity. Qed.
(* a backslash CR LF is one line continuation; the code keeps the LF *)
Theorem C12_crlf_continuation_refuted :
  tokens (open_at 0 [bs "(a\" ++ [13; 10] ++ bs "b) "]) = ([(0, TStr (bs "a" ++ [10] ++ bs "b"))], PSEOF).
Proof. vm_compute. reflexivity. Qed.
(* an end-of-line marker within a string shall be read as LF; the code keeps CR and CR LF *)
Theorem C12_raw_eol_refuted :
  tokens (open_at 0 [bs "(a" ++ [13; 10] ++ bs "b) "]) = ([(0, TStr (bs "a" ++ [13; 10] ++ bs "b"))], PSEOF).
Proof. vm_compute. reflexivity. Qed.

(* ---------- C13: hexadecimal strings ---------- *)
Lemma hex_digit_spec v : 0 <= v <= 15 -> Hex (hex_digit v) v.
Proof.
  intros H. unfold hex_digit. destruct (Z.ltb_spec v 10); [apply Hex_digit; lia|apply Hex_upper; lia].
Qed.
Lemma byte_hex c : is_byte c -> Hex (hex_digit (c / 16)) (c / 16) /\ Hex (hex_digit (c mod 16)) (c mod 16) /\
  16 * (c / 16) + c mod 16 = c.
Proof.
  intros [H1 H2]. pose proof (Z.div_mod c 16 ltac:(lia)). pose proof (Z.mod_pos_bound c 16 ltac:(lia)).
  splits; [apply hex_digit_spec; lia|apply hex_digit_spec; lia|lia].
Qed.
Lemma write_hex_body s : bytes s -> HexBody (flat_map (fun c => [hex_digit (c / 16); hex_digit (c mod 16)]) s) s.
Proof.
  induction 1 as [|c s Hc Hs IH]; cbn [flat_map]; [constructor; constructor|].
  destruct (byte_hex c Hc) as (H1 & H2 & H3).
  pose proof (HB_pair [] _ [] _ _ _ _ _ (Forall_nil _) (Forall_nil _) H1 H2 IH) as H. rewrite H3 in H. exact H.
Qed.

(* every even-length spelling, with white space anywhere and digits of either case *)
Theorem C13_hex_string_partial t v n pos g : (0 < n)%nat -> Sep g -> HexBody t v ->
  tokens (open_at pos (read_chunks n (g ++ (60 :: t ++ [62]) ++ [32]))) = ([(pos + Z.of_nat (length g), TStr v)], PSEOF).
Proof. intros Hn Hg Hb. eapply single_token_lemma; [assumption|assumption|apply Sp_hex; eassumption]. Qed.

Theorem C13_write_hexstring_roundtrip s n pos : (0 < n)%nat -> bytes s ->
  tokens (open_at pos (read_chunks n (write_hexstring s ++ [32]))) = ([(pos, TStr s)], PSEOF).
Proof.
  intros Hn Hs. pose proof (C13_hex_string_partial _ s n pos [] Hn Sep_nil (write_hex_body s Hs)) as H.
  cbn [app length] in H. change (Z.of_nat 0) with 0 in H. rewrite Z.add_0_r in H. exact H.
Qed.

(* ISO 32000 7.3.4.3: <901FA> is 90 1F A0; the code reads 90 1F 0A *)
Theorem C13_odd_digit_refuted : tokens (open_at 0 [bs "<901FA> "]) = ([(0, TStr [144; 31; 10])], PSEOF).
Proof. vm_compute. reflexivity. Qed.

(* ---------- C14: names ---------- *)
Lemma write_name_body s : bytes s ->
  NameBody (flat_map (fun c => if name_plain c then [c] else [35; hex_digit (c / 16); hex_digit (c mod 16)]) s) s.
Proof.
  induction 1 as [|c s Hc Hs IH]; cbn [flat_map]; [constructor|].
  destruct (name_plain c) eqn:E.
  - unfold name_plain in E. cbn [existsb] in E. apply NB_reg; [| |assumption].
    + unfold regular, white, delim. cbn [In]. lia.
    + lia.
  - destruct (byte_hex c Hc) as (H1 & H2 & H3).
    pose proof (NB_hex _ _ _ _ _ _ H1 H2 IH) as H. rewrite H3 in H. exact H.
Qed.
Theorem C14_name t v n pos g : (0 < n)%nat -> Sep g -> NameBody t v ->
  tokens (open_at pos (read_chunks n (g ++ (47 :: t) ++ [32]))) = ([(pos + Z.of_nat (length g), TLit v)], PSEOF).
Proof. intros Hn Hg Hb. eapply single_token_lemma; [assumption|assumption|apply Sp_name; eassumption]. Qed.
Theorem C14_write_name_roundtrip s n pos : (0 < n)%nat -> bytes s ->
  tokens (open_at pos (read_chunks n (write_name s ++ [32]))) = ([(pos, TLit s)], PSEOF).
Proof.
  intros Hn Hs. pose proof (C14_name _ s n pos [] Hn Sep_nil (write_name_body s Hs)) as H.
  cbn [app length] in H. change (Z.of_nat 0) with 0 in H. rewrite Z.add_0_r in H. exact H.
Qed.
Example C14_case : write_name (bs "A B#/") = bs "/A#20B#23#2F".
Proof. vm_compute. reflexivity. Qed.

(* ---------- C15: integers ---------- *)
Lemma dec_exists v : 0 <= v -> exists t, Dec t v.
Proof.
  intros Hv. revert Hv. pattern v.
  assert (H : forall v, 0 <= v -> (0 <= v -> exists t, Dec t v)).
  { apply (Z_lt_induction (fun v => 0 <= v -> exists t, Dec t v)). intros x IH H.
    destruct (Z.ltb_spec x 10); [exists [48 + x]; constructor; lia|].
    pose proof (Z.div_mod x 10 ltac:(lia)). pose proof (Z.mod_pos_bound x 10 ltac:(lia)).
    destruct (IH (x / 10)) as [t Ht]; [lia|lia|].
    exists (t ++ [48 + x mod 10]). replace x with (10 * (x / 10) + x mod 10) at 2 by lia. constructor; [assumption|lia]. }
  intros Hv. apply (H v Hv Hv).
Qed.

(* every numeral, of any length, with or without a sign and leading zeros *)
Theorem C15_integer sg k t v n pos g : (0 < n)%nat -> Sep g -> Sign sg k -> Dec t v ->
  tokens (open_at pos (read_chunks n (g ++ (sg ++ t) ++ [32]))) = ([(pos + Z.of_nat (length g), TInt (k * v))], PSEOF).
Proof. intros Hn Hg Hs Hd. eapply single_token_lemma; [assumption|assumption|apply Sp_int; eassumption]. Qed.

(* every integer has a numeral, so every integer can be written and read back *)
Theorem C15_integer_roundtrip z : exists text, Spell (TInt z) text NeedsBoundary /\ forall n pos, (0 < n)%nat -> tokens (open_at pos (read_chunks n (text ++ [32]))) = ([(pos, TInt z)], PSEOF).
Proof.
  assert (H : exists sg k t v, Sign sg k /\ Dec t v /\ k * v = z).
  { destruct (Z.ltb_spec z 0).
    - destruct (dec_exists (- z) ltac:(lia)) as [t Ht]. exists [45], (-1), t, (- z). splits; [constructor|assumption|lia].
    - destruct (dec_exists z H) as [t Ht]. exists [], 1, t, z. splits; [constructor|assumption|lia]. }
  destruct H as (sg & k & t & v & Hs & Hd & <-). exists (sg ++ t). split; [apply Sp_int; assumption|].
  intros n pos Hn. pose proof (C15_integer sg k t v n pos [] Hn Sep_nil Hs Hd) as H.
  cbn [app length] in H. change (Z.of_nat 0) with 0 in H. rewrite Z.add_0_r in H. exact H.
Qed.

(* ---------- C17: nothing is lost at the end ---------- *)
Lemma name_unfinished t v : NameBody t v -> forall l pos cp v0, lit_state l cp v0 -> toks l pos t = ([], PSEOF).
Proof.
  induction 1 as [|c t v Hc H35 Hb IH|a b x y t v Ha Hb' Hb IH]; intros l pos cp v0 Hl.
  - apply toks_nil.
  - destruct Hl as (Hm & Hcu & Hcp). rewrite (toks_byteN l pos c _ (app_cur l [c])).
    + apply (IH _ _ cp (v0 ++ [c])). hnf; splits; [assumption| |assumption]. cbn. rewrite Hcu. reflexivity.
    + unfold parse_func. rewrite Hm. unfold parse_literal. cbn [span].
      rewrite (proj1 (regular_lit c) (conj Hc H35)). reflexivity.
  - destruct Hl as (Hm & Hcu & Hcp). apply hex_is in Ha as (Ha & Hax & Hxr). apply hex_is in Hb' as (Hbb & Hby & Hyr).
    destruct l as [m cu cp' pa oc hx]. cbn [mode_ cur curpos] in *. subst m cu cp'.
    rewrite (toks_byteN _ pos 35 _ (mkLex MLitHex v0 cp pa oc [])).
    2: { unfold parse_func, parse_literal. cbn. rewrite app_nil_r. reflexivity. }
    rewrite (toks_byteN _ (pos + 1) a _ (mkLex MLitHex v0 cp pa oc [a])).
    2: { unfold parse_func, parse_literal_hex. cbn. rewrite Ha. reflexivity. }
    rewrite (toks_byteN _ (pos + 1 + 1) b _ (mkLex MLitHex v0 cp pa oc [a; b])).
    2: { unfold parse_func, parse_literal_hex. cbn. rewrite Hbb. reflexivity. }
    destruct t as [|c u]; [apply toks_nil|].
    rewrite (toks_byte0N _ (pos + 1 + 1 + 1) c u (mkLex MLiteral (v0 ++ [16 * x + y]) cp pa oc [a; b])).
    + apply (IH _ _ cp (v0 ++ [16 * x + y])). hnf; splits; reflexivity.
    + unfold parse_func, parse_literal_hex. cbn [mode_ hexd length Nat.ltb Nat.leb]. rewrite andb_false_r.
      unfold hex_val. cbn [fold_left]. unfold app_cur, set_cur, set_mode. cbn. rewrite Hax, Hby.
      replace ((0 * 16 + x) * 16 + y) with (16 * x + y) by lia. reflexivity.
Qed.

Lemma unfinished t sp : Spell t sp NeedsBoundary -> forall l pos, mode_ l = MMain -> toks l pos sp = ([], PSEOF).
Proof.
  intros Hs l pos Hm. remember NeedsBoundary as k eqn:Hk. destruct Hs; try discriminate Hk.
  - destruct (dec_digit _ _ H0) as [Hf Hn].
    pose proof (sign_start sg k t t l pos [] H Hf eq_refl (or_intror Hn) Hm) as E. rewrite app_nil_r in E. rewrite E. apply toks_nil.
  - destruct (real_lemma sg k a b l pos [32] H H0 H1 H2) as (l' & _ & _).
    { exists 32, []. split; [reflexivity|left; unfold white; lia]. } { assumption. }
    assert (Hf : exists l1, mode_ l1 = MFloat /\ toks l pos (sg ++ a ++ 46 :: b) = toks l1 (pos + Z.of_nat (length (sg ++ a)) + 1) b).
    { replace (sg ++ a ++ 46 :: b) with ((sg ++ a) ++ 46 :: b) by (rewrite <- !app_assoc; reflexivity).
      destruct (sg ++ a) as [|z u] eqn:E.
      - exists (mkLex MFloat [46] pos (paren l) (oct l) (hexd l)). split; [reflexivity|].
        cbn [app length]. rewrite (main_start l pos 46 _ MFloat [46] Hm eq_refl). f_equal. change (Z.of_nat 0) with 0. lia.
      - assert (Hn : sg <> [] \/ a <> []). { destruct sg; [right|left]; [destruct a; [discriminate|discriminate]|discriminate]. }
        rewrite <- E. rewrite (sign_start sg k a a l pos _ H H0 eq_refl Hn Hm).
        exists (mkLex MFloat ((sg ++ a) ++ [46]) pos (paren l) (oct l) (hexd l)). split; [reflexivity|].
        apply toks_byteN. unfold parse_func, parse_number. cbn. unfold set_mode, app_cur, set_cur. cbn. rewrite app_nil_r. reflexivity. }
    destruct Hf as (l1 & M1 & ->). pose proof (float_digits b H1 l1 (pos + Z.of_nat (length (sg ++ a)) + 1) [] M1) as E.
    rewrite app_nil_r in E. rewrite E. apply toks_nil.
  - change (bs "true") with (116 :: bs "rue"). rewrite (main_start l pos 116 _ MKeyword [116] Hm eq_refl).
    pose proof (keyword_body (bs "rue")) as E. rewrite <- (app_nil_r (bs "rue")). rewrite E; [apply toks_nil| |reflexivity].
    repeat (constructor; [apply regular_lit; reflexivity|]). constructor.
  - change (bs "false") with (102 :: bs "alse"). rewrite (main_start l pos 102 _ MKeyword [102] Hm eq_refl).
    pose proof (keyword_body (bs "alse")) as E. rewrite <- (app_nil_r (bs "alse")). rewrite E; [apply toks_nil| |reflexivity].
    repeat (constructor; [apply regular_lit; reflexivity|]). constructor.
  - rewrite (main_start l pos c _ MKeyword [c] Hm).
    2: { unfold start_mode, is_digit, is_alpha, letter in *. replace (c =? 47) with false by lia.
         replace ((c =? 45) || (c =? 43) || _) with false by lia. replace (c =? 46) with false by lia.
         replace ((65 <=? c) && (c <=? 90) || _) with true by lia. reflexivity. }
    rewrite <- (app_nil_r t). rewrite keyword_body by (assumption || reflexivity). apply toks_nil.
  - rewrite (main_start l pos 47 _ MLiteral [] Hm eq_refl).
    eapply name_unfinished; [eassumption|]. hnf; splits; reflexivity.
Qed.

(* Tokens are complete when the data ends in a self-delimited token, white space or a comment: that is the layout
   theorem above.  A last number, keyword, boolean or name that is not followed by anything is lost, whatever it
   is: the claim "no token is lost" is false for all of them. *)
Theorem C17_last_token_refuted t sp g pos n : (0 < n)%nat -> Sep g -> Spell t sp NeedsBoundary ->
  tokens (open_at pos (read_chunks n (g ++ sp))) = ([], PSEOF).
Proof.
  intros Hn Hg Hs. destruct (read_chunks_spec n (g ++ sp) Hn) as [E N]. rewrite tokens_toks by exact N.
  cbn [open_at lx Lex_Model.pos buf chunks app]. rewrite E.
  destruct (sep_lemma g Hg lex0 pos sp eq_refl) as (l' & Hl' & ->). eapply unfinished; eassumption.
Qed.
Example C17_case : Spell (KW "endobj") (bs "endobj") NeedsBoundary /\
  tokens (open_at 0 [bs "1 endobj"]) = ([(0, TInt 1)], PSEOF) /\
  tokens (open_at 0 [bs "1 endobj "]) = ([(0, TInt 1); (2, KW "endobj")], PSEOF).
Proof.
  splits; try (vm_compute; reflexivity). apply (Sp_kwd 101 (bs "ndobj")).
  - unfold letter; lia.
  - repeat (constructor; [apply regular_lit; reflexivity|]). constructor.
  - discriminate.
  - discriminate.
Qed.
(* with a boundary after it (any token, any number of tokens before it) nothing is lost *)
Theorem C17_complete_partial n pos ts text : (0 < n)%nat -> Layout true pos ts text ->
  tokens (open_at pos (read_chunks n text)) = (ts, PSEOF).
Proof. apply C18_layout_positions_partial. Qed.

(* ---------- C61: tokenizing terminates on every input ---------- *)
Lemma parse_func_err l pos s e : parse_func l pos s = Err e -> e = StructError.
Proof.
  unfold parse_func, parse_main, parse_comment, parse_literal, parse_literal_hex, parse_number, parse_float,
    parse_keyword, parse_string, parse_string_1, parse_wopen, parse_wclose, parse_hexstring.
  destruct (mode_ l); repeat (match goal with |- context [match ?x with _ => _ end] => destruct x end; try discriminate; try congruence).
Qed.
Lemma flat_end : forall f l pos b cs, nonempty cs -> (measure_ l (length (b ++ concat cs)) < f)%nat ->
  snd (flat f l pos b cs) = PSEOF \/ snd (flat f l pos b cs) = StructError.
Proof.
  induction f as [|f IH]; intros l p0 b cs Hne H; [lia|]. cbn [flat].
  destruct (fillbuf b cs) as [[b1 cs1]|] eqn:Ef; [|left; reflexivity].
  assert (Hb1 : b1 <> [] /\ b ++ concat cs = b1 ++ concat cs1 /\ nonempty cs1).
  { destruct b as [|x b]; cbn [fillbuf] in Ef.
    - destruct cs as [|c cs]; [discriminate|]. inv Ef. inversion_clear Hne. split; [assumption|]. split; [reflexivity|assumption].
    - inv Ef. split; [discriminate|]. split; [reflexivity|assumption]. }
  destruct Hb1 as (Hb1 & Hcat & Hne1). rewrite Hcat in *.
  destruct (parse_func l p0 b1) as [[[l' t] r]|e] eqn:Ep.
  - destruct (parse_func_dec _ _ _ _ _ _ Hb1 Ep) as (Hd & _ & _). unfold measure_ in *.
    destruct (IH l' (p0 + Z.of_nat (length b1 - length r)) r cs1 Hne1) as [E|E].
    { unfold measure_. rewrite !app_length in *. lia. }
    + destruct (flat f l' _ r cs1). left. exact E.
    + destruct (flat f l' _ r cs1). right. exact E.
  - right. cbn. eapply parse_func_err; eassumption.
Qed.
Theorem C61_tokenizer_total pos cs : Forall (fun c => c <> []) cs ->
  snd (tokens (open_at pos cs)) = PSEOF \/ snd (tokens (open_at pos cs)) = StructError.
Proof.
  intros H. rewrite (tokens_flat (open_at pos cs) (S (measure_ lex0 (length (concat cs)))) H) by (cbn; lia).
  apply flat_end; [exact H|cbn; lia].
Qed.
