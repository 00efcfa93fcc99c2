(* Properties C19 (interning), C21 (inline images), C22 (several content streams). *)
From Coq Require Import String.
From Verif Require Import Base Lex_Model Lex_Chunk Lex_Spec Lex_Proofs Obj Stack_Model Stack_Spec Stack_Proofs StreamObj_Proofs Content_Model Content_Spec Content_Proofs.
From Coq Require Import ZifyBool ZifyNat.

(* ---------- C19 ---------- *)
(* A history of intern calls on a fresh table: the i-th and the j-th calls return the identical object exactly when
   they were given the same name, and at the end every object still has its name.  eqb is equality of names. *)
Theorem C19_identity {N : Type} (eqb : N -> N -> bool) (eqb_eq : forall a b, eqb a b = true <-> a = b) (ns : list N) :
  let (objs, t) := interns eqb tab0 ns in
  length objs = length ns /\
  (forall i n, nth_error ns i = Some n -> exists o, nth_error objs i = Some o /\ nth_error (heap t) o = Some n) /\
  (forall i j n m o q, nth_error ns i = Some n -> nth_error ns j = Some m ->
     nth_error objs i = Some o -> nth_error objs j = Some q -> (o = q <-> n = m)).
Proof.
  pose proof (interns_lemma eqb eqb_eq ns tab0 (tab_ok0 eqb)) as H. destruct (interns eqb tab0 ns) as [objs t].
  destruct H as (Hok & HF & _).
  assert (Hn : forall i n, nth_error ns i = Some n -> exists o, nth_error objs i = Some o /\ nth_error (heap t) o = Some n).
  { clear Hok. induction HF as [|o n objs ns Ho HF IH]; intros i m Hi; [destruct i; discriminate|].
    destruct i as [|i]; cbn in *; [injection Hi as <-; exists o; split; [reflexivity|assumption]|apply IH; assumption]. }
  splits; [clear -HF; induction HF; cbn; congruence|assumption|].
  intros i j n m o q Hi Hj Ho Hq. destruct (Hn i n Hi) as (o' & Ho' & Hh1). destruct (Hn j m Hj) as (q' & Hq' & Hh2).
  rewrite Ho in Ho'. rewrite Hq in Hq'. injection Ho' as <-. injection Hq' as <-. split; [intros ->; congruence|].
  intros ->. apply (tab_unique eqb t o q m); assumption.
Qed.
(* in the middle of a history: an object returned before keeps its name whatever is interned after *)
Theorem C19_names_kept {N : Type} (eqb : N -> N -> bool) (eqb_eq : forall a b, eqb a b = true <-> a = b) (ns more : list N) :
  let (objs, t) := interns eqb tab0 ns in
  let (objs2, t2) := interns eqb t more in
  Forall2 (fun o n => nth_error (heap t2) o = Some n) objs ns.
Proof.
  pose proof (interns_lemma eqb eqb_eq ns tab0 (tab_ok0 eqb)) as H. destruct (interns eqb tab0 ns) as [objs t].
  destruct H as (Hok & HF & _). pose proof (interns_lemma eqb eqb_eq more t Hok) as H2.
  destruct (interns eqb t more) as [objs2 t2]. destruct H2 as (_ & _ & (m & Hm)).
  clear -HF Hm. induction HF as [|o n objs ns Ho HF IH]; constructor; [|assumption].
  rewrite Hm, nth_error_app1; [assumption|]. apply nth_error_Some. congruence.
Qed.
Example C19_case : fst (interns list_eqb tab0 [bs "R"; bs "obj"; bs "R"; bs "A"; bs "obj"]) = [0; 1; 0; 2; 1]%nat.
Proof. reflexivity. Qed.

(* ---------- C22 ---------- *)
Lemma sep_app a b : Sep a -> Sep b -> Sep (a ++ b).
Proof.
  induction 1 as [|c g Hc Hg IH|body e g Hb He Hg IH]; intros Hb2; [assumption|constructor; [assumption|auto]|].
  cbn [app]. rewrite <- app_assoc. cbn [app]. apply Sep_comment; auto.
Qed.
Lemma follows_more k a b : follows false k a -> follows false k (a ++ b).
Proof. destruct k; cbn; [tauto|discriminate|]. intros (c & r & -> & H). exists c, (r ++ b). split; [reflexivity|assumption]. Qed.
Lemma layoutP_shift p ts text rest : LayoutP false p ts text rest -> forall q more,
  LayoutP false (p + q) (map (fun t => (fst t + q, snd t)) ts) text (rest ++ more).
Proof.
  induction 1 as [pos g rest Hg|pos g t sp k ts text rest Hg Hsp Hf HL IH]; intros q more; cbn [map fst snd]; [constructor; assumption|].
  replace (pos + Z.of_nat (length g) + q) with (pos + q + Z.of_nat (length g)) by lia.
  eapply LP_tok; [assumption|exact Hsp|rewrite app_assoc; apply follows_more; assumption|].
  replace (pos + q + Z.of_nat (length g) + Z.of_nat (length sp)) with (pos + Z.of_nat (length g) + Z.of_nat (length sp) + q) by lia.
  apply IH.
Qed.
Lemma layoutP_sep p g0 ts text rest : Sep g0 -> LayoutP false p ts text rest -> LayoutP false (p - Z.of_nat (length g0)) ts (g0 ++ text) rest.
Proof.
  intros Hg H. inversion H; subst; [constructor; apply sep_app; assumption|].
  rewrite app_assoc. replace (p + Z.of_nat (length g)) with (p - Z.of_nat (length g0) + Z.of_nat (length (g0 ++ g))) by (rewrite app_length; lia).
  eapply LP_tok; [apply sep_app; assumption|eassumption|eassumption|].
  replace (p - Z.of_nat (length g0) + Z.of_nat (length (g0 ++ g))) with (p + Z.of_nat (length g)) by (rewrite app_length; lia). assumption.
Qed.
Lemma layoutP_app p ts1 a r : LayoutP false p ts1 a r -> forall ts2 b rest, r = b ++ rest ->
  LayoutP false (p + Z.of_nat (length a)) ts2 b rest -> LayoutP false p (ts1 ++ ts2) (a ++ b) rest.
Proof.
  induction 1 as [pos g rest0 Hg|pos g t sp k ts text rest0 Hg Hsp Hf HL IH]; intros ts2 b rest -> H2.
  - apply (layoutP_sep _ g _ _ _ Hg) in H2. replace (pos + Z.of_nat (length g) - Z.of_nat (length g)) with pos in H2 by lia. assumption.
  - cbn [app]. rewrite <- !app_assoc. eapply LP_tok; [assumption|exact Hsp|rewrite <- app_assoc; assumption|].
    apply (IH ts2 b rest eq_refl). replace (pos + Z.of_nat (length g) + Z.of_nat (length sp) + Z.of_nat (length text)) with (pos + Z.of_nat (length (g ++ sp ++ text))) by (rewrite !app_length; lia).
    assumption.
Qed.
Lemma spells_all streams valss : Forall2 Spells streams valss -> forall p,
  exists ts, LayoutP false p ts (concat streams) [] /\ map snd ts = concat valss.
Proof.
  induction 1 as [|s v streams valss (ts & H1 & H2) HF IH]; intros p.
  - exists []. split; [repeat constructor|reflexivity].
  - cbn [concat]. destruct (IH (p + Z.of_nat (length s))) as (ts2 & L2 & V2).
    exists (map (fun t => (fst t + p, snd t)) ts ++ ts2). split.
    + apply (layoutP_app p _ s (concat streams)); [|rewrite app_nil_r; reflexivity|assumption].
      pose proof (layoutP_shift _ _ _ _ H1 p (concat streams)) as L. exact L.
    + rewrite map_app, map_map, V2. cbn [snd]. rewrite <- H2. reflexivity.
Qed.

(* A page content given as any number of streams, each spelling its own tokens: the parser delivers the tokens of the
   first, then those of the second, ..., then signals the end of data; for every read size. *)
Theorem C22_concatenation_partial n streams valss : (0 < n)%nat -> streams <> [] -> Forall2 Spells streams valss ->
  map snd (fst (content_tokens n streams)) = concat valss /\ snd (content_tokens n streams) = PSEOF.
Proof.
  intros Hn Hs HF. destruct (spells_all streams valss HF 0) as (ts & HL & HV).
  destruct (layoutP_lemma _ _ _ _ _ HL ltac:(discriminate) lex0 eq_refl) as [(ts' & l' & F & _ & E3) _].
  rewrite app_nil_r, toks_nil in E3. pose proof (content_values n streams Hn Hs) as V. rewrite E3 in V.
  unfold vals2, pre in V. cbn [fst snd] in V. rewrite app_nil_r, (tok_eq_snd _ _ F), HV in V.
  injection V as V1 V2. split; assumption.
Qed.
(* For every way of cutting a byte string into streams the token values and the final exception are those of the
   uncut byte string (this is why tokens are glued across a boundary, below). *)
Theorem C22_any_split n m streams s : (0 < n)%nat -> (0 < m)%nat -> streams <> [] -> concat streams = s ->
  map snd (fst (content_tokens n streams)) = map snd (fst (content_tokens m [s])) /\
  snd (content_tokens n streams) = snd (content_tokens m [s]).
Proof.
  intros Hn Hm Hs E. pose proof (content_values n streams Hn Hs) as A. pose proof (content_values m [s] Hm ltac:(discriminate)) as B.
  cbn [concat] in B. rewrite app_nil_r in B. rewrite E, <- B in A. unfold vals2 in A. injection A as A1 A2. split; assumption.
Qed.
Example C22_case : content_tokens 3 [bs "q 1 0 0 "; []; bs "1 [(a)] TJ%c
"; bs "
Q "] = ([(0, KW "q"); (2, TInt 1); (4, TInt 0); (6, TInt 0); (0, TInt 1); (2, KW "["); (3, TStr (bs "a")); (6, KW "]"); (8, KW "TJ"); (1, KW "Q")], PSEOF).
Proof. vm_compute. reflexivity. Qed.
Example C22_case_hyps : Forall2 Spells [bs "q 12 "; []; bs "(a)"] [[KW "q"; TInt 12]; []; [TStr (bs "a")]].
Proof.
  constructor; [|constructor; [|constructor; [|constructor]]].
  - exists [(0, KW "q"); (2, TInt 12)]. split; [|reflexivity].
    apply (LP_tok false 0 [] (KW "q") (bs "q") NeedsBoundary [(2, TInt 12)] (bs " 12 ") []); [constructor| | |].
    + apply (Sp_kwd 113 []); [unfold letter; lia|constructor|discriminate|discriminate].
    + exists 32, (bs "12 "). split; [reflexivity|]. left. left. reflexivity.
    + apply (LP_tok false 1 [32] (TInt (1 * 12)) (bs "12") NeedsBoundary [] (bs " ") []).
      * constructor; [left; reflexivity|constructor].
      * apply (Sp_int [] 1 (bs "12") 12); [constructor|]. apply (Dec_more [49] 1 2); [|lia]. apply (Dec_one 1). lia.
      * exists 32, []. split; [reflexivity|]. left. left. reflexivity.
      * constructor. constructor; [left; reflexivity|constructor].
  - exists []. split; [repeat constructor|reflexivity].
  - exists [(0, TStr (bs "a"))]. split; [|reflexivity].
    apply (LP_tok false 0 [] (TStr (bs "a")) (bs "(a)") SelfDelimited [] [] []); [constructor| |exact I|repeat constructor].
    apply (Sp_str (bs "a") (bs "a")). apply (SB_byte 97 [] []); try discriminate. constructor.
Qed.
(* Refuted in general: a token that reaches the end of its stream is glued to the first token of the next one, and
   the last token of the content is lost. *)
Theorem C22_glued_refuted : content_tokens 4 [bs "1"; bs "2 "] = ([(0, TInt 12)], PSEOF).
Proof. vm_compute. reflexivity. Qed.
Theorem C22_glued_comment_refuted : content_tokens 4 [bs "1 %x"; bs "2 3
4 "] = ([(0, TInt 1); (4, TInt 4)], PSEOF).
Proof. vm_compute. reflexivity. Qed.
Theorem C22_last_token_lost_refuted : content_tokens 4 [bs "BT "; bs "ET"] = ([(0, KW "BT")], PSEOF).
Proof. vm_compute. reflexivity. Qed.

(* ---------- C21 ---------- *)
Lemma inline_hnt n s : (0 < n)%nat -> forall c t ts e, (exists k, at_point s k c) -> ctokens n c = (t :: ts, e) ->
  exists c', cnexttoken n c = (Ok t, c') /\ ctokens n c' = (ts, e) /\ (exists k, at_point s k c').
Proof.
  intros Hn c t ts e (k & Hk) H. destruct (cnexttoken_tokens n Hn c t ts e I H) as (c' & E & T & _).
  exists c'. splits; [assumption|assumption|]. unfold cnexttoken in E.
  pose proof (ctoken_exact n s Hn (lex_fuel (length (cahead c))) c k Hk) as X. rewrite E in X. destruct X as [_ X]. exact X.
Qed.
Lemma build_dict_false kvs : Forall (fun kv => snd kv <> ONull) kvs -> forall acc,
  build_dict false acc (flatten_kv kvs) = build_dict true acc (flatten_kv kvs).
Proof.
  induction 1 as [|[k v] kvs Hv HF IH]; intros acc; [reflexivity|]. cbn [flatten_kv build_dict]. cbn in Hv.
  destruct v; try congruence; cbn [hashable]; apply IH.
Qed.
Lemma writtenE_nonnull kvs ts : WrittenE false false kvs ts -> Forall (fun kv => snd kv <> ONull) kvs.
Proof. induction 1; constructor; [|assumption]. cbn. intros ->. inversion H. discriminate. Qed.
Lemma ID_spell : Spell (KW "ID") (bs "ID") NeedsBoundary. Proof. kwspell. Qed.
Lemma white_space w : white w <-> is_space w = true.
Proof. unfold white, is_space. lia. Qed.

(* get_inline_data, anywhere in the content (the data and its marker may run over several streams), for every read
   size: the bytes between the position and the marker are returned without the end of line before EI, and what is
   read next is what follows the marker. *)
Theorem C21_get_inline_data n c s t pos d nl w rest : (0 < n)%nat -> cfp c = Some (s, t) ->
  skipn (Z.to_nat pos) s ++ concat (cstreams c) = d ++ nl ++ bs "EI" ++ [w] ++ rest -> white w ->
  ~ marker_in (d ++ nl) -> (forall a, d ++ nl <> a ++ bs "E") -> (forall a, d ++ nl <> a ++ bs "EI") ->
  strips d nl -> (nl = [] -> d <> []) ->
  exists c', get_inline_data n c pos = Ok (d, c') /\ cahead c' = rest /\ clx c' = lex0.
Proof.
  intros Hn Hfp Hd Hw Hm H1 H2 Hst Hne. apply white_space in Hw.
  destruct (get_inline_lemma n c s t pos d nl w rest Hn Hfp) as (c' & G1 & G2 & G3 & _); try assumption.
  - rewrite Hd. rewrite <- app_assoc. reflexivity.
  - exists c'. splits; assumption.
Qed.
(* the marker never found: PSEOF, no partial data *)
Theorem C21_no_marker n c s t pos : (0 < n)%nat -> cfp c = Some (s, t) ->
  ~ marker_in (skipn (Z.to_nat pos) s ++ concat (cstreams c)) -> get_inline_data n c pos = Err PSEOF.
Proof.
  intros Hn Hfp Hm. unfold get_inline_data, cseek. rewrite Hfp. cbn [bind].
  set (c0 := mkCp lex0 pos [] (Some (s, Z.to_nat pos)) (cstreams c)).
  change (skipn (Z.to_nat pos) s ++ concat (cstreams c)) with (cahead c0) in Hm.
  pose proof (inline_loop_spec n Hn (2 * length (cahead c0) + 4) c0 0 [] ltac:(lia) ltac:(lia)) as L.
  destruct (auto 0 (cahead c0)) as [[x y]|] eqn:E; [|rewrite L; reflexivity]. exfalso. apply Hm. clear L Hm.
  generalize (cahead c0) E. clear.
  assert (G : forall l i x y, (i <= 2)%nat -> auto i l = Some (x, y) -> marker_in ((if Nat.eqb i 0 then [] else if Nat.eqb i 1 then [69] else [69; 73]) ++ l)).
  { induction l as [|z l IH]; intros i x0 y0 Hi H; cbn [auto] in H; [discriminate|].
    destruct (Nat.eqb (anext i z) 3) eqn:E3.
    - destruct i as [|[|[|i]]]; cbn in E3; [destruct (z =? 69); discriminate|destruct (z =? 73); discriminate| |lia].
      destruct (is_space z) eqn:Ez; [|discriminate]. exists [], z, l. split; [reflexivity|assumption].
    - destruct (auto (anext i z) l) as [[a b]|] eqn:Ea; [|discriminate].
      assert (Hn : (anext i z <= 2)%nat).
      { destruct i as [|[|i]]; cbn in *; [destruct (z =? 69); lia|destruct (z =? 73); lia|destruct (is_space z); [discriminate|lia]]. }
      specialize (IH _ _ _ Hn Ea). destruct IH as (p & w & q & Hp & Hw).
      destruct i as [|[|[|i]]]; cbn [anext] in *; [| | |lia].
      + destruct (z =? 69) eqn:Ez; cbn in *; [apply Z.eqb_eq in Ez; subst z|].
        * exists p, w, q. split; assumption.
        * exists (z :: p), w, q. split; [cbn; rewrite Hp; reflexivity|assumption].
      + destruct (z =? 73) eqn:Ez; cbn in *; [apply Z.eqb_eq in Ez; subst z|].
        * exists p, w, q. split; assumption.
        * exists (69 :: z :: p), w, q. split; [cbn; rewrite Hp; reflexivity|assumption].
      + destruct (is_space z) eqn:Ez; cbn in *; [discriminate|].
        exists (69 :: 73 :: z :: p), w, q. split; [cbn; rewrite Hp; reflexivity|assumption]. }
  intros l H. apply (G l 0%nat x y ltac:(lia) H).
Qed.

(* An inline image of a content stream, wherever it stands: BI, the entries written in any way, ID, one white byte,
   the data, an end of line or nothing, EI, white space.  The next object is the image with exactly these entries and
   bytes, the one after it is the operator EI, and the parser then stands right after the marker. *)
Theorem C21_inline_image_partial n s before btext b ets kvs w0 d nl w rest c :
  (0 < n)%nat ->
  s = before ++ btext ++ bs "ID" ++ [w0] ++ d ++ nl ++ bs "EI" ++ [w] ++ rest ->
  at_point s (length before) c -> mode_ (clx c) = MMain ->
  LayoutP false (Z.of_nat (length before)) ((b, KW "BI") :: ets) btext (bs "ID" ++ [w0] ++ d ++ nl ++ bs "EI" ++ [w] ++ rest) ->
  WrittenE false false kvs (map snd ets) -> NoDup (map fst kvs) -> white w0 -> white w ->
  ~ marker_in (d ++ nl) -> (forall a, d ++ nl <> a ++ bs "E") -> (forall a, d ++ nl <> a ++ bs "EI") ->
  strips d nl -> (nl = [] -> d <> []) ->
  exists m p1 p2 c' s1, (forall f, content_nextobject n (m + f) c stk0 = Ok ((p1, OStream (entries kvs) d), c', s1)) /\
    (forall f, content_nextobject n f c' s1 = Ok ((p2, OK "EI"), c', stk0)) /\
    at_point s (length s - length rest) c' /\ clx c' = lex0.
Proof.
  intros Hn Hs Hk Hmm HL HW Hnd Hw0 Hw Hm H1 H2 Hst Hne.
  set (tl := d ++ nl ++ bs "EI" ++ [w] ++ rest) in *.
  assert (Hskip : skipn (length before) s = btext ++ bs "ID" ++ [w0] ++ tl) by (rewrite Hs; apply skipn_before; reflexivity).
  pose proof (ctokens_toks n s _ c Hn Hk) as T. rewrite Hskip in T.
  destruct (layoutP_lemma _ _ _ _ _ HL ltac:(discriminate) (clx c) Hmm) as [(ts' & l' & F & Hl' & E3) _].
  assert (LID : LayoutP false (Z.of_nat (length before) + Z.of_nat (length btext)) [(Z.of_nat (length before) + Z.of_nat (length btext) + Z.of_nat (length (@nil Z)), KW "ID")] ([] ++ bs "ID" ++ []) ([w0] ++ tl)).
  { eapply LP_tok; [constructor|apply ID_spell| |repeat constructor]. exists w0, tl. split; [reflexivity|left; assumption]. }
  assert (Hw0n : forall r, [w0] ++ tl <> 62 :: r) by (intros r E; injection E as -> _; unfold white in Hw0; lia).
  destruct (layoutP_lemma _ _ _ _ _ LID Hw0n l' Hl') as [(ts2 & l2 & F2 & Hl2 & E4) _].
  inversion F2 as [|[q k] ? ? ? [Hkw Hq] F3]; subst. inversion F3; subst. cbn [snd fst] in *. subst k. destruct Hq as [Hq|Hq]; [|discriminate].
  cbn [app] in E4. change (bs "ID" ++ [] ++ w0 :: tl) with (bs "ID" ++ [w0] ++ tl) in E4.
  change ((bs "ID" ++ []) ++ w0 :: tl) with (bs "ID" ++ [w0] ++ tl) in E4.
  rewrite E3, E4 in T. unfold pre in T. cbn [fst snd] in T.
  inversion F as [|[q0 k0] ? ts1 ? [Hk0 _] F0]; subst. cbn [snd fst] in *. subst k0.
  set (S := before ++ btext ++ bs "ID" ++ [w0] ++ tl) in *.
  cbn [app] in T. set (q := Z.of_nat (length before) + Z.of_nat (length btext) + Z.of_nat 0) in *.
  destruct (inline_hnt n S Hn c _ _ _ (ex_intro (fun k => at_point S k c) (length before) Hk) T) as (c1 & N1 & T1 & G1).
  assert (Q : quiet flush_all (start_type stk0 q0 KInline)) by (split; [reflexivity|left; discriminate]).
  destruct (written_runs (cnexttoken n) (fun c => exists k, at_point S k c) (ctokens n) (inline_hnt n S Hn) (content_keyword n) flush_all false false ltac:(discriminate) ltac:(discriminate)) as (_ & _ & HE).
  destruct (HE _ _ HW (start_type stk0 q0 KInline) ts1 Q (tok_eq_snd _ _ F0)) as (l & Hl & R).
  destruct (R c1 _ _ G1 T1) as (m & c3 & G3 & T3 & E5).
  destruct (inline_hnt n S Hn _ _ _ _ G3 T3) as (c4 & N4 & T4 & (k4 & G4)).
  (* the data *)
  destruct G4 as (t4 & A1 & A2 & A3 & A4 & A0 & A5).
  set (off := (length before + length btext + 3)%nat).
  assert (Hoff : q + 3 = Z.of_nat off) by (unfold off, q; lia).
  assert (Hd : skipn (Z.to_nat (q + 3)) S ++ concat (cstreams c4) = (d ++ nl) ++ [69; 73; w] ++ rest).
  { rewrite A2, Hoff, Nat2Z.id. cbn [concat]. rewrite app_nil_r. unfold S.
    replace (before ++ btext ++ bs "ID" ++ [w0] ++ tl) with ((before ++ btext ++ bs "ID" ++ [w0]) ++ tl) by (rewrite <- !app_assoc; reflexivity).
    rewrite skipn_before by (rewrite !app_length; cbn; lia). unfold tl. rewrite <- app_assoc. reflexivity. }
  pose proof (proj1 (white_space w) Hw) as Hw'.
  destruct (get_inline_lemma n c4 S t4 (q + 3) d nl w rest Hn A1 Hd Hm H1 H2 Hw' Hst Hne) as (c' & I1 & I2 & I3 & I4).
  exists (Datatypes.S (m + 1)), (q + 3), (q + 3), c', (mkStk [] None [] [(q + 3, OK "EI")]). splits.
  - intros f. unfold content_nextobject. cbn [Nat.add]. rewrite nextobject_eq. cbn [stk0 results]. rewrite N1.
    unfold step at 1, KW. change (list_eqb (bs "BI") (bs "[")) with false. cbn iota.
    change (content_keyword n c1 stk0 q0 (bs "BI")) with (Ok (c1, start_type stk0 q0 KInline)).
    match goal with |- (bind ?x _) = _ => change x with (Ok (c1, start_type stk0 q0 KInline)) end. cbn [bind].
    rewrite (quiet_flush flush_all _ Q), <- Nat.add_assoc, E5, nextobject_eq.
    change (results (push_all (start_type stk0 q0 KInline) l)) with (@nil pobj). cbn [Nat.add]. rewrite N4.
    match goal with |- (bind ?x _) = _ => change x with (content_keyword n c4 (push_all (start_type stk0 q0 KInline) l) q (bs "ID")) end.
    unfold content_keyword. change (list_eqb (bs "ID") (bs "BI")) with false. change (list_eqb (bs "ID") (bs "ID")) with true. cbn iota.
    rewrite end_start, Hl, flatten_even, (build_dict_false kvs (writtenE_nonnull _ _ HW)), build_dict_lemma; [|assumption|intros k _ k' v' []].
    cbn [bind]. rewrite I1. cbn [bind]. rewrite nextobject_eq. reflexivity.
  - intros f. unfold content_nextobject. rewrite nextobject_eq. reflexivity.
  - assert (P0 : at_point S off (mkCp lex0 (q + 3) [] (Some (S, Z.to_nat (q + 3))) (cstreams c4))).
    { exists off. rewrite Hoff, Nat2Z.id. cbn. splits; try reflexivity; [assumption|lia|]. unfold S, off. rewrite !app_length. cbn. lia. }
    destruct (inline_loop_point n S Hn _ _ _ _ _ _ _ P0 I4) as (k' & Hk').
    pose proof (at_point_ahead _ _ _ Hk') as Ha. rewrite I2 in Ha.
    assert (Hlen : length rest = (length S - k')%nat) by (rewrite Ha; apply skipn_length).
    assert (Hle : (length rest <= length S)%nat) by (unfold S, tl; rewrite !app_length; lia).
    assert (Hc : (k' <= length S)%nat) by (destruct Hk' as (t' & _ & _ & _ & B4 & B0 & _); lia).
    replace (length S - length rest)%nat with k' by lia. assumption.
  - assumption.
Qed.

Definition img (payload : list Z) : list Z := bs "q BI /W 1/H[2]ID " ++ payload ++ bs "EI Q ".
Example C21_case : content_objects 3 60 [img ([0; 255] ++ bs "EIx E" ++ [13; 10])] =
  ([(0, OK "q"); (17, OStream [(ON "W", OInt 1); (ON "H", OArr [OInt 2])] ([0; 255] ++ bs "EIx E")); (17, OK "EI"); (29, OK "Q")], PSEOF).
Proof. vm_compute. reflexivity. Qed.
Example C21_case_hyps : ~ marker_in (([0; 255] ++ bs "EIx E") ++ [13; 10]) /\ strips ([0; 255] ++ bs "EIx E") [13; 10] /\
  WrittenE false false [(bs "W", OInt 1); (bs "H", OArr [OInt 2])] [TLit (bs "W"); TInt 1; TLit (bs "H"); KW "["; TInt 2; KW "]"].
Proof.
  splits.
  - intros (a & w & b & H & Hw). do 8 (destruct a as [|? a]; [cbn in H; inversion H; subst; discriminate|]; cbn in H; injection H as _ H; [..]).
    destruct a as [|? [|? a]]; discriminate.
  - left. reflexivity.
  - apply (WE_cons false false (bs "W") (OInt 1) _ [TInt 1]); [constructor|].
    apply (WE_cons false false (bs "H") (OArr [OInt 2]) [] [KW "["; TInt 2; KW "]"] []); [|constructor].
    apply (W_arr false false [OInt 2] [TInt 2]). apply (WL_cons false false (OInt 2) [] [TInt 2] []); constructor.
Qed.
(* Refuted without the side conditions: a payload whose last byte is E directly before EI hides the marker (the
   matcher does not restart on the second E), and the rest of the page is swallowed... *)
Theorem C21_payload_ending_in_E_refuted : content_objects 3 60 [img (bs "abE")] = ([(0, OK "q")], PSEOF).
Proof. vm_compute. reflexivity. Qed.
Theorem C21_payload_ending_in_EI_refuted : content_objects 3 60 [img (bs "abEI")] = ([(0, OK "q")], PSEOF).
Proof. vm_compute. reflexivity. Qed.
(* ... and a payload that itself ends with a line feed loses it together with the end of line before EI. *)
Theorem C21_payload_ending_in_newline_refuted :
  match content_objects 3 60 [img (bs "ab" ++ [10; 10])] with
  | ([_; (_, OStream _ d); _; _], _) => d = bs "ab" | _ => False end.
Proof. vm_compute. reflexivity. Qed.
