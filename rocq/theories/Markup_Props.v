(* Properties C53, C54, C55: what the JSON, XML and HTML writers write. *)
From Verif Require Export Markup_Model Markup_Spec Markup_Proofs JsonWriter_Proofs.
From Coq Require Import String.
Open Scope Z_scope.
Import ListNotations.

(* for the examples *)
Fixpoint nodupb (l : list (list Z)) : bool := match l with [] => true | x :: r => negb (existsb (list_eqb x) r) && nodupb r end.
Lemma nodupb_sound l : nodupb l = true -> NoDup l.
Proof.
  induction l as [|x r IH]; intro H; [constructor|]. cbn [nodupb] in H. apply andb_true_iff in H as [H1 H2]. constructor; [|apply IH; exact H2].
  intro Hin. apply negb_true_iff in H1. assert (existsb (list_eqb x) r = true); [|congruence].
  apply existsb_exists. exists x. split; [exact Hin|apply list_eqb_refl].
Qed.

(* ---------- C55: escaping ---------- *)
(* every text of code points comes back when references are expanded, and no <, > or double quote is left raw *)
Theorem C55_roundtrip x ascii : Forall (fun c => 0 <= c) x ->
  expand (enc (Str x) ascii) = Some x /\ Forall (fun c => c <> 60 /\ c <> 62 /\ c <> 34) (enc (Str x) ascii).
Proof. intro H. split; [apply enc_expand; exact H|apply enc_safe; exact H]. Qed.
(* with the ascii codec every written byte is below 128 *)
Theorem C55_ascii x : Forall (fun c => 0 <= c) x -> Forall (fun c => 0 <= c < 128) (enc (Str x) true).
Proof. apply enc_ascii. Qed.
(* different texts are written differently *)
Theorem C55_injective x y a : Forall (fun c => 0 <= c) x -> Forall (fun c => 0 <= c) y ->
  enc (Str x) a = enc (Str y) a -> x = y.
Proof.
  intros Hx Hy E. pose proof (enc_expand x a Hx) as Ex. rewrite E, (enc_expand y a Hy) in Ex. injection Ex as ->. reflexivity.
Qed.
(* the escaping used for the text of characters in XML *)
Theorem C55_character_text x : expand (sax_escape x) = Some x /\ Forall (fun c => c <> 60 /\ c <> 62) (sax_escape x).
Proof.
  split; [apply sax_expand|]. induction x as [|c x IH]; [constructor|].
  rewrite sax_cons. apply Forall_app; split; [|exact IH]. rewrite sax_one.
  destruct (Z.eqb_spec c 38); [repeat constructor; discriminate|].
  destruct (Z.eqb_spec c 62); [repeat constructor; discriminate|].
  destruct (Z.eqb_spec c 60); [repeat constructor; discriminate|]. repeat constructor; assumption.
Qed.
(* not escaped reversibly: bytes become the empty text *)
Theorem C55_bytes_refuted : exists b b' a, b <> b' /\ enc (Byt b) a = enc (Byt b') a.
Proof. exists [1], [2], true. split; [discriminate|reflexivity]. Qed.
(* characters that markup cannot hold are let through *)
Theorem C55_control_refuted : exists x, Forall scalar x /\ forallb xml_char (enc (Str x) true) = false.
Proof. exists [0]. split; [repeat constructor; unfold scalar; lia|reflexivity]. Qed.
Example C55_witness :
  enc (Str (bs "a<b & " ++ [34; 233; 34])) true = bs "a&lt;b &amp; &quot;&#233;&quot;" /\
  expand (bs "a&lt;b &amp; &quot;&#xe9;&quot;") = Some (bs "a<b & " ++ [34; 233; 34]) /\ expand (bs "a & b") = None.
Proof. vm_compute. auto. Qed.

(* ---------- C54: XML ---------- *)
(* every element tree a client writes, if its names are names and its values escaped, is one well-formed element with
   the same elements, attributes and texts, nested the same way *)
Theorem C54_wellformed_partial c : Good c ->
  snd (xrender_list 0 [c]) = false /\ exists t, xml_document (fst (xrender_list 0 [c])) = Some t /\ Shows c t.
Proof. apply xml_document_good. Qed.

Lemma xml_char_sax x : forallb xml_char x = true -> Forall (fun c => xml_char c = true /\ c <> 60) (sax_escape x) /\ Forall (fun c => c <> 62) (sax_escape x).
Proof.
  induction x as [|c x IH]; intro H; [split; constructor|]. cbn [forallb] in H. apply andb_true_iff in H as [H1 H2].
  destruct (IH H2) as [I1 I2]. rewrite sax_cons, sax_one. split; apply Forall_app; (split; [|assumption]).
  - destruct (Z.eqb_spec c 38); [repeat constructor; discriminate|].
    destruct (Z.eqb_spec c 62); [repeat constructor; discriminate|].
    destruct (Z.eqb_spec c 60); [repeat constructor; discriminate|]. repeat constructor; assumption.
  - destruct (Z.eqb_spec c 38); [repeat constructor; discriminate|].
    destruct (Z.eqb_spec c 62); [repeat constructor; discriminate|].
    destruct (Z.eqb_spec c 60); [repeat constructor; discriminate|]. repeat constructor; assumption.
Qed.
(* the text of a character is escaped as C54_wellformed_partial asks, whatever it is *)
Theorem C54_character_good tag attrs nle x : is_name tag -> good_attrs attrs -> forallb xml_char x = true ->
  Good (CElm tag attrs nle true [CText (sax_escape x) [] []]).
Proof.
  intros Hn Ha Hx. destruct (xml_char_sax x Hx) as [H1 H2]. apply Good_text; try assumption.
  split; [exact H1|]. exists x. split; [apply sax_expand|exact Hx].
Qed.
(* and a character element alone holds exactly the text *)
Theorem C54_character_text tag nle x : is_name tag -> forallb xml_char x = true ->
  exists level_text, xrender_list 0 [CElm tag [] nle true [CText (sax_escape x) [] []]] = (level_text, false) /\
    xml_document level_text = Some (TElem tag [] (text_node x)).
Proof.
  intros Hn Hx. assert (G : Good (CElm tag [] nle true [CText (sax_escape x) [] []])).
  { apply C54_character_good; [exact Hn| |exact Hx]. split; [constructor|constructor]. }
  destruct (C54_wellformed_partial _ G) as (F & t & D & S).
  destruct (xrender_list 0 _) as [txt raised]. cbn [fst snd] in *. subst raised. exists txt. split; [reflexivity|].
  rewrite D. f_equal. inversion S as [? ? attrs' ? ? ? ks Ha Hh|? ? attrs' ? ? t' Ha Ht| |]; subst.
  - exfalso. clear - Hh. remember [CText (sax_escape x) [] []] as l eqn:E.
    induction Hh as [|w cs ks Hw _ IH|c t cs ks Hs _ _]; [discriminate|exact (IH E)|]. injection E as -> _. inversion Hs.
  - rewrite sax_expand in Ht. injection Ht as <-. inversion Ha; subst. reflexivity.
Qed.
(* values passed through enc, and written integers, are escaped as C54_wellformed_partial asks *)
Theorem C54_enc_value x a : forallb (fun c => xml_char c && negb (c =? 10)) x = true ->
  escaped (enc (Str x) a) /\ Forall (fun c => c <> 34 /\ c <> 10) (enc (Str x) a).
Proof.
  intro H. assert (Hn : Forall (fun c => 0 <= c) x).
  { apply Forall_forall. intros c Hc. rewrite forallb_forall in H. specialize (H c Hc). unfold xml_char in H. lia. }
  assert (Hx : forallb xml_char x = true).
  { apply forallb_forall. intros c Hc. rewrite forallb_forall in H. specialize (H c Hc). apply andb_true_iff in H as [H _]. exact H. }
  assert (K : Forall (fun c => xml_char c = true /\ c <> 10) (enc (Str x) a)).
  { clear Hx. induction x as [|c x IH]; [destruct a; constructor|]. cbn [forallb] in H. apply andb_true_iff in H as [H1 H2].
    inversion Hn; subst. rewrite enc_cons. apply Forall_app; split; [|apply IH; assumption]. rewrite enc_one.
    destruct (Z.eqb_spec c 38); [repeat constructor; discriminate|].
    destruct (Z.eqb_spec c 62); [repeat constructor; discriminate|].
    destruct (Z.eqb_spec c 60); [repeat constructor; discriminate|].
    destruct (Z.eqb_spec c 34); [repeat constructor; discriminate|].
    destruct (a && negb (c <? 128)).
    - destruct (py_str_nat_spec c) as (D1 & _); [assumption|].
      apply Forall_app; split; [repeat constructor; discriminate|].
      apply Forall_app; split; [|repeat constructor; discriminate].
      apply Forall_forall. intros y Hy. rewrite forallb_forall in D1. specialize (D1 y Hy). unfold is_digit in D1. unfold xml_char. lia.
    - repeat constructor; [apply andb_true_iff in H1 as [H1 _]; exact H1|lia]. }
  pose proof (enc_safe x a Hn) as S. unfold safe_char in S. rewrite Forall_forall in K, S. split.
  - split; [|exists x; split; [apply enc_expand; exact Hn|exact Hx]].
    apply Forall_forall. intros c Hc. destruct (K c Hc), (S c Hc). auto.
  - apply Forall_forall. intros c Hc. destruct (K c Hc), (S c Hc) as (? & ? & ?). auto.
Qed.
(* not for attribute values that are not escaped by the client (the font descriptor's are not) *)
Theorem C54_attribute_refuted : exists v,
  let doc := [CElm (bs "char-block") [(bs "font-family", v)] false false []] in
  snd (xrender_list 0 doc) = false /\ xml_document (fst (xrender_list 0 doc)) = None.
Proof. exists (bs "A&B"). vm_compute. auto. Qed.
(* nor when an exception comes out of the body of an element: the element is not closed *)
Theorem C54_exception_refuted : exists inside,
  let doc := [CElm (bs "pages") [] false false inside] in
  snd (xrender_list 0 doc) = true /\ xml_document (fst (xrender_list 0 doc)) = None.
Proof. exists [CElm (bs "page") [(bs "id", bs "1")] false false [CRaise]]. vm_compute. auto. Qed.
(* the declaration names a version that is no version number *)
Theorem C54_declaration_refuted codec : exists v rest,
  xml_prolog codec = bs "<?xml version=" ++ [34] ++ v ++ [34] ++ rest /\ ~ In 34 v /\ version_num v = false.
Proof.
  exists (bs "1.0.0"), (match codec with [] => bs " ?>" | _ => bs " encoding=" ++ [34] ++ codec ++ [34] ++ bs " ?>" end).
  splits; [destruct codec; reflexivity| |reflexivity].
  vm_compute. intros [H|[H|[H|[H|[H|H]]]]]; discriminate || exact H.
Qed.
(* the HTML converter writes the text of characters unescaped (converters/html.py) *)
Theorem C54_html_text_refuted : exists x,
  let doc := [CElm (bs "span") [] false true [CText x [] []]] in
  forallb xml_char x = true /\ xml_document (fst (xrender_list 0 doc)) <> Some (TElem (bs "span") [] (text_node x)).
Proof. exists (bs "a<b"). vm_compute. split; [reflexivity|discriminate]. Qed.
Example C54_witness :
  let doc := CElm (bs "pages") [] false false
    [CElm (bs "page") [(bs "id", bs "1"); (bs "width", bs "612")] false false
       [CSingle (bs "img") [(bs "src", enc (Str (bs "a&b")) false)];
        CElm (bs "char") [(bs "x0", bs "1.5")] false true [CText (sax_escape (bs " <")) [] []]]] in
  xml_document (fst (xrender_list 0 [doc])) =
  Some (TElem (bs "pages") []
    [TText [10; 32];
     TElem (bs "page") [(bs "id", bs "1"); (bs "width", bs "612")]
       [TText [10; 32; 32]; TElem (bs "img") [(bs "src", bs "a&b")] []; TText [10; 32; 32];
        TElem (bs "char") [(bs "x0", bs "1.5")] [TText (bs " <")]; TText [10; 32]]; TText [10]]) /\ Good doc.
Proof.
  split; [vm_compute; reflexivity|].
  assert (V : forall n v, is_name n -> escaped v -> Forall (fun c => c <> 34 /\ c <> 10) v ->
    is_name (fst (n, v)) /\ escaped (snd (n, v)) /\ Forall (fun c => c <> 34 /\ c <> 10) (snd (n, v))) by auto.
  assert (E : forall v, forallb (fun c => xml_char c && negb (c =? 60)) v = true -> forallb xml_char v = true -> expand v = Some v -> escaped v).
  { intros v H1 H2 H3. split; [|exists v; auto]. apply Forall_forall. intros c Hc. rewrite forallb_forall in H1. specialize (H1 c Hc).
    apply andb_true_iff in H1 as [H1 H4]. split; [exact H1|]. intros ->. discriminate. }
  assert (Q : forall v, forallb (fun c => negb (c =? 34) && negb (c =? 10)) v = true -> Forall (fun c => c <> 34 /\ c <> 10) v).
  { intros v H. apply Forall_forall. intros c Hc. rewrite forallb_forall in H. specialize (H c Hc). lia. }
  apply Good_elem; [vm_compute; auto|split; constructor|]. constructor; [|constructor].
  apply Good_elem; [vm_compute; auto| |].
  - split; [apply nodupb_sound; reflexivity|].
    repeat (apply Forall_cons; [apply V; [vm_compute; auto|apply E; reflexivity|apply Q; reflexivity]|]). constructor.
  - constructor; [|constructor; [|constructor]].
    + apply Good_single; [vm_compute; auto|]. split; [apply nodupb_sound; reflexivity|].
      constructor; [|constructor]. destruct (C54_enc_value (bs "a&b") false eq_refl). apply V; [vm_compute; auto|assumption|assumption].
    + apply C54_character_good; [vm_compute; auto| |reflexivity]. split; [apply nodupb_sound; reflexivity|].
      repeat (apply Forall_cons; [apply V; [vm_compute; auto|apply E; reflexivity|apply Q; reflexivity]|]). constructor.
Qed.

(* ---------- C53: JSON ---------- *)
(* Every tree of calls writes one JSON text whose value is what was told, if keys are plain and distinct and strings hold
   no backslash and no control character (double quotes are allowed; values given to place_object are not restricted).
   This holds also when an exception comes out at any point: everything told before it is there and every object and
   array is closed. *)
Theorem C53_roundtrip_partial l : GoodJ (JObject l) ->
  snd (json_file l) = snd (told (JObject l)) /\ JsonText (fst (json_file l)) (fst (told (JObject l))).
Proof. apply json_file_good. Qed.
(* a text is read in one way only *)
Theorem C53_unambiguous x v v' : JsonText x v -> JsonText x v' -> v = v'.
Proof. apply json_text_unique. Qed.
(* place_object carries every value, whatever characters its strings hold *)
Theorem C53_place_object v : GoodPy v -> JsonText (dumps v) (of_py v).
Proof. intro H. apply parses_text. apply dumps_parses. exact H. Qed.
(* integers are written as JSON numbers *)
Theorem C53_integers n : json_number (py_str_int n) = true.
Proof.
  assert (I : forall m, 0 <= m -> json_int (py_str_nat m) = true).
  { intros m Hm. destruct (py_str_nat_spec m Hm) as (D1 & D2 & _ & D4). destruct (py_str_nat m) as [|c r]; [congruence|].
    destruct (Z.eq_dec c 48) as [->|Hc]; [rewrite (D4 48 r eq_refl eq_refl); reflexivity|].
    assert (E : json_int (c :: r) = is_digit c && (let '(_, r) := span is_digit (c :: r) in json_frac r)).
    { unfold json_int. clear D1 D2 D4. zcases c. }
    rewrite E. pose proof (span_app is_digit (c :: r) [] D1 Logic.I) as S. rewrite app_nil_r in S. rewrite S.
    cbn [forallb] in D1. apply andb_true_iff in D1 as [-> _]. reflexivity. }
  unfold py_str_int. destruct (n <? 0) eqn:E.
  - change (json_number (45 :: py_str_nat (- n))) with (json_int (py_str_nat (- n))). apply I. lia.
  - pose proof (I n ltac:(lia)) as H. destruct (json_int_first _ H) as (c & r & Er & Hc). rewrite Er in *.
    rewrite <- H. assert (c <> 45) by lia. unfold json_number. clear - H0. zcases c.
Qed.
Ltac no_reading k H := destruct k as [|[|[|[|[|[|k]]]]]]; try discriminate H; vm_compute in H; discriminate H.
(* not when a string holds a backslash: here it swallows the closing quote *)
Theorem C53_backslash_refuted : exists x, Forall (fun c => 32 <= c) x /\
  forall v, ~ JsonText (fst (json_file [(bs "text", JString x)])) v.
Proof.
  exists [92]. split; [repeat constructor; lia|]. intros v (k & r & H & _). no_reading k H.
Qed.
(* and a backslash before a letter changes the text without an error *)
Theorem C53_backslash_altered_refuted : exists x v, Forall (fun c => 32 <= c) x /\
  JsonText (fst (json_file [(bs "text", JString x)])) v /\ v <> JObj [(bs "text", JStr x)].
Proof.
  exists [92; 110], (JObj [(bs "text", JStr [10])]). splits; [repeat constructor; lia| |discriminate].
  exists 3%nat, []. split; vm_compute; reflexivity.
Qed.
(* nor when it holds a control character *)
Theorem C53_newline_refuted : exists x, forall v, ~ JsonText (fst (json_file [(bs "text", JString x)])) v.
Proof. exists [10]. intros v (k & r & H & _). no_reading k H. Qed.
(* nor when a key is used twice for an object or array: the second value is written without its key *)
Theorem C53_duplicate_refuted : exists k, forall v,
  ~ JsonText (fst (json_file [(k, JNumber (bs "1")); (k, JArray [])])) v.
Proof. exists (bs "a"). intros v (k & r & H & _). no_reading k H. Qed.
(* nor for a number that is not finite, or None (the box of an empty text block) *)
Theorem C53_number_refuted :
  (forall v, ~ JsonText (fst (json_file [(bs "x0", JNumber (bs "None"))])) v) /\
  (forall v, ~ JsonText (fst (json_file [(bs "x0", JNumber (bs "nan"))])) v).
Proof. split; intros v (k & r & H & _); no_reading k H. Qed.
(* a tree with every kind of call, cut off by an exception inside the second child *)
Example C53_witness :
  let call b := [(bs "id", JNumber (bs "-1.5e-05"));
     (bs "kids", JArray [([], JObject [(bs "say", JString ([34] ++ bs "hi" ++ [34])); (bs "col", JPlace (PyDict [(bs "v", PyList [PyStr [92; 128512]])]))]);
                         ([], JObject [(bs "a", JArray []); (bs "b", if b : bool then JRaise else JString [])]);
                         ([], JNumber (bs "3"))]); (bs "end", JString (bs "x"))] in
  (forall b, GoodJ (JObject (call b))) /\ snd (json_file (call true)) = true /\ snd (json_file (call false)) = false /\
  fst (told (JObject (call true))) =
    JObj [(bs "id", JNum (bs "-1.5e-05"));
          (bs "kids", JArr [JObj [(bs "say", JStr ([34] ++ bs "hi" ++ [34])); (bs "col", JObj [(bs "v", JArr [JStr [92; 128512]])])];
                            JObj [(bs "a", JArr [])]])].
Proof.
  assert (K : forall s, forallb (fun c => (32 <=? c) && negb (c =? 92) && negb (c =? 34)) (bs s) = true -> Forall (fun c => plain_char c /\ c <> 34) (bs s)).
  { intros s H. apply Forall_forall. intros c Hc. rewrite forallb_forall in H. specialize (H c Hc). unfold plain_char. lia. }
  cbv zeta. splits; [|reflexivity|reflexivity|reflexivity].
  intro b. apply GoodJ_obj; [apply nodupb_sound; reflexivity|].
  repeat (apply Forall_cons; [split; [apply K; reflexivity|]|]); [|..|constructor].
  - apply GoodJ_num. reflexivity.
  - apply GoodJ_arr. repeat (apply Forall_cons); [| | |constructor].
    + apply GoodJ_obj; [apply nodupb_sound; reflexivity|].
      repeat (apply Forall_cons; [split; [apply K; reflexivity|]|]); [|..|constructor].
      * apply GoodJ_str. repeat constructor; unfold plain_char; lia || discriminate.
      * apply GoodJ_place. apply GoodPy_dict. constructor; [|constructor]. split; [repeat constructor; unfold scalar; cbn; lia|].
        apply GoodPy_list. constructor; [|constructor]. apply GoodPy_str. repeat constructor; unfold scalar; lia.
    + apply GoodJ_obj; [apply nodupb_sound; reflexivity|].
      repeat (apply Forall_cons; [split; [apply K; reflexivity|]|]); [|..|constructor].
      * apply GoodJ_arr. constructor.
      * destruct b; [apply GoodJ_raise|apply GoodJ_str; constructor].
    + apply GoodJ_num. reflexivity.
  - apply GoodJ_str. repeat constructor; unfold plain_char; cbn; lia || discriminate.
Qed.
