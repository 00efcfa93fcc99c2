(* Properties C16 and C20: objects and stream objects. *)
From Coq Require Import String.
From Verif Require Import Base Lex_Model Lex_Chunk Lex_Spec Lex_Proofs Lines_Model Lines_Spec Lines_Proofs Obj Stack_Model Stack_Spec Stack_Proofs StreamObj_Proofs.
From Coq Require Import ZifyBool ZifyNat.

(* ---------- C16: nested objects round-trip ---------- *)
(* PDFParser: wherever an object stands in the file, written in any of the ways of Stack_Spec with any gaps and
   followed by endobj, seeking to it and asking for the next object returns it, whatever the buffer size.
   "exists n, forall f ... (n + f)": the Python loop stops by itself. *)
Theorem C16_pdf_object e before text rest o ts q exact :
  (0 < bufsiz e)%nat -> file e = before ++ text ++ rest -> (forall r, rest <> 62 :: r) ->
  LayoutP exact (Z.of_nat (length before)) (ts ++ [(q, KW "endobj")]) text rest ->
  Written true true o (map snd ts) ->
  exists n pos, forall f, exists p,
    pdf_nextobject e (n + f) (seek e (Z.of_nat (length before))) stk0 = Ok ((pos, o), p, stk0).
Proof.
  intros Hb Hf Hr HL HW. destruct (pdf_object_lemma e before text rest o ts exact Hb Hf Hr HW q HL) as (n & pos & l & H).
  exists n, pos. intros f. destruct (H f) as (p & E & _). exists p. exact E.
Qed.

(* and the parser is then right after endobj: its next tokens are those of the rest of the file *)
Theorem C16_pdf_object_resumes e before text rest o ts q exact :
  (0 < bufsiz e)%nat -> file e = before ++ text ++ rest -> (forall r, rest <> 62 :: r) ->
  LayoutP exact (Z.of_nat (length before)) (ts ++ [(q, KW "endobj")]) text rest ->
  Written true true o (map snd ts) ->
  forall ts2 text2 rest2, rest = text2 ++ rest2 -> (forall r, rest2 <> 62 :: r) ->
  LayoutP true (Z.of_nat (length (before ++ text))) ts2 text2 rest2 ->
  exists n pos, forall f, exists p more,
    pdf_nextobject e (n + f) (seek e (Z.of_nat (length before))) stk0 = Ok ((pos, o), p, stk0) /\
    map snd (fst (tokens p)) = map snd ts2 ++ more.
Proof.
  intros Hb Hf Hr HL HW ts2 text2 rest2 E2 Hr2 HL2.
  destruct (pdf_object_lemma e before text rest o ts exact Hb Hf Hr HW q HL) as (n & pos & l & H).
  exists n, pos. intros f. destruct (H f) as (p & E & N & Hl & T).
  destruct (layoutP_lemma _ _ _ _ _ HL2 Hr2 l Hl) as [(ts' & l' & F & _ & E3) _].
  eexists p, _. split; [exact E|]. rewrite T, E2, E3. unfold pre. cbn [fst]. rewrite map_app, (tok_eq_snd _ _ F). reflexivity.
Qed.

(* PDFStreamParser (used for object streams and for type 4/... content): the objects of a byte string, one after
   the other, and nothing else.  Stray keywords obj and endobj between
   them are ignored.  Nulls and top-level references are excluded; see the refutations. *)
Theorem C16_stream_strays n data os ts exact :
  (0 < n)%nat -> LayoutP exact 0 ts data [] -> WrittenM os (map snd ts) ->
  Forall (fun o => forall i, o <> ORef i) os ->
  exists k l, map snd l = os /\ forall f, strm_objects (k + f) n data = (l, PSEOF).
Proof.
  intros Hn HL HW Ho. destruct (read_chunks_spec n data Hn) as [E N].
  destruct (layoutP_lemma _ _ _ _ _ HL ltac:(discriminate) lex0 eq_refl) as [(ts' & l' & F & _ & E3) _].
  rewrite app_nil_r, toks_nil in E3. unfold pre in E3. cbn [fst snd] in E3. rewrite app_nil_r in E3.
  apply (strm_all os (map snd ts) ts'); [assumption|assumption|apply tok_eq_snd; assumption|exact N|].
  rewrite tokens_toks by exact N. cbn [open_at lx Lex_Model.pos buf chunks app]. rewrite E. exact E3.
Qed.

Theorem C16_stream_objects_partial n data os ts exact :
  (0 < n)%nat -> LayoutP exact 0 ts data [] -> WrittenL false true os (map snd ts) ->
  Forall (fun o => forall i, o <> ORef i) os ->
  exists k l, map snd l = os /\ forall f, strm_objects (k + f) n data = (l, PSEOF).
Proof. intros Hn HL HW Ho. exact (C16_stream_strays n data os ts exact Hn HL (written_m _ _ HW) Ho). Qed.
Example C16_strays_case : WrittenM [OInt 1; OArr [OInt 2]] [KW "obj"; TInt 1; KW "endobj"; KW "obj"; KW "["; TInt 2; KW "]"; KW "endobj"] /\
  strm_objects 20 4 (bs "obj 1 endobj obj [2] endobj ") = ([(4, OInt 1); (17, OArr [OInt 2])], PSEOF).
Proof.
  split; [|vm_compute; reflexivity].
  apply (WM_cons (OInt 1) _ [KW "obj"] [TInt 1]); [repeat constructor|constructor|].
  apply (WM_cons (OArr [OInt 2]) _ [KW "endobj"; KW "obj"] [KW "["; TInt 2; KW "]"] [KW "endobj"]).
  - apply Forall_cons; [right; reflexivity|apply Forall_cons; [left; reflexivity|apply Forall_nil]].
  - apply (W_arr _ _ [OInt 2] [TInt 2]). apply (WL_cons _ _ _ [] [TInt 2]); constructor.
  - apply WM_end. apply Forall_cons; [right; reflexivity|apply Forall_nil].
Qed.

(* the same data parsed with another buffer size gives the same objects *)
Definition env0 (data : list Z) (n : nat) (fb : bool) : env := mkEnv data n fb (fun o => o).

(* a non-trivial instance: nested array and dictionary, null entry dropped, reference, comment and odd spacing *)
Definition sample : list Z := bs "[1<</A(x)/B null/C[<0a>3 0 R]>>%c
true]endobj ".
Definition sample_obj : obj :=
  OArr [OInt 1; ODict [(ON "A", OStr (bs "x")); (ON "C", OArr [OStr [10]; ORef 3])]; OBool true].
Example C16_case : match pdf_nextobject (env0 sample 3 false) 40 (seek (env0 sample 3 false) 0) stk0 with
  | Ok ((_, o), _, _) => o = sample_obj | Err _ => False end.
Proof. vm_compute. reflexivity. Qed.
Example C16_case_hyps : exists ts, Written true true sample_obj ts /\ exists pts, map snd pts = ts ++ [KW "endobj"] /\
  pts = fst (tokens (open_at 0 (read_chunks 3 sample))).
Proof.
  exists ([KW "["; TInt 1; KW "<<"; TLit (bs "A"); TStr (bs "x"); TLit (bs "B"); KW "null"; TLit (bs "C"); KW "["; TStr [10]; TInt 3; TInt 0; KW "R"; KW "]"; KW ">>"; TBool true; KW "]"]).
  split; [|eexists; split; [|reflexivity]; vm_compute; reflexivity].
  apply (W_arr true true [OInt 1; ODict [(ON "A", OStr (bs "x")); (ON "C", OArr [OStr [10]; ORef 3])]; OBool true]
    [TInt 1; KW "<<"; TLit (bs "A"); TStr (bs "x"); TLit (bs "B"); KW "null"; TLit (bs "C"); KW "["; TStr [10]; TInt 3; TInt 0; KW "R"; KW "]"; KW ">>"; TBool true]).
  apply (WL_cons true true (OInt 1) _ [TInt 1]); [constructor|].
  apply (WL_cons true true (ODict [(ON "A", OStr (bs "x")); (ON "C", OArr [OStr [10]; ORef 3])]) [OBool true]
    [KW "<<"; TLit (bs "A"); TStr (bs "x"); TLit (bs "B"); KW "null"; TLit (bs "C"); KW "["; TStr [10]; TInt 3; TInt 0; KW "R"; KW "]"; KW ">>"] [TBool true]).
  - apply (W_dict true true [(bs "A", OStr (bs "x")); (bs "B", ONull); (bs "C", OArr [OStr [10]; ORef 3])]
      [TLit (bs "A"); TStr (bs "x"); TLit (bs "B"); KW "null"; TLit (bs "C"); KW "["; TStr [10]; TInt 3; TInt 0; KW "R"; KW "]"]).
    + repeat constructor; cbn; intuition discriminate.
    + apply (WE_cons true true (bs "A") (OStr (bs "x")) _ [TStr (bs "x")]); [constructor|].
      apply (WE_cons true true (bs "B") ONull _ [KW "null"]); [constructor; reflexivity|].
      apply (WE_cons true true (bs "C") (OArr [OStr [10]; ORef 3]) [] [KW "["; TStr [10]; TInt 3; TInt 0; KW "R"; KW "]"] []); [|constructor].
      apply (W_arr true true [OStr [10]; ORef 3] [TStr [10]; TInt 3; TInt 0; KW "R"]).
      apply (WL_cons true true (OStr [10]) _ [TStr [10]]); [constructor|].
      apply (WL_cons true true (ORef 3) [] [TInt 3; TInt 0; KW "R"] []); constructor; reflexivity.
  - apply (WL_cons true true (OBool true) [] [TBool true] []); constructor.
Qed.

(* Refuted for PDFStreamParser: the null object of an object stream is delivered as a keyword, not as None, and a
   dictionary keeps the entry. *)
Theorem C16_stream_null_refuted :
  strm_objects 9 4 (bs "null <</A null>> ") = ([(0, OKwd (bs "null")); (5, ODict [(ON "A", OKwd (bs "null"))])], PSEOF).
Proof. vm_compute. reflexivity. Qed.
(* Refuted: a reference that is not inside an array or dictionary of an object stream raises ValueError, because
   its two numbers have already been delivered as objects *)
Theorem C16_stream_toplevel_ref_refuted :
  strm_objects 9 4 (bs "7 0 R ") = ([(0, OInt 7); (2, OInt 0)], ValueError).
Proof. vm_compute. reflexivity. Qed.
(* A dictionary with an odd number of objects raises PSSyntaxError; a stray closing bracket is ignored. *)
Theorem C16_odd_dictionary : forall f e,
  file e = bs "<</A>>endobj " -> bufsiz e = 5%nat -> pdf_nextobject e (6 + f) (seek e 0) stk0 = Err PSSyntaxError.
Proof. intros f [fi bz fb rs] Hf Hb. cbn in Hf, Hb. subst. vm_compute. reflexivity. Qed.
Theorem C16_stray_bracket : strm_objects 9 4 (bs "1 ] >> 2 ") = ([(0, OInt 1); (7, OInt 2)], PSEOF).
Proof. vm_compute. reflexivity. Qed.

(* ---------- C20: stream objects ---------- *)
(* Without the fallback reader, and with the right Length (direct or through a reference that resolves to it), a
   stream object has exactly the declared bytes, whatever they are (they may contain endstream or endobj).  Between
   the data and endstream any white space may stand. *)
Theorem C20_exact_length e before dtext dts d nl data g g2 rest v :
  (0 < bufsiz e)%nat -> fallback e = false -> newline nl ->
  file e = before ++ dtext ++ bs "stream" ++ nl ++ data ++ g ++ bs "endstream" ++ g2 ++ bs "endobj" ++ rest ->
  LayoutP false (Z.of_nat (length before)) dts dtext (bs "stream" ++ nl ++ data ++ g ++ bs "endstream" ++ g2 ++ bs "endobj" ++ rest) ->
  Written true true (ODict d) (map snd dts) ->
  (forall o, (forall i, o <> ORef i) -> resolve e o = o) ->
  dget d "Length" = Some v -> resolve e v = OInt (Z.of_nat (length data)) ->
  Forall white g -> Sep g2 -> g2 <> [] -> (exists c r, rest = c :: r /\ (white c \/ delim c)) ->
  ~ unfinished_line (g2 ++ bs "endobj" ++ rest) ->
  exists n p s, forall f,
    pdf_nextobject e (n + f) (seek e (Z.of_nat (length before))) stk0 =
      Ok ((Z.of_nat (length (before ++ dtext ++ bs "stream" ++ nl)), OStream d data), p, s).
Proof.
  intros Hb Hfb Hnl Hf HL HW Hres Hv1 Hv2 Hg Hg2 Hg2n Hrest HU.
  destruct (stream_object_lemma e before dtext dts d nl data (g ++ bs "endstream" ++ g2 ++ bs "endobj" ++ rest) (length g) g2 rest Hb Hnl Hf HL HW)
    as (n & p & s & H).
  - apply Hres. discriminate.
  - rewrite Hfb. exists v. split; assumption.
  - split; [|split].
    + exists (g2 ++ bs "endobj" ++ rest). rewrite firstn_app, firstn_all, Nat.sub_diag. cbn [firstn]. rewrite app_nil_r. reflexivity.
    + rewrite app_length. lia.
    + intros a b Hab. destruct (Nat.le_gt_cases (length g) (length a)) as [|Hlt]; [assumption|exfalso].
      assert (Hn : nth_error (g ++ bs "endstream" ++ g2 ++ bs "endobj" ++ rest) (length a) = Some 101).
      { rewrite Hab, nth_error_app2, Nat.sub_diag by lia. reflexivity. }
      rewrite nth_error_app1 in Hn by assumption. apply nth_error_In in Hn. rewrite Forall_forall in Hg.
      specialize (Hg _ Hn). unfold white in Hg. lia.
  - rewrite skipn_before by reflexivity. intros U. apply HU. apply (unfinished_suffix (bs "endstream")). exact U.
  - rewrite skipn_before; reflexivity.
  - assumption. - assumption. - assumption.
  - exists n, p, s. intros f. rewrite H, Hfb. reflexivity.
Qed.

(* With the fallback reader (what PDFDocument switches on for every unencrypted document) the data is everything
   up to the first endstream, Length being ignored. *)
Theorem C20_fallback_data_partial e before dtext dts d nl data g2 rest :
  (0 < bufsiz e)%nat -> fallback e = true -> newline nl ->
  file e = before ++ dtext ++ bs "stream" ++ nl ++ data ++ bs "endstream" ++ g2 ++ bs "endobj" ++ rest ->
  LayoutP false (Z.of_nat (length before)) dts dtext (bs "stream" ++ nl ++ data ++ bs "endstream" ++ g2 ++ bs "endobj" ++ rest) ->
  Written true true (ODict d) (map snd dts) ->
  (forall o, (forall i, o <> ORef i) -> resolve e o = o) ->
  FirstAt (bs "endstream") (length data) (data ++ bs "endstream" ++ g2 ++ bs "endobj" ++ rest) ->
  Sep g2 -> g2 <> [] -> (exists c r, rest = c :: r /\ (white c \/ delim c)) ->
  ~ unfinished_line (g2 ++ bs "endobj" ++ rest) ->
  exists n p s, forall f,
    pdf_nextobject e (n + f) (seek e (Z.of_nat (length before))) stk0 =
      Ok ((Z.of_nat (length (before ++ dtext ++ bs "stream" ++ nl)), OStream d data), p, s).
Proof.
  intros Hb Hfb Hnl Hf HL HW Hres HF Hg2 Hg2n Hrest HU.
  destruct (stream_object_lemma e before dtext dts d nl [] (data ++ bs "endstream" ++ g2 ++ bs "endobj" ++ rest) (length data) g2 rest Hb Hnl Hf HL HW)
    as (n & p & s & H).
  - apply Hres. discriminate.
  - rewrite Hfb. reflexivity.
  - assumption.
  - rewrite skipn_before by reflexivity. intros U. apply HU. apply (unfinished_suffix (bs "endstream")). exact U.
  - rewrite skipn_before; reflexivity.
  - assumption. - assumption. - assumption.
  - exists n, p, s. intros f. rewrite H, Hfb, firstn_app, firstn_all, Nat.sub_diag. cbn [firstn]. rewrite app_nil_r. reflexivity.
Qed.

Definition stream_file : list Z := bs "1 0 obj<</Length 3>>stream
abc
endstream
endobj
".
Definition got (fb : bool) (data : list Z) (at_ : Z) : option (list Z) :=
  match pdf_nextobject (env0 data 5 fb) 60 (seek (env0 data 5 fb) at_) stk0 with
  | Ok ((_, OStream _ raw), _, _) => Some raw | _ => None end.
Example C20_case : got false stream_file 7 = Some (bs "abc").
Proof. vm_compute. reflexivity. Qed.
Lemma C20_case_hyps : exists dts dtext tail, stream_file = bs "1 0 obj" ++ dtext ++ bs "stream" ++ [10] ++ bs "abc" ++ [10] ++ bs "endstream" ++ [10] ++ bs "endobj" ++ tail /\
  LayoutP false 7 dts dtext (bs "stream" ++ [10] ++ bs "abc" ++ [10] ++ bs "endstream" ++ [10] ++ bs "endobj" ++ tail) /\
  Written true true (ODict [(ON "Length", OInt 3)]) (map snd dts) /\ ~ unfinished_line ([10] ++ bs "endobj" ++ tail).
Proof.
  exists [(7, KW "<<"); (9, TLit (bs "Length")); (17, TInt 3); (18, KW ">>")], (bs "<</Length 3>>"), [10].
  splits.
  - reflexivity.
  - apply (LP_tok false 7 [] (KW "<<") (bs "<<") SelfDelimited _ (bs "/Length 3>>")); [constructor|constructor|exact I|].
    apply (LP_tok false 9 [] (TLit (bs "Length")) (bs "/Length") NeedsBoundary _ (bs " 3>>")); [constructor| | |].
    + apply (Sp_name (bs "Length")). repeat (apply NB_reg; [unfold regular, white, delim; cbn; intuition lia|cbn; lia|]). constructor.
    + eexists; eexists; split; [reflexivity|left; left; reflexivity].
    + apply (LP_tok false 16 [32] (TInt 3) (bs "3") NeedsBoundary _ (bs ">>")); [apply Sep_white; [unfold white; lia|constructor]| | |].
      * apply (Sp_int [] 1 (bs "3") 3); [constructor|apply (Dec_one 3); lia].
      * eexists; eexists; split; [reflexivity|right; do 3 right; left; reflexivity].
      * apply (LP_tok false 18 [] (KW ">>") (bs ">>") SelfDelimited _ []); [constructor|constructor|exact I|]. apply LP_end. constructor.
  - apply (W_dict true true [(bs "Length", OInt 3)] [TLit (bs "Length"); TInt 3]); [repeat constructor; cbn; tauto|].
    apply (WE_cons true true (bs "Length") (OInt 3) [] [TInt 3] []); constructor.
  - intros (body & Hb & [H|H]); [rewrite <- H in Hb|].
    + apply Forall_inv in Hb. apply Hb. left. reflexivity.
    + apply (f_equal (fun l => last l 0)) in H. rewrite last_last in H. vm_compute in H. discriminate H.
Qed.

(* Refuted for the fallback reader: the end-of-line before endstream becomes part of the data ... *)
Theorem C20_fallback_extra_newline_refuted : got true stream_file 7 = Some (bs "abc" ++ [10]).
Proof. vm_compute. reflexivity. Qed.
(* ... and data containing endstream is cut there, in spite of the right Length *)
Definition stream_file2 : list Z := bs "1 0 obj<</Length 12>>stream
a endstream
endstream
endobj
".
Theorem C20_fallback_truncated_refuted :
  got true stream_file2 7 = Some (bs "a ") /\ got false stream_file2 7 = Some (bs "a endstream" ++ [10]).
Proof. split; vm_compute; reflexivity. Qed.

(* Refuted termination: a negative Length can send the reader back before the dictionary, for ever. *)
Definition loop_file : list Z := bs "endstream<</Length -31>>stream
 ".
Fixpoint steps (e : env) (n : nat) (p : parser) (s : stk) : option (parser * stk) :=
  match n with
  | O => match results s with [] => Some (p, s) | _ => None end
  | S n =>
      match results s, nexttoken p with
      | [], (Ok (pos, t), p') => match step (pdf_keyword e) p' s pos t with Ok (p2, s2) => steps e n p2 s2 | _ => None end
      | _, _ => None
      end
  end.
Lemma steps_run e n : forall p s p' s' f, steps e n p s = Some (p', s') ->
  pdf_nextobject e (n + f) p s = pdf_nextobject e f p' s' /\ pdf_nextobject e n p s = Err OutOfFuel.
Proof.
  unfold pdf_nextobject. induction n as [|n IH]; intros p s p' s' f H; cbn [steps] in H; cbn [Nat.add].
  - destruct (results s) eqn:E; [|discriminate]. injection H as <- <-. split; [reflexivity|]. cbn. rewrite E. reflexivity.
  - rewrite !(nextobject_eq _ _ _ (S _)). destruct (results s); [|discriminate].
    destruct (nexttoken p) as [[[pos t]|x] p1]; [|discriminate].
    destruct (step _ p1 s pos t) as [[p2 s2]|x]; [|discriminate]. cbn [bind].
    replace (match context s2 with [] => s2 | _ => s2 end) with s2 by (destruct (context s2); reflexivity).
    apply IH. assumption.
Qed.
Theorem C20_negative_length_loops_refuted n :
  pdf_nextobject (env0 loop_file 16 false) n (seek (env0 loop_file 16 false) 0) stk0 = Err OutOfFuel.
Proof.
  set (e := env0 loop_file 16 false).
  set (s1 := mkStk [] None [(31, OStream [(ON "Length", OInt (-31))] [32])] []).
  assert (H0 : steps e 6 (seek e 0) stk0 = Some (seek e 0, s1)) by (vm_compute; reflexivity).
  assert (H1 : steps e 6 (seek e 0) s1 = Some (seek e 0, s1)) by (vm_compute; reflexivity).
  assert (Hk : forall k, (k < 6)%nat -> (exists p s, steps e k (seek e 0) stk0 = Some (p, s)) /\ (exists p s, steps e k (seek e 0) s1 = Some (p, s))).
  { intros k Hk. do 6 (destruct k as [|k]; [split; eexists; eexists; vm_compute; reflexivity|]). lia. }
  assert (L : forall n, pdf_nextobject e n (seek e 0) s1 = Err OutOfFuel).
  { intros m. induction m as [m IH] using (well_founded_induction lt_wf).
    destruct (Nat.lt_ge_cases m 6) as [Hm|Hm].
    - destruct (Hk m Hm) as [_ (p & s & E)]. apply (steps_run _ _ _ _ _ _ O E).
    - replace m with (6 + (m - 6))%nat by lia. rewrite (proj1 (steps_run _ _ _ _ _ _ _ H1)). apply IH. lia. }
  destruct (Nat.lt_ge_cases n 6) as [Hn|Hn].
  - destruct (Hk n Hn) as [(p & s & E) _]. apply (steps_run _ _ _ _ _ _ O E).
  - replace n with (6 + (n - 6))%nat by lia. rewrite (proj1 (steps_run _ _ _ _ _ _ _ H0)). apply L.
Qed.
