(* Proofs about the stream keyword of PDFParser. *)
From Coq Require Import String.
From Verif Require Import Base Lex_Model Lex_Chunk Lex_Spec Lex_Proofs Lines_Model Lines_Spec Lines_Proofs Obj Stack_Model Stack_Spec Stack_Proofs.
From Coq Require Import ZifyBool ZifyNat.

Lemma prefixb_spec p : forall s, prefixb p s = true <-> exists b, s = p ++ b.
Proof.
  induction p as [|x p IH]; intros s; cbn [prefixb].
  - split; [intros _; exists s; reflexivity|reflexivity].
  - destruct s as [|y s].
    + split; [discriminate|intros [b Hb]; discriminate].
    + rewrite andb_true_iff, Z.eqb_eq, IH. split.
      * intros [-> [b ->]]. exists b. reflexivity.
      * intros [b Hb]. injection Hb as -> ->. split; [reflexivity|exists b; reflexivity].
Qed.

Lemma find_sub_some p : forall s k, find_sub p s = Some k <-> FirstAt p k s.
Proof.
  induction s as [|y s IH]; intros k; cbn [find_sub].
  - destruct (prefixb p []) eqn:E.
    + apply prefixb_spec in E as [b Hb]. symmetry in Hb. apply app_eq_nil in Hb as [-> ->]. split.
      * intros H. injection H as <-. split; [exists []; reflexivity|]. split; [apply le_n|]. intros a b _. lia.
      * intros (_ & H & _). cbn in H. f_equal. lia.
    + split; [discriminate|]. intros ((b & Hb) & Hk & _). cbn in Hk. assert (k = O) by lia. subst. cbn in Hb.
      assert (prefixb p [] = true) by (apply prefixb_spec; exists b; assumption). congruence.
  - destruct (prefixb p (y :: s)) eqn:E.
    + apply prefixb_spec in E as [b Hb]. split.
      * intros H. injection H as <-. split; [exists b; exact Hb|]. split; [apply Nat.le_0_l|]. intros; lia.
      * intros (_ & _ & H). specialize (H [] b Hb). cbn in H. f_equal. lia.
    + assert (E' : forall b, y :: s <> p ++ b).
      { intros b Hb. assert (prefixb p (y :: s) = true) by (apply prefixb_spec; exists b; assumption). congruence. }
      destruct (find_sub p s) as [k'|]; cbn [option_map]; split.
      * intros H. injection H as <-. destruct (proj1 (IH k') eq_refl) as ((b & Hb) & Hk & Hm). split; [|split].
        -- exists b. cbn [firstn app]. f_equal. exact Hb.
        -- cbn [length]. lia.
        -- intros [|z a] b' Hab; [exfalso; apply (E' b'); exact Hab|]. injection Hab as -> Hab. specialize (Hm a b' Hab). cbn [length]. lia.
      * intros ((b & Hb) & Hk & Hm). destruct k as [|k]; [exfalso; apply (E' b); exact Hb|].
        f_equal. f_equal. cut (Some k' = Some k); [congruence|]. apply IH. cbn [firstn app] in Hb. injection Hb as Hb.
        split; [exists b; exact Hb|]. split; [cbn in Hk; lia|]. intros a b' Hab. specialize (Hm (y :: a) b'). cbn [length app] in Hm.
        rewrite Hab in Hm. specialize (Hm eq_refl). lia.
      * discriminate.
      * intros ((b & Hb) & Hk & Hm). destruct k as [|k]; [exfalso; apply (E' b); exact Hb|].
        cut (None = Some k); [discriminate|]. apply IH. cbn [firstn app] in Hb. injection Hb as Hb.
        split; [exists b; exact Hb|]. split; [cbn in Hk; lia|]. intros a b' Hab. specialize (Hm (y :: a) b'). cbn [length app] in Hm.
        rewrite Hab in Hm. specialize (Hm eq_refl). lia.
Qed.

(* an occurrence of a pattern without end-of-line bytes that starts inside a line ends inside it *)
Lemma occ_in_line p l tail a b : no_eol p -> p <> [] -> Line l tail -> l ++ tail = a ++ p ++ b -> (length a < length l)%nat ->
  exists b', l = a ++ p ++ b'.
Proof.
  intros Hp Hne HL E Ha.
  assert (Hl : exists l0 c, l = l0 ++ [c] /\ eol_byte c).
  { inversion HL; subst; [exists body, 10|exists (body ++ [13]), 10|exists body, 13]; split; try (unfold eol_byte; lia); try reflexivity.
    rewrite <- app_assoc. reflexivity. }
  destruct Hl as (l0 & c & -> & Hc).
  assert (Hle : (length (a ++ p) <= length (l0 ++ [c]))%nat).
  { destruct (Nat.le_gt_cases (length (a ++ p)) (length (l0 ++ [c]))) as [H|H]; [assumption|exfalso].
    assert (Hn : nth_error (a ++ p) (length l0) = Some c).
    { assert (H1 : nth_error ((l0 ++ [c]) ++ tail) (length l0) = Some c).
      { rewrite <- app_assoc, nth_error_app2, Nat.sub_diag by lia. reflexivity. }
      rewrite E, app_assoc in H1. rewrite nth_error_app1 in H1; [assumption|]. rewrite (app_length l0) in H. cbn [length] in H. lia. }
    rewrite app_length in Ha. cbn in Ha. rewrite nth_error_app2 in Hn by lia. apply nth_error_In in Hn.
    unfold no_eol in Hp. rewrite Forall_forall in Hp. apply (Hp c Hn). assumption. }
  rewrite app_assoc in E. 
  exists (skipn (length (a ++ p)) (l0 ++ [c])). rewrite app_assoc.
  transitivity (firstn (length (a ++ p)) (l0 ++ [c]) ++ skipn (length (a ++ p)) (l0 ++ [c])); [symmetry; apply firstn_skipn|].
  f_equal. assert (H2 : firstn (length (a ++ p)) ((l0 ++ [c]) ++ tail) = firstn (length (a ++ p)) ((a ++ p) ++ b)) by (rewrite E; reflexivity).
  rewrite (firstn_app _ (l0 ++ [c])), (firstn_app _ (a ++ p)) in H2. rewrite Nat.sub_diag in H2. replace (length (a ++ p) - length (l0 ++ [c]))%nat with O in H2 by lia.
  cbn [firstn] in H2. rewrite !app_nil_r in H2. rewrite H2, firstn_all. reflexivity.
Qed.

Lemma unfinished_suffix a r : unfinished_line (a ++ r) -> unfinished_line r.
Proof.
  intros (body & Hb & H). destruct H as [H|H].
  - exists r. split; [|left; reflexivity]. subst body. apply Forall_app in Hb. apply Hb.
  - destruct (Nat.le_gt_cases (length a) (length body)) as [Hl|Hl].
    + exists (skipn (length a) body). split; [apply Forall_forall; intros x Hx; unfold no_eol in Hb; rewrite Forall_forall in Hb;
        apply Hb; rewrite <- (firstn_skipn (length a) body); apply in_or_app; right; assumption|].
      right. assert (E : skipn (length a) (a ++ r) = skipn (length a) (body ++ [13])) by congruence.
      rewrite skipn_before in E by reflexivity. rewrite E, skipn_app. replace (length a - length body)%nat with O by lia. reflexivity.
    + assert (r = []). { apply (f_equal (@length Z)) in H. rewrite !app_length in H. cbn in H. destruct r; [reflexivity|cbn in H; lia]. }
      subst. exists []. split; [constructor|left; reflexivity].
Qed.

Lemma find_sub_none p : forall l, find_sub p l = None -> forall a b, l <> a ++ p ++ b.
Proof.
  induction l as [|y l IHl]; intros Ef a b Ha; cbn [find_sub] in Ef.
  - destruct (prefixb p []) eqn:E0; [discriminate|]. symmetry in Ha. apply app_eq_nil in Ha as [-> Ha].
    assert (prefixb p [] = true) by (apply prefixb_spec; exists b; symmetry; assumption). congruence.
  - destruct (prefixb p (y :: l)) eqn:E0; [discriminate|]. destruct a as [|z a].
    + assert (prefixb p (y :: l) = true) by (apply prefixb_spec; exists b; assumption). congruence.
    + injection Ha as -> Ha. apply (IHl ltac:(destruct (find_sub p l); [discriminate|reflexivity]) a b). assumption.
Qed.

Lemma firstat_tail p l tail k : no_eol p -> p <> [] -> Line l tail -> FirstAt p k (l ++ tail) -> find_sub p l = None ->
  (length l <= k)%nat /\ FirstAt p (k - length l) tail.
Proof.
  intros Hp Hne HL ((b & Hb) & Hk & Hm) Hn.
  assert (Hkl : (length l <= k)%nat).
  { destruct (Nat.le_gt_cases (length l) k) as [H|H]; [assumption|exfalso].
    destruct (occ_in_line p l tail (firstn k (l ++ tail)) b Hp Hne HL Hb) as (b' & Hb').
    { rewrite firstn_length. lia. }
    apply (find_sub_none p l Hn _ _ Hb'). }
  split; [assumption|]. split; [|split].
  - exists b. rewrite firstn_app, firstn_all2 in Hb by lia. rewrite <- app_assoc in Hb. apply app_inv_head in Hb. exact Hb.
  - rewrite app_length in Hk. lia.
  - intros a b' Hab. specialize (Hm (l ++ a) b'). rewrite Hab, <- app_assoc, app_length in Hm. specialize (Hm eq_refl). lia.
Qed.

Lemma firstat_line p l tail k i : FirstAt p k (l ++ tail) -> find_sub p l = Some i -> k = i /\ (i <= length l)%nat.
Proof.
  intros ((b & Hb) & Hk & Hm) Hi. apply find_sub_some in Hi as ((b2 & Hb2) & Hi & Hm2). split; [|assumption].
  assert (k <= i)%nat.
  { specialize (Hm (firstn i l) (b2 ++ tail)). rewrite firstn_length in Hm. rewrite Hb2 in Hm at 1. rewrite <- !app_assoc in Hm. specialize (Hm eq_refl). lia. }
  destruct (Nat.eq_dec k i) as [?|Hki]; [assumption|exfalso].
  (* an occurrence at k < i lies inside l *)
  assert (Hlen : (k + length p <= length l)%nat).
  { assert (length l = i + length p + length b2)%nat; [|lia].
    rewrite Hb2 at 1. rewrite !app_length, firstn_length. lia. }
  specialize (Hm2 (firstn k l) (skipn (k + length p) l)).
  rewrite firstn_length in Hm2. assert (Hx : (i <= Nat.min k (length l))%nat); [|lia]. apply Hm2.
  assert (Hf : firstn (k + length p) l = firstn k l ++ p).
  { assert (E : firstn (k + length p) (l ++ tail) = firstn (k + length p) (firstn k (l ++ tail) ++ p ++ b)) by (rewrite <- Hb; reflexivity).
    rewrite firstn_app in E. replace (k + length p - length l)%nat with O in E by lia. cbn [firstn] in E. rewrite app_nil_r in E.
    rewrite E. rewrite (firstn_app k l tail). replace (k - length l)%nat with O by lia. cbn [firstn]. rewrite app_nil_r.
    rewrite firstn_app, firstn_length. replace (Nat.min k (length l)) with k by lia.
    rewrite firstn_all2 by (rewrite firstn_length; lia). f_equal. replace (k + length p - k)%nat with (length p) by lia.
    rewrite firstn_app, firstn_all, Nat.sub_diag. cbn [firstn]. apply app_nil_r. }
  rewrite app_assoc, <- Hf. symmetry. apply firstn_skipn.
Qed.

Lemma endstream_no_eol : no_eol (bs "endstream").
Proof. unfold no_eol, eol_byte. repeat constructor; cbn; lia. Qed.

Lemma to_endstream_spec : forall fuel pos b cs k, nonempty cs -> (length (b ++ concat cs) < fuel)%nat ->
  FirstAt (bs "endstream") k (b ++ concat cs) -> ~ unfinished_line (skipn k (b ++ concat cs)) ->
  to_endstream fuel pos b cs = firstn k (b ++ concat cs).
Proof.
  induction fuel as [|f IH]; intros pos b cs k Hne Hf HF HU; [lia|]. cbn [to_endstream].
  pose proof (nextline_spec pos b cs Hne) as H. destruct (nextline pos b cs) as [[[q l]|e] [[pos' b'] cs']].
  - destruct H as (_ & _ & Hne' & Hcat & HL). rewrite Hcat in *.
    destruct (find_sub (bs "endstream") l) as [i|] eqn:Ei.
    + destruct (firstat_line _ _ _ _ _ HF Ei) as [-> Hi]. rewrite firstn_app. replace (i - length l)%nat with O by lia.
      cbn [firstn]. rewrite app_nil_r. reflexivity.
    + destruct (firstat_tail _ _ _ _ endstream_no_eol ltac:(discriminate) HL HF Ei) as [Hk HF'].
      pose proof (line_nonempty _ _ HL) as Hl. rewrite app_length in Hf.
      rewrite (IH pos' b' cs' (k - length l)%nat Hne').
      * rewrite (firstn_app k l), (firstn_all2 l) by lia. reflexivity.
      * lia.
      * assumption.
      * rewrite skipn_app, skipn_all2 in HU by lia. exact HU.
  - destruct H as [_ H]. exfalso. apply HU. apply (unfinished_suffix (firstn k (b ++ concat cs))). rewrite firstn_skipn. exact H.
Qed.

(* ---- the stream keyword ---- *)
Definition newline (nl : list Z) : Prop := nl = [10] \/ nl = [13; 10].
Lemma stream_line nl T : newline nl -> Line (bs "stream" ++ nl) T.
Proof.
  assert (H : no_eol (bs "stream")) by (unfold no_eol, eol_byte; repeat constructor; cbn; lia).
  intros [->| ->]; [apply Line_lf|apply Line_crlf]; exact H.
Qed.
Lemma line_finished l t : Line l t -> ~ unfinished_line (l ++ t).
Proof.
  intros HL (body & Hb & H).
  assert (Hc : forall u v, no_eol u -> ~ (exists w x, u = w ++ x :: v /\ eol_byte x)).
  { intros u v Hu (w & x & -> & Hx). apply Forall_app in Hu as [_ Hu]. apply Forall_inv in Hu. contradiction. }
  assert (Hu : forall u v w r, no_eol u -> no_eol v -> w = 10 \/ w = 13 -> u ++ w :: r = v ++ [13] -> w = 13 /\ r = []).
  { intros u v w r Hu Hv Hw E. destruct (no_eol_split u v w 13 r [] Hu Hv) as (_ & ? & ?).
    - unfold eol_byte. tauto. - right; reflexivity. - exact E. - tauto. }
  inversion HL as [bd r Hbd|bd r Hbd|bd c r Hbd Hc10]; subst; rewrite <- app_assoc in H; cbn [app] in H; destruct H as [H|H].
  - apply (Hc body t Hb). exists bd, 10. split; [symmetry; assumption|left; reflexivity].
  - destruct (Hu _ _ _ _ Hbd Hb (or_introl eq_refl) H). discriminate.
  - apply (Hc body (10 :: t) Hb). exists bd, 13. split; [symmetry; assumption|right; reflexivity].
  - destruct (Hu _ _ _ _ Hbd Hb (or_intror eq_refl) H). discriminate.
  - apply (Hc body (c :: r) Hb). exists bd, 13. split; [symmetry; assumption|right; reflexivity].
  - destruct (Hu _ _ _ _ Hbd Hb (or_intror eq_refl) H). discriminate.
Qed.

Lemma nextline_seek e before l t P : (0 < bufsiz e)%nat -> file e = before ++ l ++ t -> P = Z.of_nat (length before) -> Line l t ->
  exists st, nextline P (buf (seek e P)) (chunks (seek e P)) = (Ok (P, l), st).
Proof.
  intros Hb Hf -> HL. cbn [seek open_at buf chunks].
  destruct (read_chunks_spec (bufsiz e) (skipn (Z.to_nat (Z.of_nat (length before))) (file e)) Hb) as [E N].
  rewrite Hf, Nat2Z.id, skipn_before in * by reflexivity.
  pose proof (nextline_spec (Z.of_nat (length before)) [] _ N) as H. cbn [app] in H.
  destruct (nextline _ _ _) as [[[q l']|ex] [[pos' b'] cs']].
  - destruct H as (-> & _ & _ & Hc & HL'). rewrite E in Hc.
    destruct (line_unique _ _ _ _ HL' HL (eq_sym Hc)) as [-> _]. eexists; reflexivity.
  - destruct H as [_ H]. rewrite E in H. exfalso. apply (line_finished _ _ HL H).
Qed.

Lemma to_endstream_seek e before T P k fuel : (0 < bufsiz e)%nat -> file e = before ++ T -> P = Z.of_nat (length before) ->
  (length (file e) < fuel)%nat -> FirstAt (bs "endstream") k T -> ~ unfinished_line (skipn k T) ->
  to_endstream fuel P (buf (seek e P)) (chunks (seek e P)) = firstn k T.
Proof.
  intros Hb Hf -> Hfu HF HU. cbn [seek open_at buf chunks].
  destruct (read_chunks_spec (bufsiz e) (skipn (Z.to_nat (Z.of_nat (length before))) (file e)) Hb) as [E N].
  assert (ET : concat (read_chunks (bufsiz e) (skipn (Z.to_nat (Z.of_nat (length before))) (file e))) = T).
  { rewrite E, Hf, Nat2Z.id, skipn_before by reflexivity. reflexivity. }
  rewrite (to_endstream_spec fuel _ [] _ k N); cbn [app]; rewrite ET; [reflexivity| |assumption|assumption].
  rewrite Hf, app_length in Hfu. lia.
Qed.

Lemma do_stream_spec e p s before nl data T d q k :
  (0 < bufsiz e)%nat -> newline nl -> file e = before ++ bs "stream" ++ nl ++ data ++ T ->
  fst (pop s 1) = [(q, ODict d)] -> resolve e (ODict d) = ODict d ->
  (if fallback e then data = [] else exists v, dget d "Length" = Some v /\ resolve e v = OInt (Z.of_nat (length data))) ->
  FirstAt (bs "endstream") k T -> ~ unfinished_line (skipn k T) ->
  let P := Z.of_nat (length before) in
  let P1 := P + 6 + Z.of_nat (length nl) in
  do_stream e p s P =
    Ok (seek e (P1 + Z.of_nat (length data) + Z.of_nat k),
        push stk0 (P1, OStream d (if fallback e then firstn k T else data))).
Proof.
  intros Hb Hnl Hf Hpop Hd Hlen HF HU P P1. unfold do_stream. destruct (pop s 1) as [ops s1]. cbn [fst] in Hpop. subst ops.
  unfold dict_value. rewrite Hd.
  destruct (nextline_seek e before (bs "stream" ++ nl) (data ++ T) P Hb) as (st & ->);
    [rewrite Hf, <- app_assoc; reflexivity|reflexivity|apply stream_line; assumption|].
  assert (EP : P + Z.of_nat (length (bs "stream" ++ nl)) = P1) by (rewrite app_length; change (length (bs "stream")) with 6%nat; unfold P1; lia).
  destruct st as [st cs]. rewrite EP.
  assert (EP1 : P1 = Z.of_nat (length (before ++ bs "stream" ++ nl))).
  { rewrite !app_length. change (length (bs "stream")) with 6%nat. unfold P1, P. lia. }
  remember (if fallback e then 0 else match dget d "Length" with Some v => int_value e v | None => 0 end) as objlen eqn:Eo.
  assert (Ho : objlen = Z.of_nat (length data)).
  { subst objlen. destruct (fallback e).
    - subst data. reflexivity.
    - destruct Hlen as (v & -> & Hv). unfold int_value. rewrite Hv. reflexivity. }
  clear Eo. subst objlen.
  replace (Z.of_nat (length data) <? 0) with false by lia. replace (P1 + Z.of_nat (length data) <? 0) with false by lia.
  rewrite (to_endstream_seek e (before ++ bs "stream" ++ nl ++ data) T _ k); [|assumption| | |lia|assumption|assumption].
  2: { rewrite Hf, <- !app_assoc. reflexivity. }
  2: { rewrite EP1, !app_length. lia. }
  assert (Hk : length (firstn k T) = k) by (destruct HF as (_ & Hk & _); rewrite firstn_length; lia).
  rewrite Hk.
  assert (Edata : firstn (Z.to_nat (Z.of_nat (length data))) (skipn (Z.to_nat P1) (file e)) = data).
  { rewrite EP1, !Nat2Z.id. replace (file e) with ((before ++ bs "stream" ++ nl) ++ data ++ T) by (rewrite Hf, <- !app_assoc; reflexivity).
    rewrite skipn_before by reflexivity. rewrite firstn_app, firstn_all, Nat.sub_diag. cbn [firstn]. apply app_nil_r. }
  rewrite Edata. replace (P1 + (Z.of_nat (length data) + Z.of_nat k)) with (P1 + Z.of_nat (length data) + Z.of_nat k) by lia.
  destruct (fallback e); [subst data|]; reflexivity.
Qed.

(* the whole stream object *)
Lemma step_stream e p s pos : step (pdf_keyword e) p s pos (KW "stream") = do_stream e p s pos.
Proof. reflexivity. Qed.
Lemma step_endstream e p s pos : step (pdf_keyword e) p s pos (KW "endstream") = Ok (p, push s (pos, OKwd (bs "endstream"))).
Proof. reflexivity. Qed.

Lemma kw_spell s c t : bs s = c :: t -> letter c -> Forall (fun c => regular c /\ c <> 35) t ->
  c :: t <> bs "true" -> c :: t <> bs "false" -> Spell (KW s) (bs s) NeedsBoundary.
Proof. intros E. unfold KW. rewrite E. apply Sp_kwd. Qed.
Ltac kwspell := eapply kw_spell; [reflexivity|unfold letter; cbn; lia| |discriminate|discriminate];
  repeat constructor; try (unfold regular, white, delim; cbn; intuition lia).
Lemma stream_spell : Spell (KW "stream") (bs "stream") NeedsBoundary. Proof. kwspell. Qed.
Lemma endstream_spell : Spell (KW "endstream") (bs "endstream") NeedsBoundary. Proof. kwspell. Qed.
Lemma endobj_spell : Spell (KW "endobj") (bs "endobj") NeedsBoundary. Proof. kwspell. Qed.

(* from a parser whose next tokens are a dictionary and the keyword stream, at the end of the prefix B *)
Lemma stream_from e p0 ts' more ee B d nl data T k g2 rest :
  (0 < bufsiz e)%nat -> newline nl ->
  file e = B ++ bs "stream" ++ nl ++ data ++ T ->
  nonempty (chunks p0) -> tokens p0 = (ts' ++ (Z.of_nat (length B), KW "stream") :: more, ee) ->
  Written true true (ODict d) (map snd ts') -> resolve e (ODict d) = ODict d ->
  (if fallback e then data = [] else exists v, dget d "Length" = Some v /\ resolve e v = OInt (Z.of_nat (length data))) ->
  FirstAt (bs "endstream") k T -> ~ unfinished_line (skipn k T) ->
  skipn k T = bs "endstream" ++ g2 ++ bs "endobj" ++ rest -> Sep g2 -> g2 <> [] -> (exists c r, rest = c :: r /\ (white c \/ delim c)) ->
  exists n p s, forall f,
    pdf_nextobject e (n + f) p0 stk0 =
      Ok ((Z.of_nat (length (B ++ bs "stream" ++ nl)), OStream d (if fallback e then firstn k T else data)), p, s).
Proof.
  intros Hb Hnl Hf N Tk HW Hd Hlen HF HU HT Hg2 Hg2n Hrest.
  destruct (pdf_runs e _ _ HW stk0 ts' eq_refl eq_refl) as (pos & HR).
  destruct (HR _ _ _ N Tk) as (n & p' & N' & T' & E').
  destruct (nexttoken_tokens _ _ _ _ N' T') as (p2 & Hn2 & T2 & N2).
  pose proof (do_stream_spec e p2 (push stk0 (pos, ODict d)) B nl data T d pos k Hb Hnl) as DS.
  specialize (DS Hf eq_refl Hd Hlen HF HU). cbv zeta in DS.
  remember (Z.of_nat (length B) + 6 + Z.of_nat (length nl)) as P1 eqn:EP1.
  remember (if fallback e then firstn k T else data) as out eqn:Eout.
  (* after the data *)
  pose proof HF as ((b & Hb1) & Hk & _).
  destruct (seek_at e (B ++ bs "stream" ++ nl ++ data ++ firstn k T) (skipn k T) (P1 + Z.of_nat (length data) + Z.of_nat k) Hb) as [N3 T3].
  { rewrite Hf, <- !app_assoc, firstn_skipn. reflexivity. }
  { subst P1. rewrite !app_length, firstn_length. change (length (bs "stream")) with 6%nat. lia. }
  rewrite HT in T3.
  destruct (spell_lemma _ _ _ endstream_spell false lex0 (P1 + Z.of_nat (length data) + Z.of_nat k) (g2 ++ bs "endobj" ++ rest)) as (l3 & Hl3 & E5);
    [|reflexivity|].
  { inversion Hg2 as [|c g Hc Hg Ec|body c g Hbd Hc Hg Ec]; subst g2; [congruence| |];
      (eexists; eexists; split; [reflexivity|]); [left; exact Hc|right; unfold delim; cbn; tauto]. }
  rewrite E5 in T3. clear E5.
  destruct (sep_lemma g2 Hg2 l3 (P1 + Z.of_nat (length data) + Z.of_nat k + Z.of_nat (length (bs "endstream"))) (bs "endobj" ++ rest) Hl3) as (l4 & Hl4 & E6).
  destruct (spell_lemma _ _ _ endobj_spell false l4 (P1 + Z.of_nat (length data) + Z.of_nat k + Z.of_nat (length (bs "endstream")) + Z.of_nat (length g2)) rest) as (l5 & Hl5 & E7); [exact Hrest|assumption|].
  rewrite E6, E7 in T3. unfold pre in T3. cbn [fst snd app] in T3.
  destruct (nexttoken_tokens _ _ _ _ N3 T3) as (p4 & Hn4 & T4 & N4).
  destruct (nexttoken_tokens _ _ _ _ N4 T4) as (p5 & Hn5 & T5 & N5).
  exists (n + 3)%nat, p5. eexists. intros f. unfold pdf_nextobject. rewrite <- Nat.add_assoc, E'. cbn [Nat.add].
  rewrite nextobject_eq. cbn [push stk0 results]. rewrite Hn2, step_stream.
  change (mkStk (context stk0) (curtype stk0) (curstack stk0 ++ [(pos, ODict d)]) (results stk0)) with (push stk0 (pos, ODict d)).
  rewrite DS. cbn [bind].
  rewrite nextobject_eq. cbn [push stk0 context curtype curstack results app]. rewrite Hn4, step_endstream. cbn [bind].
  rewrite nextobject_eq. cbn [push stk0 context curtype curstack results app]. rewrite Hn5, step_endobj.
  cbn [pop push stk0 context curtype curstack results app length Nat.sub skipn firstn add_results bind].
  rewrite nextobject_eq. cbn [results]. f_equal.
  replace (Z.of_nat (length (B ++ bs "stream" ++ nl))) with P1; [reflexivity|].
  subst P1. rewrite !app_length. change (length (bs "stream")) with 6%nat. lia.
Qed.
Lemma stream_object_lemma e before dtext dts d nl data T k g2 rest :
  (0 < bufsiz e)%nat -> newline nl ->
  file e = before ++ dtext ++ bs "stream" ++ nl ++ data ++ T ->
  LayoutP false (Z.of_nat (length before)) dts dtext (bs "stream" ++ nl ++ data ++ T) ->
  Written true true (ODict d) (map snd dts) -> resolve e (ODict d) = ODict d ->
  (if fallback e then data = [] else exists v, dget d "Length" = Some v /\ resolve e v = OInt (Z.of_nat (length data))) ->
  FirstAt (bs "endstream") k T -> ~ unfinished_line (skipn k T) ->
  skipn k T = bs "endstream" ++ g2 ++ bs "endobj" ++ rest -> Sep g2 -> g2 <> [] -> (exists c r, rest = c :: r /\ (white c \/ delim c)) ->
  exists n p s, forall f,
    pdf_nextobject e (n + f) (seek e (Z.of_nat (length before))) stk0 =
      Ok ((Z.of_nat (length (before ++ dtext ++ bs "stream" ++ nl)), OStream d (if fallback e then firstn k T else data)), p, s).
Proof.
  intros Hb Hnl Hf HL HW Hd Hlen HF HU HT Hg2 Hg2n Hrest.
  destruct (seek_at e before (dtext ++ bs "stream" ++ nl ++ data ++ T) _ Hb Hf eq_refl) as [N Tk].
  destruct (layoutP_lemma _ _ _ _ _ HL ltac:(discriminate) lex0 eq_refl) as [(ts' & l' & E1 & E2 & E3) _].
  rewrite E3 in Tk. unfold pre in Tk.
  destruct (spell_lemma _ _ _ stream_spell false l' (Z.of_nat (length before) + Z.of_nat (length dtext)) (nl ++ data ++ T)) as (l2 & Hl2 & E4);
    [destruct Hnl as [->| ->]; cbn [follows app]; eexists; eexists; (split; [reflexivity|left; unfold white; lia])|assumption|].
  rewrite E4 in Tk. cbn [pre fst snd app] in Tk.
  replace (Z.of_nat (length before) + Z.of_nat (length dtext)) with (Z.of_nat (length (before ++ dtext))) in Tk by (rewrite app_length; lia).
  rewrite app_assoc in Hf. rewrite <- (tok_eq_snd _ _ E1) in HW.
  destruct (stream_from e _ ts' _ _ (before ++ dtext) d nl data T k g2 rest Hb Hnl Hf N Tk HW Hd Hlen HF HU HT Hg2 Hg2n Hrest) as (n & p & s & H).
  exists n, p, s. intros f. rewrite H, <- app_assoc. reflexivity.
Qed.
