From Coq Require Import String.
From Verif Require Import Base Lex_Model Lex_Spec Lex_Proofs Obj Stack_Model Stack_Spec Stack_Proofs CMap_Model CMap_Spec CMap_Proofs.
From Coq Require Import ZifyBool ZifyNat.

Section names.
  Context (glyphs : list Z -> option (list Z)).

  Lemma digit_bool c : is_digit c = true <-> digit_char c.
  Proof. unfold is_digit, digit_char. lia. Qed.

  Lemma first_digits_spec a ds b : Forall (fun c => ~ digit_char c) a -> Forall digit_char ds -> ds <> [] ->
    (forall c r, b = c :: r -> ~ digit_char c) -> first_digits (a ++ ds ++ b) = ds.
  Proof.
    intros Ha Hd Hne Hb. induction Ha as [|c a Hc Ha IH].
    - cbn [app]. destruct ds as [|d ds]; [congruence|]. inversion_clear Hd as [|? ? Hd1 Hd2].
      cbn [app first_digits]. rewrite (proj2 (digit_bool d) Hd1). cbn [span]. rewrite (proj2 (digit_bool d) Hd1). cbn [negb].
      assert (H : forall l, Forall digit_char l -> fst (span (fun c => negb (is_digit c)) (l ++ b)) = l).
      { induction l as [|x l IHl]; intros Hl; cbn [app].
        - destruct b as [|y b]; [reflexivity|]. cbn [span]. destruct (is_digit y) eqn:E; [|reflexivity].
          apply digit_bool in E. exfalso. eapply Hb; [reflexivity|exact E].
        - inversion_clear Hl as [|? ? H1 H2]. cbn [span]. rewrite (proj2 (digit_bool x) H1). cbn [negb].
          specialize (IHl H2). destruct (span _ (l ++ b)). cbn in *. congruence. }
      specialize (H ds Hd2). destruct (span _ (ds ++ b)). cbn in *. congruence.
    - cbn [app first_digits]. destruct (is_digit c) eqn:E; [apply digit_bool in E; contradiction|exact IH].
  Qed.
  Lemma first_digits_none n : Forall (fun c => ~ digit_char c) n -> first_digits n = [].
  Proof.
    induction 1 as [|c n Hc Hn IH]; [reflexivity|]. cbn [first_digits]. destruct (is_digit c) eqn:E; [apply digit_bool in E; contradiction|exact IH].
  Qed.
  Lemma decimal_eq ds : fold_left (fun a c => a * 10 + (c - 48)) ds 0 = decimal ds.
  Proof.
    unfold decimal. generalize 0. induction ds as [|d ds IH]; intros a; [reflexivity|]. cbn [fold_left]. rewrite IH. f_equal. lia.
  Qed.

  Lemma means_lemma n t : Means glyphs n t -> name2unicode glyphs n = Ok t.
  Proof.
    intros [n' t' H|a ds b H Ha Hd Hne Hb Hm]; unfold name2unicode; rewrite H; [reflexivity|].
    rewrite first_digits_spec by assumption. destruct ds as [|d ds]; [congruence|]. rewrite decimal_eq.
    replace (decimal (d :: ds) <=? 1114111) with true by lia. reflexivity.
  Qed.
  Lemma meaningless_lemma n : Meaningless glyphs n -> name2unicode glyphs n = Err KeyError.
  Proof. intros [H1 H2]. unfold name2unicode. rewrite H1, first_digits_none by assumption. reflexivity. Qed.

  Lemma apply_diff_lemma diff : differences diff -> forall code m l, Texts glyphs (declared code diff) l ->
    exists m', apply_diff glyphs m code diff = Ok m' /\ updated m l m'.
  Proof.
    induction 1 as [|o diff Ho Hd IH]; intros code m l Hl.
    - inversion Hl. exists m. split; [reflexivity|apply updated_nil].
    - destruct Ho as [[i ->]|[n ->]]; cbn [declared apply_diff] in *.
      + apply IH. exact Hl.
      + inversion Hl as [|c n' t l' r Hm Hr|c n' l' r Hm Hr]; subst.
        * rewrite (means_lemma _ _ Hm). destruct (IH (code + 1) (iput m code t) r Hr) as (m' & E & U). exists m'. split; [exact E|].
          change ((code, t) :: r) with ([(code, t)] ++ r). eapply updated_app; [apply updated_one|exact U].
        * rewrite (meaningless_lemma _ Hm). apply IH. exact Hr.
  Qed.

  (* ---- headers ---- *)
  Fixpoint Ctx (outer : list (list obj)) (s : stk) : Prop :=
    match outer with
    | [] => True
    | st0 :: r => curtype s = Some KProc /\
        match context s with
        | (_, ct, cs) :: ctx => map snd cs = st0 /\ Ctx r (mkStk ctx ct cs (results s))
        | [] => False
        end
    end.
  Lemma ctx_stack outer s cs : Ctx outer s -> Ctx outer (mkStk (context s) (curtype s) cs (results s)).
  Proof. destruct outer; cbn; [trivial|]. intros H. exact H. Qed.

  Lemma step_hword m s pos k : ~ In k brackets -> step (header_keyword glyphs) m s pos (TKwd k) = header_keyword glyphs m s pos k.
  Proof.
    intros Hb. assert (F : forall x, In (bs x) brackets -> list_eqb k (bs x) = false).
    { intros x Hx. destruct (list_eqb k (bs x)) eqn:E; [|reflexivity]. apply list_eqb_eq in E. subst. contradiction. }
    unfold step. repeat rewrite F by (cbn; tauto). reflexivity.
  Qed.

  Lemma header_lemma outer st ts asg : Header outer st ts asg -> forall l, Texts glyphs asg l ->
    forall pts m s, map snd pts = ts -> map snd (curstack s) = st -> Ctx outer s ->
    exists m' s', feed (header_keyword glyphs) m s pts = Ok (m', s') /\ updated m l m'.
  Proof.
    induction 1 as [outer st|outer st o t ts asg Hw HP IH|outer st k ts asg Hk Hb HP IH|outer st i n ts asg HP IH
                   |outer st k v ts asg Hk Hk2 HP IH|outer st ts asg HP IH|outer st0 st ts asg HP IH]; intros l HT pts m s Hp Hs HC.
    - inversion HT. destruct pts; [|discriminate]. exists m, s. split; [reflexivity|apply updated_nil].
    - apply map_eq_app in Hp as (l1 & l2 & -> & Hl1 & Hl2).
      destruct (proj1 (written_feed (header_keyword glyphs)) _ _ Hw l1 Hl1) as (pos & E). rewrite feed_app, E. cbn [bind].
      apply IH; [exact HT|exact Hl2| |].
      + rewrite <- Hs. apply map_app.
      + apply (ctx_stack outer s). exact HC.
    - destruct pts as [|[pos t] pts]; [discriminate|]. injection Hp as -> Hp. cbn [feed]. rewrite step_hword by assumption.
      unfold header_keyword at 1. destruct (list_eqb k (bs "put")) eqn:E; [apply list_eqb_eq in E; contradiction|]. cbn [bind].
      apply IH; assumption.
    - destruct pts as [|[pos t] pts]; [discriminate|]. injection Hp as -> Hp. cbn [feed]. unfold KW.
      rewrite step_hword by (cbn; intuition discriminate). unfold header_keyword at 1. change (list_eqb (bs "put") (bs "put")) with true. cbn iota.
      apply map_eq_app in Hs as Hs'. destruct Hs' as (l1 & l2 & El & Hl1 & Hl2). 
      destruct l2 as [|[p1 k'] [|[p2 v'] [|? ?]]]; try discriminate Hl2. injection Hl2 as -> ->.
      rewrite (pop_snoc s [(p1, OInt i); (p2, OName n)] 2 eq_refl (or_intror I) l1 El).
      pose proof (ctx_stack outer s l1 HC) as HC'.
      inversion HT as [|c n' t l' r Hm Hr|c n' l' r Hm Hr]; subst.
      + rewrite (means_lemma _ _ Hm). cbn [bind].
        destruct (IH r Hr pts (iput m i t) (mkStk (context s) (curtype s) l1 (results s)) eq_refl eq_refl HC') as (m' & s' & E & U).
        exists m', s'. split; [exact E|]. change ((i, t) :: r) with ([(i, t)] ++ r). eapply updated_app; [apply updated_one|exact U].
      + rewrite (meaningless_lemma _ Hm). cbn [bind]. apply IH; [exact Hr|reflexivity|reflexivity|exact HC'].
    - destruct pts as [|[pos t] pts]; [discriminate|]. injection Hp as -> Hp. cbn [feed]. unfold KW.
      rewrite step_hword by (cbn; intuition discriminate). unfold header_keyword at 1. change (list_eqb (bs "put") (bs "put")) with true. cbn iota.
      apply map_eq_app in Hs as Hs'. destruct Hs' as (l1 & l2 & El & Hl1 & Hl2). 
      destruct l2 as [|[p1 k'] [|[p2 v'] [|? ?]]]; try discriminate Hl2. injection Hl2 as -> ->.
      rewrite (pop_snoc s [(p1, k); (p2, v)] 2 eq_refl (or_intror I) l1 El).
      assert (Hn : (match k, v with
          | OInt i, OName n => match name2unicode glyphs n with Ok t => Ok (iput m i t, mkStk (context s) (curtype s) l1 (results s)) | Err KeyError => Ok (m, mkStk (context s) (curtype s) l1 (results s)) | Err e => Err e end
          | OBool b, OName n => match name2unicode glyphs n with Ok t => Ok (iput m (if b then 1 else 0) t, mkStk (context s) (curtype s) l1 (results s)) | Err KeyError => Ok (m, mkStk (context s) (curtype s) l1 (results s)) | Err e => Err e end
          | _, _ => Ok (m, mkStk (context s) (curtype s) l1 (results s))
          end) = Ok (m, mkStk (context s) (curtype s) l1 (results s))).
      { destruct k; try reflexivity; [exfalso; eapply Hk2; reflexivity|exfalso; eapply Hk; reflexivity]. }
      rewrite Hn. cbn [bind]. apply IH; [exact HT|exact Hp|exact Hl1|apply ctx_stack; exact HC].
    - destruct pts as [|[pos t] pts]; [discriminate|]. injection Hp as -> Hp. cbn [feed].
      change (step (header_keyword glyphs) m s pos (KW "{")) with (Ok (m, start_type s pos KProc)). cbn [bind].
      apply IH; [exact HT|exact Hp|reflexivity|]. cbn. splits; [reflexivity|exact Hs|]. destruct s; exact HC.
    - destruct pts as [|[pos t] pts]; [discriminate|]. injection Hp as -> Hp. cbn [feed]. cbn [Ctx] in HC. destruct HC as [HC1 HC2].
      destruct (context s) as [|[[p1 ct] cs] ctx] eqn:Ec; [destruct HC2|]. destruct HC2 as [HC2 HC3].
      assert (Es : step (header_keyword glyphs) m s pos (KW "}") = Ok (m, push (mkStk ctx ct cs (results s)) (p1, OArr st))).
      { unfold step, KW.
        change (list_eqb (bs "}") (bs "[")) with false. change (list_eqb (bs "}") (bs "]")) with false.
        change (list_eqb (bs "}") (bs "<<")) with false. change (list_eqb (bs "}") (bs ">>")) with false.
        change (list_eqb (bs "}") (bs "{")) with false. change (list_eqb (bs "}") (bs "}")) with true. cbn iota.
        unfold end_type. rewrite HC1, Ec. cbn [ckind_eqb]. rewrite Hs. reflexivity. }
      rewrite Es. cbn [bind]. apply IH; [exact HT|exact Hp| |].
      + rewrite <- HC2. apply map_app.
      + apply (ctx_stack outer (mkStk ctx ct cs (results s))). exact HC3.
  Qed.
End names.
