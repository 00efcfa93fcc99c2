(* Helpers to show that concrete texts meet the hypotheses of the theorems (used only in the example lemmas). *)
From Coq Require Import String.
From Verif Require Import Base Lex_Model Lex_Spec Lines_Spec Obj Stack_Spec XRef_Spec.
From Coq Require Import ZifyBool ZifyNat.

Definition decval (t : list Z) : Z := fold_left (fun v c => 10 * v + (c - 48)) t 0.
Lemma dec_ok t : forallb is_digit t = true -> t <> [] -> Dec t (decval t).
Proof.
  induction t as [|c t IH] using rev_ind; [contradiction|]. intros H _. rewrite forallb_app in H. apply andb_prop in H as [H1 H2].
  cbn in H2. unfold is_digit in H2. unfold decval. rewrite fold_left_app. cbn [fold_left]. fold (decval t).
  replace c with (48 + (c - 48)) at 1 by lia. destruct t as [|x t].
  - cbn [decval fold_left app]. replace (10 * 0 + (c - 48)) with (c - 48) by lia. apply Dec_one. lia.
  - apply Dec_more; [apply IH; [assumption|discriminate]|lia].
Qed.
Lemma dec_eq t v : forallb is_digit t = true -> t <> [] -> decval t = v -> Dec t v.
Proof. intros H1 H2 <-. apply dec_ok; assumption. Qed.

Definition whiteb (c : Z) : bool := (c =? 32) || ((9 <=? c) && (c <=? 13)).
Definition delimb (c : Z) : bool := existsb (Z.eqb c) [40; 41; 60; 62; 91; 93; 123; 125; 47; 37].
Lemma whiteb_iff c : whiteb c = true <-> white c.
Proof. unfold whiteb, white. lia. Qed.
Lemma delimb_iff c : delimb c = true <-> delim c.
Proof.
  unfold delimb, delim. rewrite existsb_exists. split.
  - intros (x & H & E). apply Z.eqb_eq in E. subst. assumption.
  - intros H. exists c. split; [assumption|apply Z.eqb_refl].
Qed.
Lemma sep_ok g : forallb whiteb g = true -> Sep g.
Proof.
  induction g as [|c g IH]; [constructor|]. cbn [forallb]. intros H. apply andb_prop in H as [H1 H2].
  apply Sep_white; [apply whiteb_iff; assumption|apply IH; assumption].
Qed.
Definition regb (c : Z) : bool := negb (whiteb c) && negb (delimb c) && negb (c =? 35).
Lemma regb_ok c : regb c = true -> regular c /\ c <> 35.
Proof.
  unfold regb. intros H. apply andb_prop in H as [H H3]. apply andb_prop in H as [H1 H2]. split; [split|lia].
  - intros W. apply whiteb_iff in W. rewrite W in H1. discriminate.
  - intros W. apply delimb_iff in W. rewrite W in H2. discriminate.
Qed.
Lemma spell_name_ok v : forallb regb v = true -> Spell (TLit v) (47 :: v) NeedsBoundary.
Proof.
  intros H. apply Sp_name. induction v as [|c v IH]; [constructor|]. cbn in H. apply andb_prop in H as [H1 H2].
  destruct (regb_ok _ H1) as [A B]. apply NB_reg; [assumption|assumption|apply IH; assumption].
Qed.
Definition letterb (c : Z) : bool := ((65 <=? c) && (c <=? 90)) || ((97 <=? c) && (c <=? 122)).
Definition kwb (t : list Z) : bool :=
  match t with c :: r => letterb c && forallb regb r | [] => false end && negb (list_eqb t (bs "true")) && negb (list_eqb t (bs "false")).
Lemma spell_kw_ok t : kwb t = true -> Spell (TKwd t) t NeedsBoundary.
Proof.
  unfold kwb. intros H. apply andb_prop in H as [H H3]. apply andb_prop in H as [H1 H2]. destruct t as [|c r]; [discriminate|].
  apply andb_prop in H1 as [H1 H4]. apply Sp_kwd.
  - unfold letter. unfold letterb in H1. lia.
  - apply Forall_forall. intros x Hx. apply regb_ok. rewrite forallb_forall in H4. apply H4. assumption.
  - intros E. rewrite E, list_eqb_refl in H2. discriminate.
  - intros E. rewrite E, list_eqb_refl in H3. discriminate.
Qed.
Lemma spell_int_ok t v : forallb is_digit t = true -> t <> [] -> decval t = v -> Spell (TInt v) t NeedsBoundary.
Proof. intros H1 H2 H3. replace v with (1 * v) by lia. apply (Sp_int [] 1 t v); [constructor|apply dec_eq; assumption]. Qed.
Definition boundb (r : list Z) : bool := match r with c :: _ => whiteb c || delimb c | [] => false end.
Lemma follows_ok exact r : boundb r = true -> follows exact NeedsBoundary r.
Proof.
  destruct r as [|c r]; cbn [boundb]; [discriminate|]. intros H. exists c, r. split; [reflexivity|].
  apply orb_prop in H as [H|H]; [left; apply whiteb_iff; assumption|right; apply delimb_iff; assumption].
Qed.
Lemma layP exact pos g q t sp k ts text rest all pos' :
  all = g ++ sp ++ text -> q = pos + Z.of_nat (length g) -> pos' = pos + Z.of_nat (length g) + Z.of_nat (length sp) ->
  Sep g -> Spell t sp k -> follows exact k (text ++ rest) -> LayoutP exact pos' ts text rest ->
  LayoutP exact pos ((q, t) :: ts) all rest.
Proof. intros -> -> ->. apply LP_tok. Qed.

Lemma textline_ok text sp m line rest : line = text ++ sp ++ m -> Forall (fun c => c = 32 \/ c = 9) sp -> eol_mark m ->
  m <> [13] -> TextLine text line rest.
Proof. intros H1 H2 H3 H4. exists sp, m. split; [assumption|]. split; [assumption|]. split; [assumption|]. contradiction. Qed.

(* one token of a layout: the gap g and the spelling sp *)
Ltac kw_tok g sp := eapply (layP _ _ g _ _ sp NeedsBoundary); [reflexivity|reflexivity|reflexivity|apply sep_ok; reflexivity|apply spell_kw_ok; reflexivity|apply follows_ok; reflexivity|].
Ltac int_tok g sp := eapply (layP _ _ g _ _ sp NeedsBoundary); [reflexivity|reflexivity|reflexivity|apply sep_ok; reflexivity|apply spell_int_ok; [reflexivity|discriminate|reflexivity]|apply follows_ok; reflexivity|].
Ltac name_tok g sp := eapply (layP _ _ g _ _ (47 :: sp) NeedsBoundary); [reflexivity|reflexivity|reflexivity|apply sep_ok; reflexivity|apply spell_name_ok; reflexivity|apply follows_ok; reflexivity|].
Ltac dopen_tok g := eapply (layP _ _ g _ _ [60; 60] SelfDelimited); [reflexivity|reflexivity|reflexivity|apply sep_ok; reflexivity|apply Sp_dopen|exact I|].
Ltac dclose_tok g := eapply (layP _ _ g _ _ [62; 62] SelfDelimited); [reflexivity|reflexivity|reflexivity|apply sep_ok; reflexivity|apply Sp_dclose|exact I|].
Ltac lay_end := apply LP_end; apply sep_ok; reflexivity.
