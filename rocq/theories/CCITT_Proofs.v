(* Lemmas about the CCITT decoder. *)
From Coq Require Import String Ascii.
From Verif Require Import Base Obj Stream_Model CCITT_Model CCITT_Spec.
From Coq Require Import ZifyBool ZifyNat.
Open Scope list_scope.
Open Scope Z_scope.

Local Notation len l := (Z.of_nat (length l)).

(* ---------- tables ---------- *)
Fixpoint walk {V} (t : tree V) (bits : list bool) : option V :=
  match bits with
  | [] => None
  | [b] => match branch t b with inr (Some v) => Some v | _ => None end
  | b :: r => match branch t b with inl t' => walk t' r | inr _ => None end
  end.
Lemma code_bits s : code s = bits_of s. Proof. induction s; cbn; congruence. Qed.
Definition table_ok {V} (eqb : V -> V -> bool) (t : tree V) (l : list (V * string)) : bool :=
  forallb (fun e => match walk t (code (snd e)) with Some v => eqb v (fst e) | None => false end) l.
Lemma table_walk {V} eqb (t : tree V) l v c : (forall a b, eqb a b = true -> a = b) -> table_ok eqb t l = true -> In (v, c) l -> walk t (code c) = Some v.
Proof.
  intros He H HI. pose proof (proj1 (forallb_forall _ _) H _ HI) as E. cbn [fst snd] in E. destruct (walk t (code c)) as [x|]; [|discriminate].
  apply He in E. congruence.
Qed.
Lemma white_walk v c : In (v, c) T4_white -> walk WHITE (code c) = Some v.
Proof. apply (table_walk Z.eqb); [apply Z.eqb_eq|vm_compute; reflexivity]. Qed.
Lemma black_walk v c : In (v, c) T4_black -> walk BLACK (code c) = Some v.
Proof. apply (table_walk Z.eqb); [apply Z.eqb_eq|vm_compute; reflexivity]. Qed.
Definition mode_eqb (a b : mode) : bool :=
  match a, b with M_vert x, M_vert y | M_ext x, M_ext y => x =? y | M_horiz, M_horiz | M_pass, M_pass | M_unc, M_unc | M_eofb, M_eofb => true | _, _ => false end.
Lemma mode_eqb_eq a b : mode_eqb a b = true -> a = b.
Proof. destruct a, b; cbn; try discriminate; intros H; try (apply Z.eqb_eq in H; subst); reflexivity. Qed.
Lemma vert_walk d c : In (d, c) vertical_codes -> walk MODE (code c) = Some (M_vert d).
Proof.
  intros H. assert (X : In (M_vert d, c) (map (fun e => (M_vert (fst e), snd e)) vertical_codes)) by (apply (in_map (fun e => (M_vert (fst e), snd e))) in H; exact H).
  revert X. apply (table_walk mode_eqb); [apply mode_eqb_eq|vm_compute; reflexivity].
Qed.
Lemma pass_walk : walk MODE pass_code = Some M_pass. Proof. vm_compute. reflexivity. Qed.
Lemma horiz_walk : walk MODE horizontal_code = Some M_horiz. Proof. vm_compute. reflexivity. Qed.
Lemma eofb_walk : walk MODE EOFB = Some M_eofb. Proof. vm_compute. reflexivity. Qed.

(* reading one code: the value is handed to the method of the phase; the parser differs only in its phase *)
Lemma walk_cons {V} (t : tree V) b r : r <> [] -> walk t (b :: r) = match branch t b with inl t' => walk t' r | inr _ => None end.
Proof. destruct r; [congruence|reflexivity]. Qed.
Lemma set_ph_twice p a b : set_ph (set_ph p a) b = set_ph p b. Proof. reflexivity. Qed.
Lemma ph_set p a : ph (set_ph p a) = a. Proof. reflexivity. Qed.
Lemma set_ph_same p : set_ph p (ph p) = p. Proof. destruct p. reflexivity. Qed.
(* the bits, and what is left of them when an exception ends the reading *)
Fixpoint parse_rem (p : parser) (l : list bool) : outcome * list bool :=
  match l with [] => (Go p, []) | b :: r => match parse_bit p b with Go q => parse_rem q r | o => (o, r) end end.
Definition thenr (o : outcome) (rest : list bool) : outcome * list bool := match o with Go x => parse_rem x rest | _ => (o, rest) end.
Lemma rem_bits l : forall p, fst (parse_rem p l) = parse_bits p l.
Proof. induction l as [|b r IH]; intros p; [reflexivity|]. cbn [parse_rem parse_bits]. destruct (parse_bit p b); try reflexivity. apply IH. Qed.
Lemma rem_app a b : forall p, parse_rem p (a ++ b) = match parse_rem p a with (Go q, _) => parse_rem q b | (o, r) => (o, r ++ b) end.
Proof. induction a as [|x a IH]; intros p; [reflexivity|]. cbn [app parse_rem]. destruct (parse_bit p x); try reflexivity. apply IH. Qed.
Lemma read_code {V} (P : tree V -> phase) (acc : parser -> option V -> outcome)
  (Hstep : forall p t b, ph p = P t -> parse_bit p b = match branch t b with inl t' => Go (set_ph p (P t')) | inr v => acc p v end) :
  forall bits p t v rest, ph p = P t -> walk t bits = Some v ->
  exists q, parse_rem p (bits ++ rest) = thenr (acc q (Some v)) rest /\ exists u, q = set_ph p (P u).
Proof.
  intros bits. induction bits as [|b r IH]; intros p t v rest Hp Hw; [discriminate|]. destruct r as [|b' r].
  - cbn [walk] in Hw. cbn [app parse_rem]. rewrite (Hstep _ _ _ Hp). destruct (branch t b) as [t'|[x|]]; try discriminate.
    injection Hw as ->. exists p. split; [unfold thenr; destruct (acc p (Some v)); reflexivity|]. exists t. rewrite <- Hp. symmetry. apply set_ph_same.
  - rewrite walk_cons in Hw by discriminate. destruct (branch t b) as [t'|] eqn:E; [|discriminate].
    destruct (IH (set_ph p (P t')) t' v rest eq_refl Hw) as (q & E1 & (u & E2)).
    exists q. split; [|exists u; exact E2]. rewrite <- E1. change ((b :: b' :: r) ++ rest) with (b :: ((b' :: r) ++ rest)).
    cbn [parse_rem]. rewrite (Hstep _ _ _ Hp), E. reflexivity.
Qed.
Lemma read_mode : forall bits p t v rest, ph p = P_mode t -> walk t bits = Some v ->
  exists q, parse_rem p (bits ++ rest) = thenr (parse_mode q (Some v)) rest /\ exists u, q = set_ph p (P_mode u).
Proof. apply read_code. intros p t b Hp. unfold parse_bit. rewrite Hp. reflexivity. Qed.
Lemma read_horiz1 : forall bits p t v rest, ph p = P_horiz1 t -> walk t bits = Some v ->
  exists q, parse_rem p (bits ++ rest) = thenr (parse_horiz1 q (Some v)) rest /\ exists u, q = set_ph p (P_horiz1 u).
Proof. apply read_code. intros p t b Hp. unfold parse_bit. rewrite Hp. reflexivity. Qed.
Lemma read_horiz2 : forall bits p t v rest, ph p = P_horiz2 t -> walk t bits = Some v ->
  exists q, parse_rem p (bits ++ rest) = thenr (parse_horiz2 q (Some v)) rest /\ exists u, q = set_ph p (P_horiz2 u).
Proof. apply read_code. intros p t b Hp. unfold parse_bit. rewrite Hp. reflexivity. Qed.

(* ---------- pixels ---------- *)
Lemma pix_px l i : 0 <= i < len l -> pix l i = Some (px l i).
Proof.
  intros H. unfold pix, py_ix, px. replace (0 <=? i) with true by lia. replace (i <? len l) with true by lia. replace (i <? 0) with false by lia.
  apply nth_error_nth'. lia.
Qed.
Lemma set_nth_length l : forall k v, length (set_nth l k v) = length l.
Proof. induction l as [|x l IH]; intros [|k] v; cbn; auto. Qed.
Lemma set_nth_nth l : forall k v i d, (k < length l)%nat -> nth i (set_nth l k v) d = if (i =? k)%nat then v else nth i l d.
Proof. induction l as [|x l IH]; intros [|k] v [|i] d H; cbn [length] in H; try lia; cbn; auto. apply IH. lia. Qed.
Lemma put_pix_ok l i v : - len l <= i < len l -> exists l', put_pix l i v = Some l' /\ length l' = length l /\
  (0 <= i -> forall j, px l' j = if j =? i then v else px l j) /\ (i = -1 -> forall j, 0 <= j < len l - 1 -> px l' j = px l j).
Proof.
  intros H. unfold put_pix, py_ix. destruct (0 <=? i) eqn:E.
  - replace (i <? len l) with true by lia. eexists. split; [reflexivity|]. split; [apply set_nth_length|]. split; [|lia]. intros _ j. unfold px.
    destruct (j <? 0) eqn:F; [replace (j =? i) with false by lia; reflexivity|]. rewrite set_nth_nth by lia.
    destruct (Z.eqb_spec j i); [subst; rewrite Nat.eqb_refl; reflexivity|]. replace (Z.to_nat j =? Z.to_nat i)%nat with false by lia. reflexivity.
  - replace (- len l <=? i) with true by lia. eexists. split; [reflexivity|]. split; [apply set_nth_length|]. split; [lia|]. intros -> j Hj. unfold px.
    replace (j <? 0) with false by lia. rewrite set_nth_nth by lia. replace (Z.to_nat j =? Z.to_nat (-1 + len l))%nat with false by lia. reflexivity.
Qed.
Lemma fill_ok n : forall l a v, 0 <= a -> a + Z.of_nat n <= len l -> exists l', fill_from n l a v = Some l' /\ length l' = length l /\
  forall j, px l' j = if (a <=? j) && (j <? a + Z.of_nat n) then v else px l j.
Proof.
  induction n as [|n IH]; intros l a v Ha Hn.
  - exists l. splits; [reflexivity|reflexivity|]. intros j. replace ((a <=? j) && (j <? a + Z.of_nat 0)) with false by lia. reflexivity.
  - destruct (put_pix_ok l a v ltac:(lia)) as (l1 & E1 & L1 & P1 & _). cbn [fill_from]. rewrite E1.
    destruct (IH l1 (a + 1) v ltac:(lia) ltac:(lia)) as (l2 & E2 & L2 & P2). exists l2. splits; [exact E2|congruence|]. intros j. rewrite P2, (P1 Ha).
    destruct (j =? a) eqn:F.
    + replace ((a <=? j) && (j <? a + Z.of_nat (S n))) with true by lia. destruct (_ && _); reflexivity.
    + replace ((a <=? j) && (j <? a + Z.of_nat (S n))) with ((a + 1 <=? j) && (j <? a + 1 + Z.of_nat n)) by lia. reflexivity.
Qed.
Lemma fill_range_ok l a b v : 0 <= a -> b <= len l -> exists l', fill_range l a b v = Some l' /\ length l' = length l /\
  forall j, px l' j = if (a <=? j) && (j <? b) then v else px l j.
Proof.
  intros Ha Hb. unfold fill_range. destruct (Z.le_gt_cases b a) as [H|H].
  - replace (Z.to_nat (b - a)) with 0%nat by lia. exists l. splits; [reflexivity..|]. intros j. replace ((a <=? j) && (j <? b)) with false by lia. reflexivity.
  - destruct (fill_ok (Z.to_nat (b - a)) l a v Ha ltac:(lia)) as (l' & E & L & P). exists l'. splits; [exact E|exact L|]. intros j. rewrite P.
    replace (a + Z.of_nat (Z.to_nat (b - a))) with b by lia. reflexivity.
Qed.
(* from -1: the write before the line falls on the last pixel *)
Lemma fill_range_m1 l b v : 1 <= len l -> 0 <= b <= len l -> exists l', fill_range l (-1) b v = Some l' /\ length l' = length l /\
  forall j, 0 <= j < b -> px l' j = v.
Proof.
  intros Hl Hb. unfold fill_range. replace (Z.to_nat (b - -1)) with (S (Z.to_nat b)) by lia. cbn [fill_from].
  destruct (put_pix_ok l (-1) v ltac:(lia)) as (l1 & E1 & L1 & _ & _). rewrite E1. change (-1 + 1) with 0.
  destruct (fill_ok (Z.to_nat b) l1 0 v ltac:(lia) ltac:(lia)) as (l2 & E2 & L2 & P2). exists l2. splits; [exact E2|congruence|].
  intros j Hj. rewrite P2. replace ((0 <=? j) && (j <? 0 + Z.of_nat (Z.to_nat b))) with true by lia. reflexivity.
Qed.
Lemma run_ok n : forall l x v, 0 <= x <= len l -> exists l', run_from n l x v = Some (l', Z.min (len l) (x + Z.of_nat n)) /\ length l' = length l /\
  forall j, px l' j = if (x <=? j) && (j <? Z.min (len l) (x + Z.of_nat n)) then v else px l j.
Proof.
  induction n as [|n IH]; intros l x v Hx.
  - exists l. cbn [run_from]. splits; [f_equal; f_equal; lia|reflexivity|]. intros j. replace ((x <=? j) && (j <? Z.min (len l) (x + Z.of_nat 0))) with false by lia. reflexivity.
  - cbn [run_from]. destruct (len l <=? x) eqn:E.
    + exists l. splits; [f_equal; f_equal; lia|reflexivity|]. intros j. replace ((x <=? j) && (j <? Z.min (len l) (x + Z.of_nat (S n)))) with false by lia. reflexivity.
    + destruct (put_pix_ok l x v ltac:(lia)) as (l1 & E1 & L1 & P1 & _). rewrite E1. destruct (IH l1 (x + 1) v ltac:(lia)) as (l2 & E2 & L2 & P2). exists l2.
      rewrite L1 in *. splits; [rewrite E2; f_equal; f_equal; lia|congruence|]. intros j. rewrite P2, (P1 ltac:(lia)).
      replace (x + 1 + Z.of_nat n) with (x + Z.of_nat (S n)) by lia. destruct (j =? x) eqn:F.
      * replace ((x <=? j) && (j <? Z.min (len l) (x + Z.of_nat (S n)))) with true by lia. destruct (_ && _); reflexivity.
      * replace (x + 1 <=? j) with (x <=? j) by lia. reflexivity.
Qed.

(* ---------- changing elements ---------- *)
Definition From (P : Z -> Prop) (x w y : Z) : Prop := x <= y <= w /\ (y = w \/ P y) /\ forall i, x <= i < y -> ~ P i.
Lemma From_step (P : Z -> Prop) x w y : ~ P x -> From P (x + 1) w y -> From P x w y.
Proof.
  intros HN (H1 & H2 & H3). split; [lia|split; [exact H2|]]. intros i Hi. destruct (Z.eq_dec i x) as [->|Ne]; [exact HN|]. apply H3. lia.
Qed.
Definition toB1 (r : list bool) (c : bool) (i : Z) : Prop := px r (i - 1) = c /\ px r i <> c.
Definition toB2 (r : list bool) (c : bool) (i : Z) : Prop := px r (i - 1) <> c /\ px r i = c.
Lemma find_b1_ok fuel : forall r c x, 1 <= len r -> 0 <= x <= len r -> len r - x < Z.of_nat fuel -> exists y, find_b1 fuel r c x = Some y /\ From (toB1 r c) x (len r) y.
Proof.
  induction fuel as [|k IH]; intros r c x Hr Hx Hf; [lia|]. cbn [find_b1].
  destruct (Z.eqb_spec x 0) as [->|Nx].
  - rewrite (pix_px r 0) by lia.
    assert (Next : ~ toB1 r c 0 -> exists y, find_b1 k r c (0 + 1) = Some y /\ From (toB1 r c) 0 (len r) y).
    { intros HN. destruct (IH r c (0 + 1) Hr ltac:(lia) ltac:(lia)) as (y & E & F). exists y. split; [exact E|]. apply From_step; assumption. }
    destruct c.
    + destruct (px r 0) eqn:E; cbn [Bool.eqb negb].
      * apply Next. intros [_ H]. congruence.
      * exists 0. split; [reflexivity|]. split; [lia|split; [right; split; [reflexivity|congruence]|lia]].
    + apply Next. intros [H _]. discriminate H.
  - destruct (Z.eqb_spec x (len r)) as [->|Nl].
    + exists (len r). split; [reflexivity|]. split; [lia|split; [left; reflexivity|lia]].
    + rewrite (pix_px r (x - 1)), (pix_px r x) by lia.
      assert (Next : ~ toB1 r c x -> exists y, find_b1 k r c (x + 1) = Some y /\ From (toB1 r c) x (len r) y).
      { intros HN. destruct (IH r c (x + 1) Hr ltac:(lia) ltac:(lia)) as (y & E & F). exists y. split; [exact E|]. apply From_step; assumption. }
      destruct (Bool.eqb (px r (x - 1)) c) eqn:E1; [apply Bool.eqb_prop in E1|apply Bool.eqb_false_iff in E1; apply Next; intros [H _]; congruence].
      destruct (Bool.eqb (px r x) c) eqn:E2; cbn [negb]; [apply Bool.eqb_prop in E2; apply Next; intros [_ H]; congruence|apply Bool.eqb_false_iff in E2].
      exists x. split; [reflexivity|]. split; [lia|split; [right; split; assumption|lia]].
Qed.
Lemma find_b2_ok fuel : forall r c x, 1 <= len r -> 0 <= x <= len r -> len r - x < Z.of_nat fuel -> exists y, find_b2 fuel r c x = Some y /\ From (toB2 r c) x (len r) y.
Proof.
  induction fuel as [|k IH]; intros r c x Hr Hx Hf; [lia|]. cbn [find_b2].
  destruct (Z.eqb_spec x 0) as [->|Nx].
  - rewrite (pix_px r 0) by lia.
    assert (Next : ~ toB2 r c 0 -> exists y, find_b2 k r c (0 + 1) = Some y /\ From (toB2 r c) 0 (len r) y).
    { intros HN. destruct (IH r c (0 + 1) Hr ltac:(lia) ltac:(lia)) as (y & E & F). exists y. split; [exact E|]. apply From_step; assumption. }
    destruct c; cbn [negb].
    + apply Next. intros [H _]. apply H. reflexivity.
    + destruct (px r 0) eqn:E; cbn [Bool.eqb].
      * apply Next. intros [_ H]. congruence.
      * exists 0. split; [reflexivity|]. split; [lia|split; [right; split; [discriminate|congruence]|lia]].
  - destruct (Z.eqb_spec x (len r)) as [->|Nl].
    + exists (len r). split; [reflexivity|]. split; [lia|split; [left; reflexivity|lia]].
    + rewrite (pix_px r (x - 1)), (pix_px r x) by lia.
      assert (Next : ~ toB2 r c x -> exists y, find_b2 k r c (x + 1) = Some y /\ From (toB2 r c) x (len r) y).
      { intros HN. destruct (IH r c (x + 1) Hr ltac:(lia) ltac:(lia)) as (y & E & F). exists y. split; [exact E|]. apply From_step; assumption. }
      destruct (Bool.eqb (px r (x - 1)) c) eqn:E1; cbn [negb]; [apply Bool.eqb_prop in E1; apply Next; intros [H _]; congruence|apply Bool.eqb_false_iff in E1].
      destruct (Bool.eqb (px r x) c) eqn:E2; [apply Bool.eqb_prop in E2|apply Bool.eqb_false_iff in E2; apply Next; intros [_ H]; congruence].
      exists x. split; [reflexivity|]. split; [lia|split; [right; split; assumption|lia]].
Qed.
Lemma From_unique P x w y z : From P x w y -> From P x w z -> y = z.
Proof.
  intros (H1 & H2 & H3) (G1 & G2 & G3). destruct (Z.lt_trichotomy y z) as [L|[E|L]]; [|exact E|]; exfalso.
  - destruct H2 as [->|H2]; [lia|]. apply (G3 y); [lia|exact H2].
  - destruct G2 as [->|G2]; [lia|]. apply (H3 z); [lia|exact G2].
Qed.
Lemma bool_third (a b c : bool) : a <> b -> b <> c -> a = c.
Proof. destruct a, b, c; congruence. Qed.
Lemma const row x y : -1 <= x -> y <= len row -> (forall i, x < i < y -> ~ Changing row i) -> forall i, x <= i < y -> px row i = px row x.
Proof.
  intros Hx Hy HN. intros i Hi. replace i with (x + Z.of_nat (Z.to_nat (i - x))) in * by lia. generalize (Z.to_nat (i - x)) Hi. clear i Hi.
  induction n as [|n IH]; intros Hi; [f_equal; lia|]. rewrite <- IH by lia.
  destruct (Bool.bool_dec (px row (x + Z.of_nat (S n))) (px row (x + Z.of_nat n))) as [E|E]; [exact E|].
  exfalso. apply (HN (x + Z.of_nat (S n))); [lia|]. split; [lia|]. replace (x + Z.of_nat (S n) - 1) with (x + Z.of_nat n) by lia. exact E.
Qed.
Lemma B1_from w ref cur a0 b1 : len ref = w -> -1 <= a0 < w -> B1 w ref cur a0 b1 -> From (toB1 ref (px cur a0)) (a0 + 1) w b1.
Proof.
  intros Hr Ha (H1 & H2 & H3). split; [lia|split].
  - destruct H2 as [(L & (_ & C) & D)|E]; [right|left; exact E]. split; [|exact D]. symmetry. apply (bool_third _ (px ref b1)); congruence.
  - intros i Hi [T1 T2]. apply (H3 i); [lia|]. split; [split; [lia|congruence]|exact T2].
Qed.
Lemma B2_from w ref c b1 b2 : len ref = w -> 0 <= b1 <= w -> (b1 = w \/ px ref b1 <> c) -> B2 w ref b1 b2 -> From (toB2 ref c) b1 w b2.
Proof.
  intros Hr Hb HC (H1 & H2 & H3). destruct HC as [HC|HC]; [subst b1; destruct H2 as [(L & _)|E]; [lia|]; split; [lia|split; [left; exact E|lia]]|].
  assert (K : forall i, b1 <= i < b2 -> px ref i <> c).
  { intros i Hi. rewrite (const ref b1 b2 ltac:(lia) ltac:(lia) H3 i Hi). exact HC. }
  split; [lia|split].
  - destruct H2 as [(L & C1 & C)|E]; [right|left; exact E]. split; [apply K; lia|]. apply (bool_third _ (px ref (b2 - 1))); [exact C|]. apply K. lia.
  - intros i Hi [_ T2]. exact (K i Hi T2).
Qed.

Lemma px_ext a b : length a = length b -> (forall j, 0 <= j < len a -> px a j = px b j) -> a = b.
Proof.
  intros Hl H. apply (nth_ext _ _ true true Hl). intros n Hn. specialize (H (Z.of_nat n) ltac:(lia)). unfold px in H.
  replace (Z.of_nat n <? 0) with false in H by lia. rewrite Nat2Z.id in H. exact H.
Qed.

Section decode.
  Context (w : Z) (al rv : bool) (Hw : 1 <= w).
  (* at position a of a line whose reference line is ref and which will be cur *)
  Definition Mid (ref cur : list bool) (out : list Z) (a : Z) (p : parser) : Prop :=
    width p = w /\ align p = al /\ rev_out p = rv /\ refl p = ref /\ len (curl p) = w /\ curpos p = a /\ buf p = out /\
    (forall j, 0 <= j < a -> px (curl p) j = px cur j) /\ (a < w -> color p = px cur a).
  Definition Fresh (ref : list bool) (out : list Z) (p : parser) : Prop :=
    width p = w /\ align p = al /\ rev_out p = rv /\ refl p = ref /\ len (curl p) = w /\ curpos p = -1 /\ buf p = out /\ color p = true.
  Lemma fresh_mid ref cur out p : Fresh ref out p -> Mid ref cur out (-1) p.
  Proof. intros (H1 & H2 & H3 & H4 & H5 & H6 & H7 & H8). unfold Mid. splits; try assumption; [lia|]. intros _. exact H8. Qed.
  Definition Concl (cur : list bool) (out : list Z) (o : outcome * list bool) (rest : list bool) : Prop :=
    exists q, Fresh cur (out ++ output_line rv cur) q /\ o = if al then (Skip q, rest) else parse_rem (set_ph q (P_mode MODE)) rest.
  Lemma flush_ok ref cur out p rest r : len ref = w -> len cur = w -> forall x, Mid ref cur out x p -> 0 <= x <= w -> Line w ref cur x r ->
    (x < w -> forall p, Mid ref cur out x p -> ph p = P_mode MODE -> Concl cur out (parse_rem p (r ++ rest)) rest) ->
    Concl cur out (thenr (andthen (flush_line p) (fun q => Go (set_ph q (P_mode MODE)))) (r ++ rest)) rest.
  Proof.
    intros Hr Hc x HM Hx HL HI. pose proof HM as (H1 & H2 & H3 & H4 & H5 & H6 & H7 & H8 & H9). unfold flush_line. rewrite H1, H6.
    destruct (w <=? x) eqn:E.
    - assert (x = w) by lia. subst x. assert (r = []) by (inversion HL; try reflexivity; lia). subst r.
      assert (curl p = cur) as HC by (apply px_ext; [lia|]; intros j Hj; apply H8; lia). rewrite HC, H3.
      eexists (mkP w al cur (repeat true (Z.to_nat w)) (-1) true (n1 p) (n2 p) (ph p) rv (out ++ output_line rv cur)). split.
      + unfold Fresh. cbn. splits; try reflexivity. rewrite repeat_length. lia.
      + rewrite H2, H7. destruct al; reflexivity.
    - cbn [andthen thenr]. apply HI; [lia| |reflexivity]. unfold Mid. cbn. splits; assumption.
  Qed.
  (* the next changing element on the line being coded *)
  Lemma a1_facts cur a0 a1 : len cur = w -> -1 <= a0 < w -> A1 w cur a0 a1 ->
    a0 < a1 <= w /\ (forall j, a0 <= j < a1 -> px cur j = px cur a0) /\ (a1 < w -> px cur a1 = negb (px cur a0)).
  Proof.
    intros Hc Ha (H1 & H2 & H3). assert (L : a0 < a1 <= w) by lia.
    assert (K : forall j, a0 <= j < a1 -> px cur j = px cur a0) by (apply const; try lia; exact H3). splits; try lia; try exact K.
    intros Hlt. destruct H2 as [(_ & _ & C)|E]; [|lia]. rewrite (K (a1 - 1)) in C by lia. destruct (px cur a1), (px cur a0); try reflexivity; congruence.
  Qed.
  Lemma vertical_ok ref cur out a0 b1 a1 p : len ref = w -> len cur = w -> -1 <= a0 < w -> Mid ref cur out a0 p -> B1 w ref cur a0 b1 -> A1 w cur a0 a1 ->
    exists q, do_vertical p (a1 - b1) = Go q /\ Mid ref cur out a1 q /\ 0 <= a1 <= w.
  Proof.
    intros Hr Hc Ha (H1 & H2 & H3 & H4 & H5 & H6 & H7 & H8 & H9) HB HA. destruct (a1_facts _ _ _ Hc Ha HA) as (L & K & N).
    unfold do_vertical. rewrite H4, H6, H9, H1 by lia.
    destruct (find_b1_ok (fuel_of p) ref (px cur a0) (a0 + 1) ltac:(lia) ltac:(lia) ltac:(unfold fuel_of; rewrite H4; lia)) as (y & -> & HF).
    rewrite Hr in HF. pose proof (From_unique _ _ _ _ _ HF (B1_from _ _ _ _ _ Hr Ha HB)) as ->.
    replace (Z.max 0 (Z.min w (b1 + (a1 - b1)))) with a1 by lia. replace (a1 <? Z.max 0 a0) with false by lia.
    destruct (fill_range_ok (curl p) (Z.max 0 a0) a1 (px cur a0) ltac:(lia) ltac:(lia)) as (l & -> & Ll & Pl).
    eexists. split; [reflexivity|]. split; [|lia]. unfold Mid. cbn. splits; try assumption; try lia.
    - intros j Hj. rewrite Pl. destruct ((Z.max 0 a0 <=? j) && (j <? a1)) eqn:E; [symmetry; apply K; lia|]. apply H8. lia.
  Qed.
  Lemma pass_ok ref cur out a0 b1 b2 a1 p : len ref = w -> len cur = w -> -1 <= a0 < w -> Mid ref cur out a0 p -> B1 w ref cur a0 b1 -> B2 w ref b1 b2 ->
    A1 w cur a0 a1 -> b2 < a1 -> exists q, do_pass p = Go q /\ Mid ref cur out b2 q /\ 0 <= b2 < w /\ a0 < b2.
  Proof.
    intros Hr Hc Ha (H1 & H2 & H3 & H4 & H5 & H6 & H7 & H8 & H9) HB HB2 HA Hlt. destruct (a1_facts _ _ _ Hc Ha HA) as (L & K & N).
    unfold do_pass. rewrite H4, H6, H9 by lia.
    destruct (find_b1_ok (fuel_of p) ref (px cur a0) (a0 + 1) ltac:(lia) ltac:(lia) ltac:(unfold fuel_of; rewrite H4; lia)) as (y & -> & HF).
    rewrite Hr in HF. pose proof (B1_from _ _ _ _ _ Hr Ha HB) as HB'. pose proof (From_unique _ _ _ _ _ HF HB') as ->.
    destruct HB' as (Lb & Cb & _).
    destruct (find_b2_ok (fuel_of p) ref (px cur a0) b1 ltac:(lia) ltac:(lia) ltac:(unfold fuel_of; rewrite H4; lia)) as (z & -> & HF2). rewrite Hr in HF2.
    assert (HB2' : From (toB2 ref (px cur a0)) b1 w b2) by (apply B2_from; try assumption; try lia; destruct Cb as [Cb|[_ Cb]]; [left; exact Cb|right; exact Cb]).
    pose proof (From_unique _ _ _ _ _ HF2 HB2') as ->. destruct HB2' as (Lz & _ & _).
    assert (Fill : exists l, fill_range (curl p) a0 b2 (px cur a0) = Some l /\ length l = length (curl p) /\ forall j, 0 <= j < b2 -> px l j = px cur j).
    { destruct (Z.eq_dec a0 (-1)) as [->|Na].
      - destruct (fill_range_m1 (curl p) b2 (px cur (-1)) ltac:(lia) ltac:(lia)) as (l & E & Ll & Pl). exists l. splits; [exact E|exact Ll|].
        intros j Hj. rewrite Pl by lia. symmetry. apply K. lia.
      - destruct (fill_range_ok (curl p) a0 b2 (px cur a0) ltac:(lia) ltac:(lia)) as (l & E & Ll & Pl). exists l. splits; [exact E|exact Ll|].
        intros j Hj. rewrite Pl. destruct ((a0 <=? j) && (j <? b2)) eqn:E2; [symmetry; apply K; lia|]. apply H8. lia. }
    destruct Fill as (l & -> & Ll & Pl). eexists. split; [reflexivity|]. split; [|lia]. unfold Mid. cbn. splits; try assumption; try lia.
    intros Hz. rewrite H9 by lia. symmetry. apply K. lia.
  Qed.
  Lemma horizontal_ok ref cur out a0 a1 a2 p : len cur = w -> -1 <= a0 < w -> Mid ref cur out a0 p -> A1 w cur a0 a1 -> A2 w cur a1 a2 ->
    exists q, do_horizontal p (a1 - Z.max 0 a0) (a2 - a1) = Go q /\ Mid ref cur out a2 q /\ 0 <= a2 <= w /\ a1 <= a2.
  Proof.
    intros Hc Ha (H1 & H2 & H3 & H4 & H5 & H6 & H7 & H8 & H9) HA HA2. destruct (a1_facts _ _ _ Hc Ha HA) as (L & K & N).
    assert (F2 : a1 <= a2 <= w /\ (forall j, a1 <= j < a2 -> px cur j = negb (px cur a0)) /\ (a2 < w -> px cur a2 = px cur a0)).
    { destruct (Z.eq_dec a1 w) as [E|E].
      - destruct HA2 as (G1 & [(G & _)|G] & _); [lia|]. splits; try lia.
      - destruct (a1_facts cur a1 a2 Hc ltac:(lia) HA2) as (L2 & K2 & N2). assert (N0 : px cur a1 = negb (px cur a0)) by (apply N; lia). rewrite N0 in K2, N2. splits; try lia; try exact K2.
      }
    destruct F2 as (L2 & K2 & N2). unfold do_horizontal. rewrite H6, H9 by lia.
    replace (if a0 <? 0 then 0 else a0) with (Z.max 0 a0) by (destruct (a0 <? 0) eqn:?; lia).
    destruct (run_ok (Z.to_nat (a1 - Z.max 0 a0)) (curl p) (Z.max 0 a0) (px cur a0) ltac:(lia)) as (l & -> & Ll & Pl).
    replace (Z.min (len (curl p)) (Z.max 0 a0 + Z.of_nat (Z.to_nat (a1 - Z.max 0 a0)))) with a1 in * by lia.
    destruct (run_ok (Z.to_nat (a2 - a1)) l a1 (negb (px cur a0)) ltac:(lia)) as (l' & -> & Ll' & Pl').
    rewrite Ll in *. replace (Z.min (len (curl p)) (a1 + Z.of_nat (Z.to_nat (a2 - a1)))) with a2 in * by lia.
    eexists. split; [reflexivity|]. split; [|lia]. unfold Mid. cbn. splits; try assumption; try lia.
    - intros j Hj. rewrite Pl', Pl. destruct ((a1 <=? j) && (j <? a2)) eqn:E1; [symmetry; apply K2; lia|].
      destruct ((Z.max 0 a0 <=? j) && (j <? a1)) eqn:E2; [symmetry; apply K; lia|]. apply H8. lia.
  Qed.
  (* run lengths *)
  Lemma run_walk c n s : In (n, s) (if c : bool then T4_white else T4_black) -> walk (run_table c) (code s) = Some n.
  Proof. destruct c; [apply white_walk|apply black_walk]. Qed.
  Definition same_line (p q : parser) : Prop :=
    width q = width p /\ align q = align p /\ rev_out q = rev_out p /\ refl q = refl p /\ curl q = curl p /\ curpos q = curpos p /\ buf q = buf p.
  Lemma run1_ok c n bits : Run (if c : bool then T4_white else T4_black) n bits -> forall p rest, color p = c -> ph p = P_horiz1 (run_table c) ->
    exists q, parse_rem p (bits ++ rest) = parse_rem q rest /\ same_line p q /\ color q = negb c /\ ph q = P_horiz2 (run_table (negb c)) /\ n1 q = n1 p + n /\ n2 q = 0.
  Proof.
    intros H. induction H as [n s HI Hn|m s n r HI Hm HR IH]; intros p rest Hcol Hph.
    - destruct (read_horiz1 _ p _ _ rest Hph (run_walk c n s HI)) as (q & E & u & ->). rewrite E. unfold parse_horiz1. replace (n <? 64) with true by lia.
      cbn [andthen thenr]. eexists. split; [reflexivity|]. unfold same_line. cbn. rewrite Hcol. splits; reflexivity.
    - rewrite <- app_assoc. destruct (read_horiz1 _ p _ _ (r ++ rest) Hph (run_walk c m s HI)) as (q & E & u & ->). rewrite E. unfold parse_horiz1.
      replace (m <? 64) with false by lia. cbn [andthen thenr].
      match goal with |- context [parse_rem ?x (r ++ rest)] => destruct (IH x rest) as (q & E2 & SL & C2 & P2 & N1 & N2); [exact Hcol|cbn; rewrite Hcol; reflexivity|] end.
      exists q. split; [exact E2|]. unfold same_line in *. cbn in *. intuition (try congruence). lia.
  Qed.
  Lemma run2_ok c n bits : Run (if c : bool then T4_white else T4_black) n bits -> forall p rest, color p = c -> ph p = P_horiz2 (run_table c) ->
    exists q, parse_rem p (bits ++ rest) = thenr (andthen (andthen (do_horizontal q (n1 q) (n2 q)) flush_line) (fun q => Go (set_ph q (P_mode MODE)))) rest /\
      same_line p q /\ color q = negb c /\ n1 q = n1 p /\ n2 q = n2 p + n.
  Proof.
    intros H. induction H as [n s HI Hn|m s n r HI Hm HR IH]; intros p rest Hcol Hph.
    - destruct (read_horiz2 _ p _ _ rest Hph (run_walk c n s HI)) as (q & E & u & ->). rewrite E. unfold parse_horiz2. replace (n <? 64) with true by lia.
      eexists. split; [reflexivity|]. unfold same_line. cbn. rewrite Hcol. splits; reflexivity.
    - rewrite <- app_assoc. destruct (read_horiz2 _ p _ _ (r ++ rest) Hph (run_walk c m s HI)) as (q & E & u & ->). rewrite E. unfold parse_horiz2.
      replace (m <? 64) with false by lia. cbn [andthen thenr].
      match goal with |- context [parse_rem ?x (r ++ rest)] => destruct (IH x rest) as (q & E2 & SL & C2 & N1 & N2); [exact Hcol|cbn; rewrite Hcol; reflexivity|] end.
      exists q. split; [exact E2|]. unfold same_line in *. cbn in *. intuition (try congruence). lia.
  Qed.
  Lemma same_mid ref cur out a p q : same_line p q -> color q = color p -> Mid ref cur out a p -> Mid ref cur out a q.
  Proof.
    intros (S1 & S2 & S3 & S4 & S5 & S6 & S7) SC (H1 & H2 & H3 & H4 & H5 & H6 & H7 & H8 & H9). unfold Mid. rewrite S1, S2, S3, S4, S5, S6, S7, SC. splits; assumption.
  Qed.

  Lemma line_ok ref cur a0 bits : len ref = w -> len cur = w -> Line w ref cur a0 bits -> -1 <= a0 < w ->
    forall out p rest, Mid ref cur out a0 p -> ph p = P_mode MODE -> Concl cur out (parse_rem p (bits ++ rest)) rest.
  Proof.
    intros Hr Hc HL. induction HL as [|a0 b1 b2 a1 r Ha HB1 HB2 HA1 Hlt HL IH|a0 b1 a1 c r Ha HB1 HA1 HI HL IH|a0 a1 a2 c1 c2 r Ha HA1 HA2 HR1 HR2 HL IH];
      intros Ha0 out p rest HM Hph; [lia| | |].
    - rewrite <- app_assoc. destruct (read_mode _ _ _ _ (r ++ rest) Hph pass_walk) as (q & -> & u & ->). cbn [parse_mode].
      destruct (pass_ok ref cur out a0 b1 b2 a1 (set_ph p (P_mode u)) Hr Hc Ha0 HM HB1 HB2 HA1 Hlt) as (q & -> & HQ & Lq & _). cbn [andthen thenr].
      apply (flush_ok ref cur out q rest r Hr Hc b2 HQ ltac:(lia) HL). intros X p' HM' Hp'. apply IH; [lia|exact HM'|exact Hp'].
    - rewrite <- app_assoc. destruct (read_mode _ _ _ _ (r ++ rest) Hph (vert_walk _ _ HI)) as (q & -> & u & ->). cbn [parse_mode].
      destruct (vertical_ok ref cur out a0 b1 a1 (set_ph p (P_mode u)) Hr Hc Ha0 HM HB1 HA1) as (q & -> & HQ & Lq). cbn [andthen thenr].
      apply (flush_ok ref cur out q rest r Hr Hc a1 HQ ltac:(lia) HL). intros X p' HM' Hp'. apply IH; [lia|exact HM'|exact Hp'].
    - rewrite <- !app_assoc. destruct (read_mode _ _ _ _ (c1 ++ c2 ++ r ++ rest) Hph horiz_walk) as (q & -> & u & ->). cbn [parse_mode andthen thenr].
      assert (HCol : color p = px cur a0) by (destruct HM as (_ & _ & _ & _ & _ & _ & _ & _ & H9); apply H9; lia).
      match goal with |- context [parse_rem ?x (c1 ++ _)] => destruct (run1_ok _ _ _ HR1 x (c2 ++ r ++ rest)) as (q1 & -> & S1 & C1 & P1 & N1 & N2); [exact HCol|cbn; rewrite HCol; reflexivity|] end.
      assert (HR2' : Run (if negb (px cur a0) then T4_white else T4_black) (a2 - a1) c2) by (destruct (px cur a0); exact HR2).
      destruct (run2_ok _ _ _ HR2' q1 (r ++ rest) C1 P1) as (q2 & -> & S2 & C2 & N3 & N4).
      assert (HM2 : Mid ref cur out a0 q2).
      { apply (same_mid ref cur out a0 p); [| |exact HM]; [unfold same_line in *; cbn in *; intuition congruence|]. rewrite C2, negb_involutive. congruence. }
      rewrite N3, N4, N1, N2. cbn [n1 set_ph set_n]. rewrite !Z.add_0_l.
      destruct (horizontal_ok ref cur out a0 a1 a2 q2 Hc Ha0 HM2 HA1 HA2) as (q & -> & HQ & Lq & _). cbn [andthen thenr].
      apply (flush_ok ref cur out q rest r Hr Hc a2 HQ ltac:(lia) HL). intros X p' HM' Hp'. apply IH; [lia|exact HM'|exact Hp'].
  Qed.
End decode.
