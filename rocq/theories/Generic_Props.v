(* C74: the list helpers uniq, csort, pick and choplist of utils/generic.py. *)
From Verif Require Import Base Num Geom_Model.
From Coq Require Import Sorting.Permutation Sorting.Sorted Lia ZArith List.
Import ListNotations.
Open Scope Z_scope.

(* ---------- specification ---------- *)
(* Firsts l out: out holds the objects of l, each at its first occurrence, in order *)
Inductive Firsts {A} : list A -> list A -> Prop :=
| fi_nil : Firsts [] []
| fi_new l out x : Firsts l out -> ~ In x l -> Firsts (l ++ [x]) (out ++ [x])
| fi_again l out x : Firsts l out -> In x l -> Firsts (l ++ [x]) out.
(* Best score l o: o is the first object of l with the highest score *)
Definition Best {A} (score : A -> Z) (l : list A) (o : A) : Prop :=
  exists a b, l = a ++ o :: b /\ Forall (fun x => score x < score o) a /\ Forall (fun x => score x <= score o) b.
(* Groups n l out: out cuts l into consecutive groups of n; what remains at the end, fewer than n, is left out *)
Definition Groups {A} (n : nat) (l : list A) (out : list (list A)) : Prop :=
  exists rest, concat out ++ rest = l /\ Forall (fun g => length g = n) out /\ (length rest < n)%nat.
(* Stably key l out: out is l sorted by key, objects with equal keys in the order of l *)
Definition Stably {A} (key : A -> Z) (l out : list A) : Prop :=
  Permutation l out /\ StronglySorted (fun x y => key x <= key y) out /\ forall k, filter (fun x => key x =? k) out = filter (fun x => key x =? k) l.

(* ---------- uniq ---------- *)
Section uniq.
Context {A : Type} (eqb : A -> A -> bool) (eqb_eq : forall a b, eqb a b = true <-> a = b).
Lemma uniq_from_snoc l x : forall done, uniq_from eqb done (l ++ [x]) =
  uniq_from eqb done l ++ (if existsb (eqb x) (done ++ l) then [] else [x]).
Proof.
  induction l as [|o l IH]; intros done; cbn [app uniq_from].
  - rewrite app_nil_r. destruct (existsb (eqb x) done); reflexivity.
  - destruct (existsb (eqb o) done) eqn:E; rewrite IH.
    + f_equal. rewrite !existsb_app. cbn [existsb]. destruct (eqb x o) eqn:Ex; [|reflexivity]. apply eqb_eq in Ex as ->. rewrite E. reflexivity.
    + cbn [app]. do 2 f_equal. cbn [existsb]. rewrite !existsb_app. cbn [existsb]. destruct (existsb (eqb x) done), (eqb x o); reflexivity.
Qed.
Theorem C74_uniq l : Firsts l (uniq eqb l).
Proof.
  unfold uniq. induction l as [|x l IH] using rev_ind; [constructor|]. rewrite uniq_from_snoc. cbn [app].
  destruct (existsb (eqb x) l) eqn:E.
  - rewrite app_nil_r. apply fi_again; [exact IH|]. apply existsb_exists in E as (y & Hy & E). apply eqb_eq in E as ->. exact Hy.
  - apply fi_new; [exact IH|]. intros Hx. assert (existsb (eqb x) l = true) by (apply existsb_exists; exists x; split; [exact Hx|apply eqb_eq; reflexivity]). congruence.
Qed.
End uniq.
(* what Firsts gives: the same objects, no duplicates *)
Theorem C74_uniq_set {A} (l out : list A) : Firsts l out -> NoDup out /\ forall x, In x out <-> In x l.
Proof.
  induction 1 as [|l out x H [I1 I2] Hx|l out x H [I1 I2] Hx].
  - split; [constructor|tauto].
  - split.
    + apply NoDup_Add with (a := x) (l := out); [rewrite <- (app_nil_r out) at 1; apply Add_app|]. split; [exact I1|]. rewrite I2. exact Hx.
    + intros y. rewrite !in_app_iff, I2. tauto.
  - split; [exact I1|]. intros y. rewrite in_app_iff, I2. cbn. split; [tauto|]. intros [Hy|[->|[]]]; assumption.
Qed.
(* ---------- pick ---------- *)
Definition pick_step {A} (score : A -> Z) (acc : option Z * option A) (o : A) : option Z * option A :=
  match fst acc with None => (Some (score o), Some o) | Some m => if m <? score o then (Some (score o), Some o) else acc end.
Lemma pick_fold {A} (score : A -> Z) l : l <> [] -> forall d, exists o, fold_left (pick_step score) l (None, d) = (Some (score o), Some o) /\ Best score l o.
Proof.
  induction l as [|x l IH] using rev_ind; intros Hl d; [congruence|]. rewrite fold_left_app. destruct l as [|y l].
  - exists x. split; [reflexivity|]. exists [], []. repeat split; constructor.
  - destruct (IH ltac:(discriminate) d) as (o & E & a & b & Hs & Ha & Hb). rewrite E. cbn [fold_left pick_step fst]. destruct (Z.ltb_spec (score o) (score x)).
    + exists x. split; [reflexivity|]. exists (y :: l), []. repeat split; [|constructor]. rewrite Hs. apply Forall_app. split; [eapply Forall_impl; [|exact Ha]; cbn; intros; lia|].
      constructor; [assumption|]. eapply Forall_impl; [|exact Hb]. cbn. intros. lia.
    + exists o. split; [reflexivity|]. exists a, (b ++ [x]). rewrite Hs, <- app_assoc. repeat split; [exact Ha|]. apply Forall_app. split; [exact Hb|]. repeat constructor. lia.
Qed.
Theorem C74_pick {A} (score : A -> Z) l d : l <> [] -> exists o, pick score l d = Some o /\ Best score l o.
Proof. intros H. destruct (pick_fold score l H d) as (o & E & B). exists o. split; [|exact B]. unfold pick. fold (pick_step score). rewrite E. reflexivity. Qed.
Theorem C74_pick_empty {A} (score : A -> Z) d : pick score [] d = d.
Proof. reflexivity. Qed.
(* ---------- choplist ---------- *)
Lemma chop_groups {A} n (l : list A) : forall r, (length r < n)%nat -> Groups n (r ++ l) (chop n r l).
Proof.
  induction l as [|x l IH]; intros r Hr; cbn [chop].
  - exists r. cbn. rewrite app_nil_r. repeat split; [constructor|exact Hr].
  - destruct (Nat.eqb_spec (length (r ++ [x])) n) as [E|E].
    + destruct (IH []) as (rest & H1 & H2 & H3); [cbn; rewrite app_length in E; cbn in E; lia|]. exists rest. cbn [concat]. rewrite <- app_assoc, H1, <- app_assoc.
      repeat split; [constructor; assumption|exact H3].
    + replace (r ++ x :: l) with ((r ++ [x]) ++ l) by (rewrite <- app_assoc; reflexivity). apply IH. rewrite app_length in *. cbn in *. lia.
Qed.
Theorem C74_choplist {A} n (l : list A) : (0 < n)%nat -> Groups n l (choplist n l).
Proof. intros H. apply (chop_groups n l []). exact H. Qed.
Theorem C74_choplist_zero {A} (l : list A) : choplist 0 l = [].
Proof.
  unfold choplist. generalize (@nil A). induction l as [|x l IH]; intros r; cbn [chop]; [reflexivity|].
  rewrite app_length. cbn. replace (length r + 1)%nat with (S (length r)) by lia. apply IH.
Qed.
(* Groups n l determines the groups *)
Theorem C74_groups_unique {A} n (l : list A) a b : Groups n l a -> Groups n l b -> a = b.
Proof.
  revert l b. induction a as [|g a IH]; intros l b (r & E & F & L) (r' & E' & F' & L').
  - destruct b as [|g b]; [reflexivity|]. exfalso. inversion F' as [|? ? X]; subst. apply (f_equal (@length A)) in E'. cbn in E'. rewrite !app_length in E'. cbn in L. lia.
  - inversion F as [|? ? Fg Fa]; subst. destruct b as [|g' b].
    + exfalso. apply (f_equal (@length A)) in E'. cbn in E'. rewrite !app_length in E'. lia.
    + inversion F' as [|? ? X Y]. cbn [concat] in E'. rewrite <- !app_assoc in E'.
      assert (K : g' = g /\ concat b ++ r' = concat a ++ r).
      { clear -E' X. revert g' X E'. induction g as [|c g IHg]; intros [|c' g'] X E'; cbn in *; try discriminate; [split; [reflexivity|exact E']|].
        injection E' as <- E'. injection X as X. destruct (IHg g' X E') as [-> ->]. split; reflexivity. }
      destruct K as [-> K]. f_equal. apply (IH (concat a ++ r)); [exists r; auto|exists r'; auto].
Qed.
(* ---------- csort ---------- *)
Section csort.
Context {A : Type} (eqb : A -> A -> bool) (key : A -> Z).
(* utils/generic.py:94: the index of an object is that of its last occurrence *)
Fixpoint last_index (i : Z) (l : list A) (o : A) : option Z :=
  match l with
  | [] => None
  | x :: r => match last_index (i + 1) r o with Some j => Some j | None => if eqb x o then Some i else None end
  end.
(* sorted() is a stable sort; the keys are pairs compared from the left.  Modelled as insertion before the first greater one. *)
Definition le2 (a b : Z * Z) : bool := (fst a <? fst b) || ((fst a =? fst b) && (snd a <=? snd b)).
Fixpoint insert (k : A -> Z * Z) (x : A) (l : list A) : list A :=
  match l with [] => [x] | y :: r => if le2 (k x) (k y) then x :: y :: r else y :: insert k x r end.
Definition sorted (k : A -> Z * Z) (l : list A) : list A := fold_right (insert k) [] l.
(* 92-95 *)
Definition csort (l : list A) : list A :=
  sorted (fun o => (key o, match last_index 0 l o with Some i => i | None => 0 end)) l.
Lemma insert_perm k x l : Permutation (x :: l) (insert k x l).
Proof.
  induction l as [|y l IH]; cbn [insert]; [reflexivity|]. destruct (le2 (k x) (k y)); [reflexivity|].
  rewrite perm_swap. constructor. exact IH.
Qed.
Lemma sorted_perm k l : Permutation l (sorted k l).
Proof. induction l as [|x l IH]; cbn; [reflexivity|]. rewrite <- insert_perm. constructor. exact IH. Qed.
Lemma le2_total a b : le2 a b = false -> le2 b a = true.
Proof. unfold le2. destruct a as [a1 a2], b as [b1 b2]. cbn. intros H. apply orb_false_iff in H as [H1 H2]. apply Z.ltb_ge in H1. apply andb_false_iff in H2 as [H2|H2]; lia. Qed.
Lemma le2_trans a b c : le2 a b = true -> le2 b c = true -> le2 a c = true.
Proof. unfold le2. destruct a, b, c; cbn. lia. Qed.
Lemma insert_sorted k x l : StronglySorted (fun a b => le2 (k a) (k b) = true) l -> StronglySorted (fun a b => le2 (k a) (k b) = true) (insert k x l).
Proof.
  induction 1 as [|y l H IH F]; cbn [insert]; [repeat constructor|]. destruct (le2 (k x) (k y)) eqn:E.
  - constructor; [constructor; assumption|]. constructor; [exact E|]. eapply Forall_impl; [|exact F]. cbn. intros a Ha. exact (le2_trans _ _ _ E Ha).
  - constructor; [exact IH|]. apply (Permutation_Forall (insert_perm k x l)). constructor; [apply le2_total; exact E|exact F].
Qed.
Lemma sorted_sorted k l : StronglySorted (fun a b => le2 (k a) (k b) = true) (sorted k l).
Proof. induction l as [|x l IH]; cbn; [constructor|]. apply insert_sorted. exact IH. Qed.
Context (eqb_eq : forall a b, eqb a b = true <-> a = b).
Lemma last_index_bound l o : forall i j, last_index i l o = Some j -> i <= j.
Proof. induction l as [|x l IH]; cbn; intros i j; [discriminate|]. destruct (last_index (i + 1) l o) eqn:E; [intros [= <-]; apply IH in E; lia|]. destruct (eqb x o); [intros [= <-]; lia|discriminate]. Qed.
Lemma last_index_in l o : In o l -> forall i, exists j, last_index i l o = Some j.
Proof.
  induction l as [|x l IH]; intros H i; [destruct H|]. cbn. destruct (last_index (i + 1) l o) eqn:E; [eexists; reflexivity|].
  destruct H as [->|H]; [rewrite (proj2 (eqb_eq o o) eq_refl); eexists; reflexivity|]. destruct (IH H (i + 1)) as (j & Hj). congruence.
Qed.
Lemma last_index_notin l o : ~ In o l -> forall i, last_index i l o = None.
Proof.
  induction l as [|x l IH]; intros H i; cbn; [reflexivity|]. rewrite IH by (intros X; apply H; right; exact X).
  destruct (eqb x o) eqn:E; [apply eqb_eq in E as ->; destruct (H (or_introl eq_refl))|reflexivity].
Qed.
(* in a list without duplicates the index order is the list order *)
Lemma index_sorted l : NoDup l -> forall i, StronglySorted (fun a b => match last_index i l a, last_index i l b with Some x, Some y => x < y | _, _ => False end) l.
Proof.
  induction 1 as [|x l Hx H IH]; intros i; [constructor|]. constructor.
  - specialize (IH (i + 1)). cbn [last_index]. clear -IH Hx eqb_eq. assert (G : forall m, (forall a, In a m -> In a l) -> StronglySorted (fun a b => match last_index (i + 1) l a, last_index (i + 1) l b with Some x, Some y => x < y | _, _ => False end) m ->
      StronglySorted (fun a b => match match last_index (i + 1) l a with Some j => Some j | None => if eqb x a then Some i else None end, match last_index (i + 1) l b with Some j => Some j | None => if eqb x b then Some i else None end with Some x, Some y => x < y | _, _ => False end) m).
    { induction m as [|a m IHm]; intros Hin S; [constructor|]. inversion S as [|? ? S1 S2]; subst. constructor; [apply IHm; [intros; apply Hin; right; assumption|exact S1]|].
      eapply Forall_impl; [|exact S2]. cbn. intros b. destruct (last_index (i + 1) l a); [|tauto]. destruct (last_index (i + 1) l b); tauto. }
    apply G; [auto|exact IH].
  - apply Forall_forall. intros y Hy. cbn [last_index]. rewrite (last_index_notin l x Hx). rewrite (proj2 (eqb_eq x x) eq_refl).
    destruct (last_index_in l y Hy (i + 1)) as (j & Hj). rewrite Hj. apply last_index_bound in Hj. lia.
Qed.
Lemma ss_filter {B} (R : B -> B -> Prop) (f : B -> bool) l : StronglySorted R l -> StronglySorted R (filter f l).
Proof.
  induction 1 as [|x l H IH F]; cbn; [constructor|]. destruct (f x); [|exact IH]. constructor; [exact IH|].
  apply Forall_forall. intros y Hy. apply filter_In in Hy as [Hy _]. rewrite Forall_forall in F. apply F. exact Hy.
Qed.
(* two lists of the same objects sorted by an antisymmetric relation are equal *)
Lemma ss_unique {B} (R S : B -> B -> Prop) (a : list B) : (forall x y, In x a -> In y a -> R x y -> S y x -> x = y) -> forall b, Permutation a b -> StronglySorted R a -> StronglySorted S b -> a = b.
Proof.
  induction a as [|x a IH]; intros HA b P Ra Sb.
  - apply Permutation_nil in P. congruence.
  - destruct b as [|y b]; [apply Permutation_sym, Permutation_nil in P; discriminate|].
    assert (x = y) as <-.
    { inversion Ra as [|? ? _ F1]; subst. inversion Sb as [|? ? _ F2]; subst.
      assert (Hy : In y (x :: a)) by (rewrite P; left; reflexivity). assert (Hx : In x (y :: b)) by (rewrite <- P; left; reflexivity).
      destruct Hy as [Hy|Hy]; [exact Hy|]. destruct Hx as [Hx|Hx]; [congruence|]. rewrite Forall_forall in F1, F2. apply HA; [left; reflexivity|right; exact Hy|apply F1; exact Hy|apply F2; exact Hx]. }
    f_equal. inversion Ra; subst. inversion Sb; subst. apply IH; try assumption; [intros; apply HA; try (right; assumption); assumption|]. apply (Permutation_cons_inv P).
Qed.
Theorem C74_csort_partial l : NoDup l -> Stably key l (csort l).
Proof.
  intros HN. set (k := fun o => (key o, match last_index 0 l o with Some i => i | None => 0 end)). unfold csort. fold k.
  split; [apply sorted_perm|]. pose proof (sorted_sorted k l) as S. split.
  - assert (G : forall m, StronglySorted (fun a b => le2 (k a) (k b) = true) m -> StronglySorted (fun a b => key a <= key b) m).
    { induction 1 as [|x m Hm IH F]; constructor; [exact IH|]. eapply Forall_impl; [|exact F]. cbn. unfold le2, k. cbn. intros y Hy. lia. }
    apply G. exact S.
  - intros v. symmetry. apply (ss_unique (fun a b => match last_index 0 l a, last_index 0 l b with Some x, Some y => x < y | _, _ => False end) (fun a b => le2 (k a) (k b) = true)).
    + intros x y Hx Hy Hlt Hle. exfalso. apply filter_In in Hx as [_ Hx]. apply filter_In in Hy as [_ Hy]. unfold le2, k in Hle. cbn in Hle.
      destruct (last_index 0 l x), (last_index 0 l y); try tauto. lia.
    + assert (G : forall a b : list A, Permutation a b -> Permutation (filter (fun x => key x =? v) a) (filter (fun x => key x =? v) b)).
      { induction 1; cbn; [constructor|destruct (key x =? v); [constructor|]; assumption|destruct (key x =? v), (key y =? v); try reflexivity; apply perm_swap|etransitivity; eassumption]. }
      apply G. apply sorted_perm.
    + apply ss_filter. apply index_sorted. exact HN.
    + apply ss_filter. exact S.
Qed.
End csort.
(* with an object that occurs twice the order is not preserved *)
Theorem C74_csort_duplicates_refuted : csort Z.eqb (fun _ => 0) [1; 2; 1] = [2; 1; 1] /\ ~ Stably (fun _ => 0) [1; 2; 1] (csort Z.eqb (fun _ => 0) [1; 2; 1]).
Proof.
  split; [reflexivity|]. intros (_ & _ & H). specialize (H 0). cbn in H. discriminate.
Qed.
(* ---- witnesses ---- *)
Lemma C74_witness : uniq Z.eqb [3; 1; 3; 2; 1] = [3; 1; 2] /\ pick (fun x => x mod 10) [12; 7; 17; 3] None = Some 7 /\ choplist 2 [1; 2; 3; 4; 5] = [[1; 2]; [3; 4]] /\ (0 < 2)%nat /\
  csort Z.eqb (fun x => x mod 10) [12; 7; 2; 17; 3] = [12; 2; 3; 7; 17].
Proof. repeat split. lia. Qed.
