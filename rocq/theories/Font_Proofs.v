From Coq Require Import String.
From Verif Require Import Base Lex_Model Obj Stack_Model Stream_Model Stream_Spec Stream_Props Num Geom_Model Page_Model Interp_Model CMap_Spec CMap_Model CMap_Proofs Font_Model Font_Spec.
From Coq Require Import Qcanon ZifyBool ZifyNat.
Open Scope Z_scope.
Notation nof := Interp_Model.num_of.

Lemma number_num o q : Number o q -> nof o = Some q.
Proof. intros []; reflexivity. Qed.
Lemma nget_nput {A} (m : nmap A) k v k' : nget (nput m k v) k' = if qeqb k k' then Some v else nget m k'.
Proof. reflexivity. Qed.
Lemma qeqb_qz a b : qeqb (qz a) (qz b) = (a =? b).
Proof.
  destruct (a =? b) eqn:E; [apply Z.eqb_eq in E; subst; apply qeqb_iff; reflexivity|].
  destruct (qeqb (qz a) (qz b)) eqn:F; [|reflexivity]. apply qeqb_iff, qz_inj in F. lia.
Qed.

(* dictionaries read as assignments; R relates what is stored to what it means *)
Section upd.
  Context {A B : Type} (R : A -> B -> Prop).
  Definition orel (a : option A) (b : option B) : Prop :=
    match a, b with Some x, Some y => R x y | None, None => True | _, _ => False end.
  (* keys that are not integers are never touched *)
  Definition upd (m : nmap A) (asg : list (Z * B)) (m' : nmap A) : Prop :=
    (forall c, match last_for asg c with Some y => exists x, nget m' (qz c) = Some x /\ R x y | None => nget m' (qz c) = nget m (qz c) end) /\
    (forall q, (forall c, q <> qz c) -> nget m' q = nget m q).
  Lemma upd_nil m : upd m [] m.
  Proof. split; intros; reflexivity. Qed.
  Lemma upd_app m a m1 b m2 : upd m a m1 -> upd m1 b m2 -> upd m (a ++ b) m2.
  Proof.
    intros [H1 K1] [H2 K2]. split.
    - intros c. rewrite last_for_app. specialize (H1 c). specialize (H2 c). destruct (last_for b c); [exact H2|].
      rewrite H2. exact H1.
    - intros q Hq. rewrite K2, K1 by assumption. reflexivity.
  Qed.
  Lemma upd_one m c x y : R x y -> upd m [(c, y)] (nput m (qz c) x).
  Proof.
    intros HR. split.
    - intros c'. cbn [last_for]. rewrite nget_nput, qeqb_qz. destruct (c =? c'); [exists x; split; [reflexivity|assumption]|reflexivity].
    - intros q Hq. rewrite nget_nput. destruct (qeqb (qz c) q) eqn:E; [|reflexivity]. apply qeqb_iff in E. exfalso. exact (Hq c (eq_sym E)).
  Qed.
  Lemma codes_cons c n : codes c (S n) = c :: codes (c + 1) n.
  Proof.
    unfold codes. cbn [seq map]. f_equal; [lia|]. rewrite <- seq_shift, map_map. apply map_ext. intros i. lia.
  Qed.
  Lemma put_list_upd l qs : Forall2 R l qs -> forall m c, upd m (combine (codes c (length qs)) qs) (put_list m (qz c) l).
  Proof.
    intros H. induction H as [|x y l qs Hx Hl IH]; intros m c; cbn [length].
    - apply upd_nil.
    - rewrite codes_cons. cbn [combine put_list]. change ((c, y) :: ?r) with ([(c, y)] ++ r).
      eapply upd_app; [apply upd_one; exact Hx|]. replace (qz c + qz 1)%Qc with (qz (c + 1)) by apply qz_add. apply IH.
  Qed.
  Lemma put_range_upd w q : R w q -> forall n m c, upd m (map (fun c => (c, q)) (codes c n)) (put_range m c n w).
  Proof.
    intros H. induction n as [|n IH]; intros m c; [apply upd_nil|].
    rewrite codes_cons. cbn [map put_range]. change ((c, q) :: ?r) with ([(c, q)] ++ r).
    eapply upd_app; [apply upd_one; exact H|apply IH].
  Qed.
End upd.

Lemma widths_entries seq decl : Entries WEntry seq decl -> forall m, exists m', widths_loop m [] seq = Ok m' /\ upd Number m decl m'.
Proof.
  intros H. induction H as [|e d r d' He Hr IH]; intros m.
  - exists m. split; [reflexivity|apply upd_nil].
  - inversion He; subst.
    + cbn [app widths_loop]. cbn [Interp_Model.num_of app rev].
      destruct (IH (put_list m (qz c) ws)) as [m' [E U]]. exists m'. split; [exact E|]. eapply upd_app; [|exact U]. apply put_list_upd. assumption.
    + pose proof (number_num _ _ H) as Hn.
      destruct (IH (put_range m c1 (Z.to_nat (c2 + 1 - c1)) w)) as [m' [E U]]. exists m'. split.
      * destruct H; cbn [app widths_loop Interp_Model.num_of int_obj]; exact E.
      * eapply upd_app; [|exact U]. replace (c2 + 1 - c1) with (c2 - c1 + 1) by lia. apply put_range_upd. assumption.
Qed.

Definition R3 (a : obj * (obj * obj)) (b : num * (num * num)) : Prop :=
  Number (fst a) (fst b) /\ Number (fst (snd a)) (fst (snd b)) /\ Number (snd (snd a)) (snd (snd b)).
Lemma triples_lemma l qs : Triples l qs -> Forall2 R3 (triples l) qs.
Proof.
  intros H. induction H as [|w x y qw qx qy l r Hw Hx Hy Hl IH]; [constructor|].
  unfold triples, choplist. cbn [chop app length Nat.eqb flat_map]. constructor; [repeat split; assumption|]. exact IH.
Qed.
Lemma widths2_entries seq decl : Entries W2Entry seq decl -> forall m, exists m', widths2_loop m [] seq = Ok m' /\ upd R3 m decl m'.
Proof.
  intros H. induction H as [|e d r d' He Hr IH]; intros m.
  - exists m. split; [reflexivity|apply upd_nil].
  - inversion He; subst.
    + cbn [app widths2_loop]. cbn [Interp_Model.num_of app rev].
      destruct (IH (put_list m (qz c) (triples ts))) as [m' [E U]]. exists m'. split; [exact E|]. eapply upd_app; [|exact U]. apply put_list_upd.
      apply triples_lemma. assumption.
    + destruct (IH (put_range m c1 (Z.to_nat (c2 + 1 - c1)) (w, (x, y)))) as [m' [E U]]. exists m'. split.
      * destruct H, H0, H1; cbn [app widths2_loop Interp_Model.num_of int_obj]; exact E.
      * eapply upd_app; [|exact U]. replace (c2 + 1 - c1) with (c2 - c1 + 1) by lia. apply put_range_upd. repeat split; assumption.
Qed.

Section r.
  Context (getobj : Z -> option obj).
  Lemma resolved_leads d o v w : Leads getobj ONull o v -> resolved getobj d o = Ok w -> w = v.
  Proof.
    intros H E. apply C59_resolve1 in H as [n H]. unfold resolved in E.
    destruct (resolve1 getobj d ONull o) as [x|] eqn:F; [|discriminate]. injection E as E. subst x.
    apply (resolve1_more getobj ONull _ _ _ (n + d)) in F; [|lia]. rewrite H in F. congruence.
  Qed.
  Lemma list_value_leads d o l l' : Leads getobj ONull o (OArr l) -> list_value getobj d o = Ok l' -> l' = l.
  Proof.
    intros H E. unfold list_value in E. destruct (resolved getobj d o) as [x|] eqn:F; [|discriminate]. cbn [bind] in E.
    apply (resolved_leads _ _ _ _ H) in F. subst x. congruence.
  Qed.
  Lemma dict_value_leads d o l l' : Leads getobj ONull o (ODict l) -> dict_value getobj d o = Ok l' -> l' = l.
  Proof.
    intros H E. unfold dict_value in E. destruct (resolved getobj d o) as [x|] eqn:F; [|discriminate]. cbn [bind] in E.
    apply (resolved_leads _ _ _ _ H) in F. subst x. congruence.
  Qed.
End r.
Lemma last_for_map {A B} (h : A -> B) (l : list (Z * A)) c : last_for (map (fun e => (fst e, h (snd e))) l) c = option_map h (last_for l c).
Proof.
  induction l as [|[k v] l IH]; [reflexivity|]. cbn [map last_for fst snd]. rewrite IH.
  destruct (last_for l c); [reflexivity|]. destruct (k =? c); reflexivity.
Qed.
Lemma nget_map {A B} (h : A -> B) (m : nmap A) q : nget (map (fun e => (fst e, h (snd e))) m) q = option_map h (nget m q).
Proof. induction m as [|[k v] m IH]; [reflexivity|]. cbn [map nget fst snd]. destruct (qeqb k q); [reflexivity|exact IH]. Qed.

(* taking a definition in the error monad apart *)
Ltac steps :=
  repeat match goal with
  | H : (do _ <- ?e; _) = Ok _ |- _ => let E := fresh "E" in destruct e eqn:E; cbn [bind] in H; [|discriminate H]
  | H : Ok _ = Ok _ |- _ => injection H as H
  end.
Section v.
  Context (getobj : Z -> option obj).
  Lemma value_get_or d k dflt o : Value getobj d k dflt o -> get_or d k dflt = dflt /\ o = dflt \/ Leads getobj ONull (get_or d k dflt) o.
  Proof. intros [H|x v H L]; unfold get_or; rewrite H; auto. Qed.
  Lemma value_list n d k dl l l' : Value getobj d k (OArr dl) (OArr l) -> list_value getobj n (get_or d k (OArr dl)) = Ok l' -> l' = l.
  Proof.
    intros H E. apply value_get_or in H as [[R H]|H]; [rewrite R in E|eapply list_value_leads; eassumption].
    injection H as ->. unfold list_value, resolved in E. destruct n; cbn in E; [discriminate|]. congruence.
  Qed.
  Lemma value_dict n d k dl l l' : Value getobj d k (ODict dl) (ODict l) -> dict_value getobj n (get_or d k (ODict dl)) = Ok l' -> l' = l.
  Proof.
    intros H E. apply value_get_or in H as [[R H]|H]; [rewrite R in E|eapply dict_value_leads; eassumption].
    injection H as ->. unfold dict_value, resolved in E. destruct n; cbn in E; [discriminate|]. congruence.
  Qed.
  Lemma value_num n d k z o q x : Value getobj d k (OInt z) o -> Number o q -> num_value getobj n (get_or d k (OInt z)) = Ok x -> x = o.
  Proof.
    intros H HN E. assert (E' : resolved getobj n (get_or d k (OInt z)) = Ok o).
    { unfold num_value in E. destruct (resolved getobj n (get_or d k (OInt z))) as [w|] eqn:F; [|discriminate]. f_equal.
      apply value_get_or in H as [[R ->]|H]; [rewrite R in F|eapply resolved_leads; eassumption].
      unfold resolved in F. destruct n; cbn in F; [discriminate|]. congruence. }
    unfold num_value in E. rewrite E' in E. cbn [bind] in E. rewrite (number_num _ _ HN) in E. congruence.
  Qed.
  Lemma value_no_num n d k z o x : Value getobj d k (OInt z) o -> match o with OInt _ | OReal _ | OBool _ => False | _ => True end -> num_value getobj n (get_or d k (OInt z)) = Ok x -> x = OInt 0.
  Proof.
    intros H HN E. assert (E' : resolved getobj n (get_or d k (OInt z)) = Ok o).
    { unfold num_value in E. destruct (resolved getobj n (get_or d k (OInt z))) as [w|] eqn:F; [|discriminate]. f_equal.
      apply value_get_or in H as [[R ->]|H]; [rewrite R in F|eapply resolved_leads; eassumption].
      unfold resolved in F. destruct n; cbn in F; [discriminate|]. congruence. }
    unfold num_value in E. rewrite E' in E. cbn [bind] in E. destruct o; try contradiction; cbn in E; congruence.
  Qed.
  Lemma missing_num n n' spec d q x : Missing getobj spec q -> dict_value getobj n (get_or spec "FontDescriptor" (ODict [])) = Ok d ->
    num_value getobj n' (get_or d "MissingWidth" (OInt 0)) = Ok x -> Interp_Model.num_of x = Some q.
  Proof.
    intros [d' o q' HFD HMW HN|d' o HFD HMW HN] E1 E2; rewrite (value_dict _ _ _ _ _ _ HFD E1) in E2.
    - rewrite (value_num _ _ _ _ _ _ _ HMW HN E2). exact (number_num _ _ HN).
    - rewrite (value_no_num _ _ _ _ _ _ HMW HN E2). reflexivity.
  Qed.
  Lemma value_int n d k z i x : Value getobj d k (OInt z) (OInt i) -> Stream_Model.int_value getobj n (get_or d k (OInt z)) = Ok x -> x = i.
  Proof.
    intros H E. apply value_get_or in H as [[R H]|H].
    - rewrite R in E. injection H as ->. unfold Stream_Model.int_value in E. destruct n; cbn in E; [discriminate|]. congruence.
    - apply C59_resolve1 in H as [m H]. unfold Stream_Model.int_value in E.
      destruct (resolve1 getobj n ONull (get_or d k (OInt z))) as [w|] eqn:F; [|discriminate].
      apply (resolve1_more getobj ONull _ _ _ (m + n)) in F; [|lia]. rewrite H in F. injection F as <-. congruence.
  Qed.
End v.
