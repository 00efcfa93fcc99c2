From Coq Require Import String.
From Verif Require Import Base Lex_Model Lex_Chunk Lex_Spec Lex_Proofs Lines_Model Lines_Spec Lines_Proofs Obj Stack_Model Stack_Spec Stack_Proofs StreamObj_Proofs Stream_Model XRef_Model XRef_Spec XRef_Proofs Doc_Model Doc_Spec.
From Coq Require Import ZifyBool ZifyNat.

Section caching.
  Context (D : docdata).
  (* the lookup without any cache *)
  Definition look (f : nat) (i : Z) : res obj := fst (getobj D false f i dstate0).

  (* without caching the state never changes *)
  Lemma run_prog_state get p : (forall i s, snd (get i s) = s) -> forall s, snd (run_prog get p s) = s.
  Proof.
    intros Hg. induction p as [r|i k IH]; intros s; [reflexivity|]. cbn [run_prog].
    pose proof (Hg i s) as H. destruct (get i s) as [r s']. cbn [snd] in H. subst s'.
    destruct r as [a|[]]; try reflexivity; apply IH.
  Qed.
  Lemma follow_state get : (forall i s, snd (get i s) = s) -> forall n id o s, snd (follow get n id o s) = s.
  Proof.
    intros Hg. induction n as [|n IH]; intros id o s; destruct o; try reflexivity. cbn [follow].
    pose proof (Hg objid s) as H. destruct (get objid s) as [r s']. cbn [snd] in H. subst s'.
    destruct r as [a|[]]; try reflexivity. apply IH.
  Qed.
  Lemma objstm_state key o idx s : snd (getobj_objstm D false key o idx s) = s.
  Proof. unfold getobj_objstm. destruct (oget _ _); [reflexivity|]. destruct (d_members D o); reflexivity. Qed.
  Lemma read_state get n id p : (forall i s, snd (get i s) = s) -> forall s, snd (read_entry D false get n id p s) = s.
  Proof.
    intros Hg s. destruct p as [[[sid|] index] gen]; cbn [read_entry]; unfold mbind.
    - pose proof (Hg sid s) as H. destruct (get sid s) as [[o|e] s']; cbn [snd] in H; subst s'; [|reflexivity].
      pose proof (follow_state get Hg n sid o s) as H. destruct (follow get n sid o s) as [[ks|e] s']; cbn [snd] in H; subst s'; [|reflexivity].
      apply objstm_state.
    - pose proof (run_prog_state get (d_parse D index id) Hg s) as H. destruct (run_prog _ _ s) as [[o|e] s']; cbn [snd] in H; subst s'; reflexivity.
  Qed.
  Lemma try_state get n id xs : (forall i s, snd (get i s) = s) -> forall s, snd (try_xrefs D false get n id xs s) = s.
  Proof.
    intros Hg. induction xs as [|x xs IH]; intros s; [reflexivity|]. cbn [try_xrefs].
    destruct (x id) as [p|[]]; try reflexivity; [|apply IH].
    pose proof (read_state get n id p Hg s) as H. destruct (read_entry D false get n id p s) as [o s']; cbn [snd] in H; subst s'.
    destruct o as [a|[]]; try reflexivity; apply IH.
  Qed.
  Lemma getobj_state f : forall i s, snd (getobj D false f i s) = s.
  Proof.
    induction f as [|f IH]; intros i s; [reflexivity|]. cbn [getobj]. destruct (i =? 0); [reflexivity|].
    destruct (d_xrefs D) as [|x xs]; [reflexivity|]. destruct (zget _ _); [reflexivity|].
    pose proof (try_state (getobj D false f) f i (x :: xs) IH s) as H. destruct (try_xrefs _ _ _ _ _ _ s) as [[o|e] s']; cbn [snd] in H; subst s'; reflexivity.
  Qed.

  (* Simulation: m1 (any state satisfying Inv) against m0 (without cache).  When m0 does not run out of fuel m1
     returns the same, in a state that satisfies Inv. *)
  Section sim.
    Context (Inv : dstate -> Prop) (caching : bool).
    Definition sim {A} (m1 m0 : M A) : Prop := forall s, Inv s ->
      fst (m0 dstate0) <> Err OutOfFuel -> fst (m1 s) = fst (m0 dstate0) /\ Inv (snd (m1 s)).
    Definition pure {A} (m : M A) : Prop := forall s, snd (m s) = s.
    Context (get1 get0 : Z -> M obj) (Hget : forall i, sim (get1 i) (get0 i)) (H0 : forall i, pure (get0 i)).

    Lemma sim_ret {A} (r : res A) : sim (ret r) (ret r).
    Proof. intros s Hs _. split; [reflexivity|exact Hs]. Qed.
    Lemma sim_bind {A B} (m1 m0 : M A) (f1 f0 : A -> M B) : pure m0 -> sim m1 m0 ->
      (forall a s, Inv s -> fst (m0 dstate0) = Ok a -> fst (f0 a dstate0) <> Err OutOfFuel ->
         fst (f1 a s) = fst (f0 a dstate0) /\ Inv (snd (f1 a s))) -> sim (mbind m1 f1) (mbind m0 f0).
    Proof.
      intros Hp Hm Hf s Hs Hne. unfold mbind in *. specialize (Hp dstate0). specialize (Hm s Hs).
      destruct (m0 dstate0) as [r0 s0]. cbn [snd fst] in *. subst s0. destruct (m1 s) as [r1 s1]. cbn [fst snd] in *.
      destruct r0 as [a|e].
      - destruct Hm as [-> Hi]; [discriminate|]. apply Hf; [assumption|reflexivity|assumption].
      - destruct Hm as [-> Hi]; [intros X; apply Hne; injection X as ->; reflexivity|]. split; [reflexivity|exact Hi].
    Qed.
    Lemma sim_prog p : sim (run_prog get1 p) (run_prog get0 p).
    Proof.
      induction p as [r|i k IH]; [apply sim_ret|]. intros s Hs Hne. cbn [run_prog] in *.
      pose proof (H0 i dstate0) as Hp. pose proof (Hget i s Hs) as Hg.
      destruct (get0 i dstate0) as [r0 s0]. cbn [snd fst] in *. subst s0. destruct (get1 i s) as [r1 s1]. cbn [fst snd] in *.
      assert (Hr : r0 <> Err OutOfFuel) by (intros ->; apply Hne; reflexivity).
      destruct (Hg Hr) as [-> Hi]. destruct r0 as [a|[]]; try (apply IH; assumption). congruence.
    Qed.
    Lemma sim_follow n : forall id o, sim (follow get1 n id o) (follow get0 n id o).
    Proof.
      induction n as [|n IH]; intros id o; destruct o; try apply sim_ret. intros s Hs Hne. cbn [follow] in *.
      pose proof (H0 objid dstate0) as Hp. pose proof (Hget objid s Hs) as Hg.
      destruct (get0 objid dstate0) as [r0 s0]. cbn [snd fst] in *. subst s0. destruct (get1 objid s) as [r1 s1]. cbn [fst snd] in *.
      assert (Hr : r0 <> Err OutOfFuel) by (intros ->; apply Hne; reflexivity).
      destruct (Hg Hr) as [-> Hi]. destruct r0 as [a|[]]; try (split; [reflexivity|assumption]). apply IH; assumption.
    Qed.
    (* what a followed stream is: the outcome of the lookup of its own number *)
    Lemma follow_is n : forall id o k v, fst (get0 id dstate0) = Ok o -> fst (follow get0 n id o dstate0) = Ok (k, v) ->
      (exists j, k = Some j /\ fst (get0 j dstate0) = Ok v) \/ (k = None /\ v = OStream [] []).
    Proof.
      induction n as [|n IH]; intros id o k v Ho H; destruct o; cbn [follow ret fst] in H; try discriminate;
        try (injection H as <- <-; right; split; reflexivity); try (injection H as <- <-; left; exists id; split; [reflexivity|assumption]).
      pose proof (H0 objid dstate0) as Hp. destruct (get0 objid dstate0) as [r0 s0] eqn:Eg. cbn [snd] in Hp. subst s0.
      destruct r0 as [a|[]]; try discriminate.
      - apply (IH objid a k v); [rewrite Eg; reflexivity|assumption].
      - injection H as <- <-. right; split; reflexivity.
    Qed.
  End sim.

  Lemma sim_mono {A} (I1 I2 : dstate -> Prop) (m1 m0 : M A) : sim I1 m1 m0 -> (forall s, I2 s <-> I1 s) -> sim I2 m1 m0.
  Proof. intros H HI s Hs Hne. apply HI in Hs. destruct (H s Hs Hne) as [A1 A2]. split; [assumption|]. apply HI. assumption. Qed.

  (* more fuel does not change an outcome *)
  Definition I0 (s : dstate) : Prop := s = dstate0.
  Lemma try_sim0 (get1 get0 : Z -> M obj) n1 n0 id : (forall i, sim I0 (get1 i) (get0 i)) -> (forall i, pure (get0 i)) -> (forall i, pure (get1 i)) ->
    (forall k o, sim I0 (follow get1 n1 k o) (follow get0 n0 k o)) -> forall xs,
    sim I0 (try_xrefs D false get1 n1 id xs) (try_xrefs D false get0 n0 id xs).
  Proof.
    intros Hg P0 P1 Hf. induction xs as [|x xs IH]; [apply sim_ret|]. cbn [try_xrefs].
    destruct (x id) as [p|[]]; try apply sim_ret; [|exact IH].
    assert (Hr : sim I0 (read_entry D false get1 n1 id p) (read_entry D false get0 n0 id p)).
    { destruct p as [[[sid|] index] gen]; cbn [read_entry].
      - apply sim_bind; [apply P0|apply Hg|]. intros o s -> Ho Hne. unfold mbind in *.
        pose proof (Hf sid o dstate0 eq_refl) as Hf'.
        pose proof (follow_state get0 P0 n0 sid o dstate0) as S0. pose proof (follow_state get1 P1 n1 sid o dstate0) as S1.
        destruct (follow get0 n0 sid o dstate0) as [r0 s0]. destruct (follow get1 n1 sid o dstate0) as [r1 s1]. cbn [fst snd] in *. subst s0 s1.
        assert (Hr0 : r0 <> Err OutOfFuel) by (intros ->; apply Hne; reflexivity). destruct (Hf' Hr0) as [-> _].
        destruct r0 as [[k v]|e]; [|split; reflexivity]. cbn [fst snd]. split; [reflexivity|apply objstm_state].
      - apply sim_bind; [intros s; apply (run_prog_state get0 _ P0)|apply sim_prog; assumption|].
        intros o s -> _ _. split; reflexivity. }
    intros s -> Hne. specialize (Hr dstate0 eq_refl).
    pose proof (read_state get0 n0 id p P0 dstate0) as S0. pose proof (read_state get1 n1 id p P1 dstate0) as S1.
    destruct (read_entry D false get0 n0 id p dstate0) as [r0 s0]. destruct (read_entry D false get1 n1 id p dstate0) as [r1 s1]. cbn [fst snd] in *. subst s0 s1.
    assert (Hr0 : r0 <> Err OutOfFuel) by (intros ->; apply Hne; reflexivity). destruct (Hr Hr0) as [-> _].
    destruct r0 as [a|[]]; try (split; reflexivity); apply IH; (reflexivity || assumption).
  Qed.
  Lemma follow_sim_n (get1 get0 : Z -> M obj) : (forall i, sim I0 (get1 i) (get0 i)) -> (forall i, pure (get0 i)) -> (forall i, pure (get1 i)) ->
    forall n0 n1, (n0 <= n1)%nat -> forall id o, sim I0 (follow get1 n1 id o) (follow get0 n0 id o).
  Proof.
    intros Hg P0 P1. induction n0 as [|n0 IH]; intros n1 Hn id o.
    - destruct o; try (destruct n1; apply sim_ret). intros s -> Hne. exfalso. apply Hne. reflexivity.
    - destruct n1 as [|n1]; [lia|]. destruct o; try apply sim_ret. intros s -> Hne. cbn [follow] in *.
      pose proof (P0 objid dstate0) as S0. pose proof (P1 objid dstate0) as S1. pose proof (Hg objid dstate0 eq_refl) as H.
      destruct (get0 objid dstate0) as [r0 s0]. destruct (get1 objid dstate0) as [r1 s1]. cbn [fst snd] in *. subst s0 s1.
      assert (Hr0 : r0 <> Err OutOfFuel) by (intros ->; apply Hne; reflexivity). destruct (H Hr0) as [-> _].
      destruct r0 as [a|[]]; try (split; reflexivity). apply IH; [lia|reflexivity|assumption].
  Qed.
  Lemma look_mono_sim f : forall f', (f <= f')%nat -> forall i, sim I0 (getobj D false f' i) (getobj D false f i).
  Proof.
    induction f as [|f IH]; intros f' Hf i s -> Hne; [exfalso; apply Hne; reflexivity|]. destruct f' as [|f']; [lia|].
    cbn [getobj] in *. destruct (i =? 0); [split; reflexivity|]. destruct (d_xrefs D) as [|x xs]; [split; reflexivity|].
    cbn [dstate0 ds_objs zget] in *. fold dstate0 in *.
    assert (Hs : sim I0 (try_xrefs D false (getobj D false f') f' i (x :: xs)) (try_xrefs D false (getobj D false f) f i (x :: xs))).
    { apply try_sim0; [intros j; apply IH; lia|intros j s0; apply getobj_state|intros j s0; apply getobj_state|].
      intros k o. apply follow_sim_n; [intros j; apply IH; lia|intros j s0; apply getobj_state|intros j s0; apply getobj_state|lia]. }
    specialize (Hs dstate0 eq_refl).
    pose proof (try_state (getobj D false f) f i (x :: xs) (getobj_state f) dstate0) as S0.
    pose proof (try_state (getobj D false f') f' i (x :: xs) (getobj_state f') dstate0) as S1.
    destruct (try_xrefs D false (getobj D false f) f i (x :: xs) dstate0) as [r0 s0]. destruct (try_xrefs D false (getobj D false f') f' i (x :: xs) dstate0) as [r1 s1].
    cbn [fst snd] in *. subst s0 s1. assert (Hr0 : r0 <> Err OutOfFuel) by (intros ->; apply Hne; reflexivity). destruct (Hs Hr0) as [-> _].
    destruct r0; split; reflexivity.
  Qed.
  Lemma look_mono f f' i r : (f <= f')%nat -> look f i = r -> r <> Err OutOfFuel -> look f' i = r.
  Proof. intros Hf <- Hr. apply (look_mono_sim f f' Hf i dstate0 eq_refl Hr). Qed.
  Lemma look_det f f' i r r' : look f i = r -> look f' i = r' -> r <> Err OutOfFuel -> r' <> Err OutOfFuel -> r = r'.
  Proof.
    intros H1 H2 N1 N2. destruct (Nat.le_ge_cases f f') as [L|L].
    - rewrite (look_mono f f' i r L H1 N1) in H2. congruence.
    - rewrite (look_mono f' f i r' L H2 N2) in H1. congruence.
  Qed.

  (* the invariant of the caches: they hold outcomes of lookups without cache *)
  Definition CInv (s : dstate) : Prop :=
    (forall i o, zget (ds_objs s) i = Some o -> i <> 0 /\ exists f, look f i = Ok o) /\
    (forall k v, oget (ds_parsed s) k = Some v -> exists o, d_members D o = Ok v /\
       match k with Some j => exists f, look f j = Ok o | None => o = OStream [] [] end).

  Lemma okey_eqb_eq a b : okey_eqb a b = true -> a = b.
  Proof. destruct a, b; cbn; intros H; try discriminate; [apply Z.eqb_eq in H; congruence|reflexivity]. Qed.

  Lemma caching_sim caching f : forall i, sim CInv (getobj D caching f i) (getobj D false f i).
  Proof.
    induction f as [|f IH]; intros i s Hs Hne; [exfalso; apply Hne; reflexivity|].
    assert (HL : fst (getobj D false (S f) i dstate0) = look (S f) i) by reflexivity.
    set (G0 := getobj D false (S f) i dstate0) in *. assert (EG0 : G0 = getobj D false (S f) i dstate0) by reflexivity. clearbody G0.
    cbn [getobj] in *. destruct (i =? 0) eqn:Ei; [rewrite EG0; split; [reflexivity|assumption]|].
    destruct (d_xrefs D) as [|x xs] eqn:Ex; [rewrite EG0; split; [reflexivity|assumption]|]. rewrite <- Ex in *. clear x xs Ex.
    destruct (zget (ds_objs s) i) as [o|] eqn:Ec.
    { split; [|exact Hs]. cbn [fst]. destruct Hs as [Hs _]. destruct (Hs _ _ Ec) as (_ & f2 & Hf2).
      rewrite HL. symmetry. eapply look_det; [reflexivity|exact Hf2|rewrite <- HL; assumption|discriminate]. }
    cbn [dstate0 ds_objs zget] in EG0. fold dstate0 in EG0.
    assert (P0 : forall j, pure (getobj D false f j)) by (intros j s0; apply getobj_state).
    assert (Hread : forall p, sim CInv (read_entry D caching (getobj D caching f) f i p) (read_entry D false (getobj D false f) f i p)).
    { intros [[[sid|] index] gen]; cbn [read_entry].
      - apply sim_bind; [apply P0|apply IH|]. intros o s1 Hs1 Ho Hne1. unfold mbind in *.
        pose proof (sim_follow CInv _ _ IH P0 f sid o s1 Hs1) as Hf.
        pose proof (follow_state (getobj D false f) P0 f sid o dstate0) as S0.
        pose proof (follow_is _ P0 f sid o) as Hfi.
        destruct (follow (getobj D false f) f sid o dstate0) as [r0 s0]. destruct (follow (getobj D caching f) f sid o s1) as [r1 s2]. cbn [fst snd] in *. subst s0.
        assert (Hr0 : r0 <> Err OutOfFuel) by (intros ->; apply Hne1; reflexivity). destruct (Hf Hr0) as [-> Hs2].
        destruct r0 as [[k v]|e]; [|split; [reflexivity|assumption]]. cbn [fst snd] in *.
        specialize (Hfi k v Ho eq_refl).
        unfold getobj_objstm in *. cbn [dstate0 ds_parsed oget] in Hne1 |- *.
        assert (Hkey : match k with Some j => exists f, look f j = Ok v | None => v = OStream [] [] end).
        { destruct Hfi as [(j & -> & Hj)|[-> ->]]; [exists f; exact Hj|reflexivity]. }
        destruct (oget (ds_parsed s2) k) as [w|] eqn:Ek.
        + assert (Hw : d_members D v = Ok w).
          { destruct Hs2 as [_ Hs2]. destruct (Hs2 _ _ Ek) as (o' & Hm & Hk). destruct k as [j|].
            - destruct Hk as [f1 H1]. destruct Hkey as [f2 H2]. assert (Ok o' = Ok v) by (eapply look_det; [exact H1|exact H2|discriminate|discriminate]). congruence.
            - congruence. }
          rewrite Hw. split; [reflexivity|assumption].
        + destruct (d_members D v) as [w|e] eqn:Em; [|split; [reflexivity|assumption]]. cbn [fst snd].
          split; [reflexivity|]. destruct caching; [|assumption]. destruct Hs2 as [A B]. split; [exact A|].
          intros k' v' Hk'. cbn [ds_parsed oget] in Hk'. destruct (okey_eqb k k') eqn:Ekk; [|apply B; assumption].
          apply okey_eqb_eq in Ekk. subst k'. injection Hk' as <-. exists v. split; assumption.
      - apply sim_bind; [intros s1; apply (run_prog_state _ _ P0)|apply sim_prog; [exact IH|exact P0]|].
        intros o s1 Hs1 _ _. split; [reflexivity|assumption]. }
    assert (Htry : forall xs, sim CInv (try_xrefs D caching (getobj D caching f) f i xs) (try_xrefs D false (getobj D false f) f i xs)).
    { induction xs as [|x xs IHx]; [apply sim_ret|]. cbn [try_xrefs]. destruct (x i) as [p|[]]; try apply sim_ret; [|exact IHx].
      intros s1 Hs1 Hne1. specialize (Hread p s1 Hs1).
      pose proof (read_state (getobj D false f) f i p P0 dstate0) as S0.
      destruct (read_entry D false (getobj D false f) f i p dstate0) as [r0 s0]. destruct (read_entry D caching (getobj D caching f) f i p s1) as [r1 s2]. cbn [fst snd] in *. subst s0.
      assert (Hr0 : r0 <> Err OutOfFuel) by (intros ->; apply Hne1; reflexivity). destruct (Hread Hr0) as [-> Hs2].
      destruct r0 as [a|[]]; try (split; [reflexivity|assumption]); apply IHx; assumption. }
    specialize (Htry (d_xrefs D) s Hs).
    pose proof (try_state (getobj D false f) f i (d_xrefs D) P0 dstate0) as S0.
    destruct (try_xrefs D false (getobj D false f) f i (d_xrefs D) dstate0) as [r0 s0]. destruct (try_xrefs D caching (getobj D caching f) f i (d_xrefs D) s) as [r1 s2].
    cbn [fst snd] in *. subst s0.
    assert (EG : G0 = (r0, dstate0)) by (destruct r0; exact EG0).
    assert (Hr0 : r0 <> Err OutOfFuel) by (rewrite EG in Hne; exact Hne).
    destruct (Htry Hr0) as [-> Hs2]. rewrite EG in *. cbn [fst snd] in *. destruct r0 as [v|e]; [|split; [reflexivity|assumption]].
    cbn [fst snd]. split; [reflexivity|]. destruct caching; [|assumption]. destruct Hs2 as [A B]. split; [|exact B].
    intros j o Hj. cbn [ds_objs zget] in Hj. destruct (i =? j) eqn:Eij; [|apply A; assumption].
    injection Hj as <-. split; [lia|]. exists (S f). replace j with i by lia. symmetry. exact HL.
  Qed.
  Lemma CInv0 : CInv dstate0.
  Proof. split; intros; discriminate. Qed.
End caching.

(* ---------- the concrete parser ---------- *)
Definition header (i g q1 q2 q3 : Z) : list (Z * token) := [(q1, TInt i); (q2, TInt g); (q3, KW "obj")].
Lemma header_tokens e before text rest i g q1 q2 q3 ts x :
  (0 < bufsiz e)%nat -> file e = before ++ text ++ rest -> (forall r, rest <> 62 :: r) ->
  LayoutP x (Z.of_nat (length before)) (header i g q1 q2 q3 ++ ts) text rest ->
  exists p1 p2 p3 t1 t2 t3 ts' l', nexttoken (seek e (Z.of_nat (length before))) = (Ok (t1, TInt i), p1) /\ nexttoken p1 = (Ok (t2, TInt g), p2) /\
    nexttoken p2 = (Ok (t3, KW "obj"), p3) /\ nonempty (chunks p3) /\ Forall2 tok_eq ts' ts /\ mode_ l' = MMain /\
    tokens p3 = pre ts' (toks l' (Z.of_nat (length (before ++ text))) rest).
Proof.
  intros Hb Hf Hr HL. destruct (seek_at e before (text ++ rest) _ Hb Hf eq_refl) as [N T].
  destruct (layoutP_lemma _ _ _ _ _ HL Hr lex0 eq_refl) as [(ts' & l' & E1 & E2 & E3) _]. rewrite E3 in T.
  apply Forall2_app_inv_r in E1 as (h & ts2 & F1 & F2 & ->).
  inversion F1 as [|[a1 b1] ? ? h1 [H1 _] F1']; subst. inversion F1' as [|[a2 b2] ? ? h2 [H2 _] F1'']; subst.
  inversion F1'' as [|[a3 b3] ? ? h3 [H3 _] F1''']; subst. inversion F1'''; subst. cbn [snd] in H1, H2, H3. subst b1 b2 b3.
  unfold pre in T. cbn [app] in T.
  destruct (nexttoken_tokens _ _ _ _ N T) as (p1 & A1 & T1 & N1). destruct (nexttoken_tokens _ _ _ _ N1 T1) as (p2 & A2 & T2 & N2).
  destruct (nexttoken_tokens _ _ _ _ N2 T2) as (p3 & A3 & T3 & N3).
  exists p1, p2, p3, a1, a2, a3, ts2, l'. splits; try assumption. rewrite T3. unfold pre. rewrite app_length, Nat2Z.inj_add. reflexivity.
Qed.

Lemma getobj_parse_ok e fuel k i p1 p2 p3 t1 t2 t3 g : 0 <= k ->
  nexttoken (seek e k) = (Ok (t1, TInt i), p1) -> nexttoken p1 = (Ok (t2, TInt g), p2) -> nexttoken p2 = (Ok (t3, KW "obj"), p3) ->
  getobj_parse e fuel k i = do (po, _, _) <- pdf_nextobject e fuel p3 stk0; Ok (snd po).
Proof.
  intros Hk H1 H2 H3. unfold getobj_parse. replace (k <? 0) with false by lia. rewrite H1, H2, H3.
  cbn [is_id]. rewrite Z.eqb_refl. cbn [bind negb is_id is_obj_kwd]. rewrite Z.eqb_refl. cbn [negb is_obj_kwd KW].
  rewrite list_eqb_refl. reflexivity.
Qed.

Lemma parse_object_lemma e before text rest i g o ts q1 q2 q3 q x :
  (0 < bufsiz e)%nat -> file e = before ++ text ++ rest -> (forall r, rest <> 62 :: r) ->
  LayoutP x (Z.of_nat (length before)) (header i g q1 q2 q3 ++ ts ++ [(q, KW "endobj")]) text rest ->
  Written true true o (map snd ts) ->
  exists n, forall f, getobj_parse e (n + f) (Z.of_nat (length before)) i = Ok o.
Proof.
  intros Hb Hf Hr HL HW.
  destruct (header_tokens _ _ _ _ _ _ _ _ _ _ _ Hb Hf Hr HL) as (p1 & p2 & p3 & t1 & t2 & t3 & ts' & l' & A1 & A2 & A3 & N & F & Hl & T).
  apply Forall2_app_inv_r in F as (ta & tb & F1 & F2 & ->).
  inversion F2 as [|[q' k] ? ? ? [Hk _] F3]; subst. inversion F3; subst. cbn [snd] in Hk. subst k.
  unfold pre in T. rewrite <- app_assoc in T.
  destruct (pdf_runs e o _ HW stk0 ta eq_refl (tok_eq_snd _ _ F1)) as (pos & HR).
  destruct (HR _ _ _ N T) as (n & p' & N' & T' & E'). cbn [app] in T'.
  destruct (nexttoken_tokens _ _ _ _ N' T') as (p4 & Hn & T4 & N4).
  exists (n + 1)%nat. intros f. rewrite (getobj_parse_ok e _ _ i p1 p2 p3 t1 t2 t3 g (Nat2Z.is_nonneg _) A1 A2 A3).
  unfold pdf_nextobject. rewrite <- Nat.add_assoc, E'. cbn [Nat.add nextobject]. rewrite Hn, step_endobj. cbn.
  rewrite nextobject_eq. reflexivity.
Qed.

(* ---------- the chain of sections ---------- *)
Definition opt {A} (r : res A) : option A := match r with Ok a => Some a | Err _ => None end.
Lemma opt_some {A} (r : res A) a : opt r = Some a -> r = Ok a.
Proof. destruct r; cbn; congruence. Qed.
Section chain.
  Context {X : Type} (load : Z -> res (X * list (obj * obj))) (int_value : obj -> res Z).
  Lemma chain_lemma :
    (forall start l, Chain (fun p => opt (load p)) (fun v => opt (int_value v)) start l -> exists n, forall f acc, read_xref_from load int_value (n + f) start acc = Ok (acc ++ l)) /\
    (forall o l, ChainOpt (fun p => opt (load p)) (fun v => opt (int_value v)) o l -> exists n, forall f acc,
       match o with Some v => do pos <- int_value v; read_xref_from load int_value (n + f) pos acc | None => Ok acc end = Ok (acc ++ l)).
  Proof.
    apply Chain_ind2.
    - intros start x tr l1 l2 Hl H1 (n1 & IH1) H2 (n2 & IH2). apply opt_some in Hl. exists (S (n1 + n2)). intros f acc.
      cbn [Nat.add read_xref_from]. rewrite Hl. cbn [bind].
      specialize (IH1 (n2 + f)%nat (acc ++ [x])). rewrite Nat.add_assoc in IH1.
      specialize (IH2 (n1 + f)%nat ((acc ++ [x]) ++ l1)). rewrite Nat.add_assoc, (Nat.add_comm n2 n1) in IH2.
      destruct (dget tr "XRefStm") as [v1|]; rewrite IH1; cbn [bind]; rewrite IH2; f_equal; rewrite <- !app_assoc; reflexivity.
    - exists O. intros f acc. rewrite app_nil_r. reflexivity.
    - intros v pos l Hv HC (n & IH). apply opt_some in Hv. exists n. intros f acc. rewrite Hv. cbn [bind]. apply IH.
  Qed.

  Lemma chain_sound n : forall start acc l, read_xref_from load int_value n start acc = Ok l ->
    exists l', l = acc ++ l' /\ Chain (fun p => opt (load p)) (fun v => opt (int_value v)) start l'.
  Proof.
    induction n as [|n IH]; intros start acc l H; [discriminate|]. cbn [read_xref_from] in H.
    destruct (load start) as [[x tr]|e] eqn:El; cbn [bind] in H; [|discriminate].
    set (A := match dget tr "XRefStm" with Some v => do pos <- int_value v; read_xref_from load int_value n pos (acc ++ [x]) | None => Ok (acc ++ [x]) end) in *.
    destruct A as [l2|e] eqn:EA; cbn [bind] in H; [|discriminate]. subst A.
    assert (HA : exists l', l2 = (acc ++ [x]) ++ l' /\ ChainOpt (fun p => opt (load p)) (fun v => opt (int_value v)) (dget tr "XRefStm") l').
    { destruct (dget tr "XRefStm") as [v|]; [|injection EA as <-; exists []; split; [rewrite app_nil_r; reflexivity|constructor]].
      destruct (int_value v) as [pos|e] eqn:Ev; cbn [bind] in EA; [|discriminate]. destruct (IH _ _ _ EA) as (l' & -> & HC).
      exists l'. split; [reflexivity|]. apply CO_some with pos; [rewrite Ev; reflexivity|assumption]. }
    destruct HA as (la & -> & HCa).
    assert (HB : exists l', l = ((acc ++ [x]) ++ la) ++ l' /\ ChainOpt (fun p => opt (load p)) (fun v => opt (int_value v)) (dget tr "Prev") l').
    { destruct (dget tr "Prev") as [v|]; [|injection H as <-; exists []; split; [rewrite app_nil_r; reflexivity|constructor]].
      destruct (int_value v) as [pos|e] eqn:Ev; cbn [bind] in H; [|discriminate]. destruct (IH _ _ _ H) as (l' & -> & HC).
      exists l'. split; [reflexivity|]. apply CO_some with pos; [rewrite Ev; reflexivity|assumption]. }
    destruct HB as (lb & -> & HCb). exists (x :: la ++ lb). split; [rewrite <- !app_assoc; reflexivity|].
    apply Chain_at with tr; [rewrite El; reflexivity|assumption|assumption].
  Qed.

  Lemma chain_terminates (Hdec : forall start x tr, load start = Ok (x, tr) -> forall k v pos,
      (k = "XRefStm"%string \/ k = "Prev"%string) -> dget tr k = Some v -> int_value v = Ok pos -> 0 <= pos < start) :
    (forall v, int_value v <> Err OutOfFuel) -> (forall p, load p <> Err OutOfFuel) ->
    forall n start acc, 0 <= start -> (Z.to_nat start < n)%nat -> read_xref_from load int_value n start acc <> Err OutOfFuel.
  Proof.
    intros Hi Hl. induction n as [|n IH]; intros start acc Hs Hn; [lia|]. cbn [read_xref_from].
    destruct (load start) as [[x tr]|e] eqn:El; cbn [bind]; [|intros X0; injection X0 as ->; exact (Hl _ El)].
    assert (K : forall acc', match dget tr "Prev" with Some v => do pos <- int_value v; read_xref_from load int_value n pos acc' | None => Ok acc' end <> Err OutOfFuel).
    { intros acc'. destruct (dget tr "Prev") as [v|] eqn:Ev; [|discriminate]. destruct (int_value v) as [pos|e] eqn:Ep; cbn [bind].
      - destruct (Hdec _ _ _ El "Prev"%string v pos) as [A B]; [right; reflexivity|assumption|assumption|]. apply IH; lia.
      - intros X0; injection X0 as ->; exact (Hi _ Ep). }
    destruct (dget tr "XRefStm") as [v|] eqn:Ev; cbn [bind]; [|apply K]. destruct (int_value v) as [pos|e] eqn:Ep; cbn [bind].
    - destruct (Hdec _ _ _ El "XRefStm"%string v pos) as [A B]; [left; reflexivity|assumption|assumption|].
      pose proof (IH pos (acc ++ [x]) A ltac:(lia)) as H. destruct (read_xref_from load int_value n pos (acc ++ [x])) as [l|e]; cbn [bind]; [apply K|congruence].
    - intros X0; injection X0 as ->; exact (Hi _ Ep).
  Qed.
  Lemma chain_cycle start x tr v : load start = Ok (x, tr) -> dget tr "XRefStm" = None -> dget tr "Prev" = Some v ->
    int_value v = Ok start -> forall n acc, read_xref_from load int_value n start acc = Err OutOfFuel.
  Proof.
    intros H1 H2 H3 H4. induction n as [|n IH]; intros acc; [reflexivity|]. cbn [read_xref_from].
    rewrite H1. cbn [bind]. rewrite H2, H3. cbn [bind]. rewrite H4. apply IH.
  Qed.
End chain.

(* ---------- a table at a position of the file ---------- *)
Lemma xref_token e before c rest : (0 < bufsiz e)%nat -> file e = before ++ bs "xref" ++ c :: rest -> is_end_literal c = true ->
  exists p, nexttoken (seek e (Z.of_nat (length before))) = (Ok (Z.of_nat (length before), KW "xref"), p) /\
    lview (lstate_of p) (c :: rest) (Z.of_nat (length before) + 4).
Proof.
  intros Hb Hf Hc. unfold seek. rewrite Hf, Nat2Z.id, skipn_before by reflexivity.
  destruct (read_chunks_spec (bufsiz e) (bs "xref" ++ c :: rest) Hb) as [E N].
  set (cs := read_chunks (bufsiz e) (bs "xref" ++ c :: rest)) in *. clearbody cs.
  set (P := Z.of_nat (length before)). unfold nexttoken, open_at. cbn [lx Lex_Model.pos buf chunks].
  pose proof (nexttoken_canon (lex_fuel (length (@nil Z) + length (concat cs))) lex0 P [] cs (lex_fuel (length (@nil Z) + length (concat cs))) N) as H.
  cbn [app length Nat.add] in H. specialize (H (measure_fuel _ _) (measure_fuel _ _)). destruct H as [H1 H2].
  cbn [length Nat.add] in *.
  assert (Hrun : exists l', nexttoken_loop (lex_fuel (length (concat cs))) lex0 P (concat cs) [] =
     (Ok (P, KW "xref"), mkParser l' (P + 4) (c :: rest) [])).
  { rewrite E. set (n := length (bs "xref" ++ c :: rest)).
    assert (Hn : exists m, lex_fuel n = S (S m)) by (unfold lex_fuel; exists (3 * n + 1)%nat; lia). destruct Hn as [m ->].
    change (bs "xref" ++ c :: rest) with (120 :: 114 :: 101 :: 102 :: c :: rest). cbn [nexttoken_loop fillbuf].
    unfold parse_func at 1. cbn [lex0 mode_]. unfold parse_main. cbn [span]. change (negb (is_space 120)) with true. cbn iota beta.
    change (120 =? 37) with false. change (120 =? 47) with false. change ((120 =? 45) || (120 =? 43) || is_digit 120) with false.
    change (120 =? 46) with false. change (is_alpha 120) with true. cbn iota. cbv beta iota zeta. cbn [fillbuf].
    unfold parse_func. cbn [mode_]. unfold parse_keyword. cbn [span]. 
    change (is_end_literal 114) with false. change (is_end_literal 101) with false. change (is_end_literal 102) with false. cbn iota. rewrite Hc.
    cbn iota beta. cbn [length]. change (Z.of_nat 0) with 0.
    eexists. replace (P + 4) with (P + Z.of_nat (S (S (S (S (S (length rest))))) - S (S (S (S (length rest))))) + Z.of_nat (S (S (S (S (length rest)))) - S (length rest))) by lia.
    rewrite Z.add_0_r. reflexivity. }
  destruct Hrun as (l' & Hrun). rewrite Hrun in H1, H2. cbn [fst snd] in H1, H2.
  destruct (nexttoken_loop (lex_fuel (length (concat cs))) lex0 P [] cs) as [r p]. cbn [fst snd] in H1, H2. subst r.
  destruct (H2 (P, KW "xref")) as [X|[(V1 & V2 & V3) V4]]; [congruence|]. exists p. split; [reflexivity|].
  cbn [lx Lex_Model.pos buf chunks] in V1, V2, V3. cbn [concat] in V3. rewrite app_nil_r in V3.
  unfold lview, lstate_of. splits; assumption.
Qed.

Lemma load_trailer_lemma e before text rest d ts q1 q x :
  (0 < bufsiz e)%nat -> file e = before ++ text ++ rest -> (forall r, rest <> 62 :: r) ->
  (forall o, (forall i, o <> ORef i) -> resolve e o = o) ->
  LayoutP x (Z.of_nat (length before)) ((q1, KW "trailer") :: ts ++ [(q, KW "startxref")]) text rest ->
  Written true true (ODict d) (map snd ts) ->
  exists n, forall f, load_trailer e (n + f) (Z.of_nat (length before)) = Ok d.
Proof.
  intros Hb Hf Hr Hres HL HW. destruct (seek_at e before (text ++ rest) _ Hb Hf eq_refl) as [N T].
  destruct (layoutP_lemma _ _ _ _ _ HL Hr lex0 eq_refl) as [(ts' & l' & E1 & E2 & E3) _]. rewrite E3 in T.
  inversion E1 as [|[a1 b1] ? ? h1 [H1 _] F1']; subst. cbn [snd] in H1. subst b1.
  apply Forall2_app_inv_r in F1' as (ta & tb & F1 & F2 & ->).
  inversion F2 as [|[q' k] ? ? ? [Hk _] F3]; subst. inversion F3; subst. cbn [snd] in Hk. subst k.
  unfold pre in T. cbn [app] in T. destruct (nexttoken_tokens _ _ _ _ N T) as (p1 & A1 & T1 & N1). rewrite <- app_assoc in T1.
  destruct (pdf_runs e _ _ HW stk0 ta eq_refl (tok_eq_snd _ _ F1)) as (pos & HR).
  destruct (HR _ _ _ N1 T1) as (n & p' & N' & T' & E'). cbn [app] in T'.
  destruct (nexttoken_tokens _ _ _ _ N' T') as (p4 & Hn & T4 & N4).
  exists (n + 1)%nat. intros f. unfold load_trailer. rewrite A1. cbn [KW]. rewrite list_eqb_refl.
  unfold pdf_nextobject. rewrite <- Nat.add_assoc, E'. cbn [Nat.add nextobject]. rewrite Hn, step_startxref. cbn.
  rewrite nextobject_eq. cbn. unfold dict_value. rewrite Hres by discriminate. reflexivity.
Qed.

Lemma load_section_lemma e getdata before nl secs table ttext rest d ts q1 q x :
  (0 < bufsiz e)%nat -> file e = before ++ bs "xref" ++ nl ++ table ++ ttext ++ rest -> (forall r, rest <> 62 :: r) ->
  TextLine (bs "xref") (bs "xref" ++ nl) (table ++ ttext ++ rest) ->
  XTable secs table (ttext ++ rest) ->
  (exists l tail, ttext ++ rest = l ++ tail /\ Line l tail /\ prefixb (bs "trailer") l = true) ->
  (forall o, (forall i, o <> ORef i) -> resolve e o = o) ->
  LayoutP x (Z.of_nat (length (before ++ bs "xref" ++ nl ++ table))) ((q1, KW "trailer") :: ts ++ [(q, KW "startxref")]) ttext rest ->
  Written true true (ODict d) (map snd ts) ->
  exists n, forall f, load_section e getdata (n + f) (Z.of_nat (length before)) = Ok (STable (add_sections [] secs), d).
Proof.
  intros Hb Hf Hr HNL HT (tl & tail & Etl & Htl & Hpf) Hres HL HW.
  assert (Hnl : exists c u, nl = c :: u /\ is_end_literal c = true /\ Line nl (table ++ ttext ++ rest)).
  { destruct HNL as (sp & m & Em & Hsp & Hm & Hm2). apply app_inv_head in Em. subst nl.
    assert (HLn : Line (sp ++ m) (table ++ ttext ++ rest)).
    { apply (textline_line [] _ _); [|constructor]. exists sp, m. splits; try assumption. reflexivity. }
    destruct Hsp as [|c sp Hc Hsp].
    - destruct Hm; (eexists; eexists; splits; [reflexivity|reflexivity|exact HLn]).
    - exists c, (sp ++ m). splits; [reflexivity| |exact HLn]. destruct Hc as [->| ->]; reflexivity. }
  destruct Hnl as (c & u & -> & Hc & HLn).
  destruct (xref_token e before c (u ++ table ++ ttext ++ rest) Hb Hf Hc) as (p & Hp & Vp).
  change (c :: u ++ table ++ ttext ++ rest) with ((c :: u) ++ table ++ ttext ++ rest) in Vp.
  destruct (lnext_lemma _ _ _ _ Vp HLn) as (st1 & E1 & V1).
  destruct (xt_load_lemma secs table (ttext ++ rest) HT tail tl st1 [] _ Etl Htl Hpf V1) as (n1 & HX).
  assert (Hf2 : file e = (before ++ bs "xref" ++ (c :: u) ++ table) ++ ttext ++ rest) by (rewrite Hf, <- !app_assoc; reflexivity).
  destruct (load_trailer_lemma e _ ttext rest d ts q1 q x Hb Hf2 Hr Hres HL HW) as (n2 & HX2).
  exists (n1 + n2)%nat. intros f. unfold load_section. replace (Z.of_nat (length before) <? 0) with false by lia.
  rewrite Hp. cbn [KW]. rewrite list_eqb_refl, E1. cbn [bind]. unfold xt_load_table.
  rewrite <- Nat.add_assoc, HX. cbn [bind].
  replace (Z.of_nat (length before) + 4 + Z.of_nat (length (c :: u)) + Z.of_nat (length table)) with (Z.of_nat (length (before ++ bs "xref" ++ (c :: u) ++ table))).
  2:{ rewrite !app_length. change (length (bs "xref")) with 4%nat. lia. }
  replace (n1 + (n2 + f))%nat with (n2 + (n1 + f))%nat by lia. rewrite HX2. reflexivity.
Qed.

(* ---------- a stream object ---------- *)
Lemma first_after_white g p r : Forall white g -> (exists x p', p = x :: p' /\ ~ white x) -> FirstAt p (length g) (g ++ p ++ r).
Proof.
  intros Hg (x & p' & -> & Hx). split; [|split].
  - exists r. rewrite firstn_app, firstn_all, Nat.sub_diag. cbn [firstn]. rewrite app_nil_r. reflexivity.
  - rewrite app_length. lia.
  - intros a b Hab. destruct (Nat.le_gt_cases (length g) (length a)) as [|Hlt]; [assumption|exfalso].
    assert (Hn : nth_error (g ++ (x :: p') ++ r) (length a) = Some x).
    { rewrite Hab, nth_error_app2, Nat.sub_diag by lia. reflexivity. }
    rewrite nth_error_app1 in Hn by assumption. apply nth_error_In in Hn. rewrite Forall_forall in Hg. exact (Hx (Hg _ Hn)).
Qed.

Lemma parse_stream_lemma e before text nl data T k g2 rest i g d ts q1 q2 q3 :
  (0 < bufsiz e)%nat -> newline nl ->
  file e = before ++ text ++ bs "stream" ++ nl ++ data ++ T ->
  LayoutP false (Z.of_nat (length before)) (header i g q1 q2 q3 ++ ts) text (bs "stream" ++ nl ++ data ++ T) ->
  Written true true (ODict d) (map snd ts) -> resolve e (ODict d) = ODict d ->
  (if fallback e then data = [] else exists v, dget d "Length" = Some v /\ resolve e v = OInt (Z.of_nat (length data))) ->
  FirstAt (bs "endstream") k T -> ~ unfinished_line (skipn k T) ->
  skipn k T = bs "endstream" ++ g2 ++ bs "endobj" ++ rest -> Sep g2 -> g2 <> [] -> (exists c r, rest = c :: r /\ (white c \/ delim c)) ->
  exists n, forall f, getobj_parse e (n + f) (Z.of_nat (length before)) i = Ok (OStream d (if fallback e then firstn k T else data)).
Proof.
  intros Hb Hnl Hf HL HW Hd Hlen HF HU HT Hg2 Hg2n Hrest.
  destruct (header_tokens e before text (bs "stream" ++ nl ++ data ++ T) i g q1 q2 q3 ts false Hb Hf ltac:(discriminate) HL)
    as (p1 & p2 & p3 & t1 & t2 & t3 & ts' & l' & A1 & A2 & A3 & N & F & Hl & Tk).
  destruct (spell_lemma _ _ _ stream_spell false l' (Z.of_nat (length (before ++ text))) (nl ++ data ++ T)) as (l2 & Hl2 & E4);
    [destruct Hnl as [->| ->]; cbn [follows app]; eexists; eexists; (split; [reflexivity|left; unfold white; lia])|assumption|].
  rewrite E4 in Tk. unfold pre in Tk. cbn [pre fst snd app] in Tk.
  assert (Hf2 : file e = (before ++ text) ++ bs "stream" ++ nl ++ data ++ T) by (rewrite Hf, <- app_assoc; reflexivity).
  rewrite <- (tok_eq_snd _ _ F) in HW.
  destruct (stream_from e _ ts' _ _ (before ++ text) d nl data T k g2 rest Hb Hnl Hf2 N Tk HW Hd Hlen HF HU HT Hg2 Hg2n Hrest) as (n & p & s & H).
  exists n. intros f. rewrite (getobj_parse_ok e _ _ i p1 p2 p3 t1 t2 t3 g (Nat2Z.is_nonneg _) A1 A2 A3), H. reflexivity.
Qed.

(* ---------- lookup as a search for the newest readable entry ---------- *)
Definition read_at (D : docdata) (f : nat) (id : Z) (p : pos3) : res obj := fst (read_entry D false (getobj D false f) f id p dstate0).
Lemma look_unfold D f i : i <> 0 -> d_xrefs D <> [] ->
  look D (S f) i = fst (try_xrefs D false (getobj D false f) f i (d_xrefs D) dstate0).
Proof.
  intros Hi Hx. unfold look. cbn [getobj]. replace (i =? 0) with false by lia. destruct (d_xrefs D) as [|x xs]; [contradiction|].
  cbn [dstate0 ds_objs zget]. fold dstate0. destruct (try_xrefs _ _ _ _ _ _ dstate0) as [[o|e] s]; reflexivity.
Qed.
Lemma try_cons D f i x xs : fst (try_xrefs D false (getobj D false f) f i (x :: xs) dstate0) =
  match x i with
  | Err KeyError => fst (try_xrefs D false (getobj D false f) f i xs dstate0)
  | Err e => Err e
  | Ok p => match read_at D f i p with
            | Err PSEOF | Err PDFSyntaxError => fst (try_xrefs D false (getobj D false f) f i xs dstate0)
            | r => r
            end
  end.
Proof.
  cbn [try_xrefs]. destruct (x i) as [p|[]]; try reflexivity. unfold read_at.
  pose proof (read_state D (getobj D false f) f i p (getobj_state D f) dstate0) as H.
  destruct (read_entry D false (getobj D false f) f i p dstate0) as [o s']. cbn [snd fst] in *. subst s'.
  destruct o as [o|[]]; reflexivity.
Qed.
