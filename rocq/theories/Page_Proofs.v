From Coq Require Import String.
From Verif Require Import Base Obj Stream_Model Stream_Spec Stream_Props Num Geom_Model Page_Model Page_Spec.
From Coq Require Import ZifyBool ZifyNat.

Lemma inheritable_name k : inheritable (OName k) = Inheritable k.
Proof. unfold inheritable, Inheritable, ON. cbn [existsb key_eqb]. reflexivity. Qed.
Lemma key_name k0 k : key_eqb k0 (OName k) = true -> k0 = OName k.
Proof. destruct k0; cbn; try discriminate. intros H. apply list_eqb_eq in H. congruence. Qed.
Lemma inherit_get parent k : forall tree, dict_get (inherit tree parent) (OName k) =
  match dict_get tree (OName k) with Some v => Some v | None => if Inheritable k then dict_get parent (OName k) else None end.
Proof.
  unfold inherit. induction parent as [|[k0 v0] parent IH]; intros tree; cbn [fold_left fst snd].
  - cbn [dict_get]. destruct (dict_get tree (OName k)), (Inheritable k); reflexivity.
  - rewrite IH. cbn [dict_get]. destruct (key_eqb k0 (OName k)) eqn:E.
    + pose proof (key_name _ _ E). subst k0. rewrite inheritable_name. unfold has_key.
      destruct (dict_get tree (OName k)) as [v|] eqn:Eg; cbn [negb].
      * rewrite andb_false_r, Eg. reflexivity.
      * rewrite andb_true_r. destruct (Inheritable k) eqn:Ei; [rewrite dict_get_set_same by exact E; reflexivity|rewrite Eg; reflexivity].
    + destruct (inheritable k0 && negb (has_key tree k0)); [rewrite dict_get_set_other by exact E|]; reflexivity.
Qed.

Section p.
  Context (getobj : Z -> option obj).
  Lemma leads_resolved o v : Leads getobj ONull o v -> exists n, forall d, (n <= d)%nat -> resolved getobj d o = Ok v.
  Proof.
    intros H. apply C59_resolve1 in H as [n H]. exists n. intros d Hd. unfold resolved. replace d with (n + (d - n))%nat by lia. rewrite H. reflexivity.
  Qed.

  Lemma search_node f d i a kids ko parent anc : getobj i = Some (ODict a) -> dget a "Type" = Some (ON "Pages") ->
    dget a "Kids" = Some ko -> resolved getobj d ko = Ok (OArr kids) -> (1 < d)%nat -> 
    (forall k, Inheritable k = true -> dict_get parent (OName k) = attr anc k) ->
    (forall k, dict_get (inherit a parent) (OName k) = attr (a :: anc) k) /\
    search getobj d (S f) (ORef i) parent = gflat (fun c => search getobj d f c (inherit a parent)) kids.
  Proof.
    intros G HT HK HR Hd HP. split.
    - intros k. rewrite inherit_get. cbn [attr]. destruct (dict_get a (OName k)); [reflexivity|]. destruct (Inheritable k) eqn:E; [apply HP; exact E|reflexivity].
    - destruct d as [|[|d]]; [lia|lia|]. cbn [search]. unfold dict_value, resolved. cbn [resolve1]. unfold ref_resolve. rewrite G. cbn [bind].
      assert (ET : tree_type (inherit a parent) = Some (ON "Pages")).
      { unfold tree_type, dget, ON. rewrite inherit_get. unfold dget, ON in HT. rewrite HT. reflexivity. }
      assert (EK : dict_get (inherit a parent) (ON "Kids") = Some ko).
      { unfold ON. rewrite inherit_get. unfold dget, ON in HK. rewrite HK. reflexivity. }
      rewrite ET. cbn [is_name ON]. rewrite list_eqb_refl. unfold has_key. rewrite EK. cbn [andb]. unfold dget. rewrite EK.
      unfold list_value. rewrite HR. reflexivity.
  Qed.
  Lemma search_leaf f d i a parent anc : getobj i = Some (ODict a) -> dget a "Type" = Some (ON "Page") -> (1 < d)%nat ->
    (forall k, Inheritable k = true -> dict_get parent (OName k) = attr anc k) ->
    (forall k, dict_get (inherit a parent) (OName k) = attr (a :: anc) k) /\
    search getobj d (S f) (ORef i) parent = ([(i, inherit a parent)], None).
  Proof.
    intros G HT Hd HP. split.
    - intros k. rewrite inherit_get. cbn [attr]. destruct (dict_get a (OName k)); [reflexivity|]. destruct (Inheritable k) eqn:E; [apply HP; exact E|reflexivity].
    - destruct d as [|[|d]]; [lia|lia|]. cbn [search]. unfold dict_value, resolved. cbn [resolve1]. unfold ref_resolve. rewrite G. cbn [bind].
      assert (ET : tree_type (inherit a parent) = Some (ON "Page")).
      { unfold tree_type, dget, ON. rewrite inherit_get. unfold dget, ON in HT. rewrite HT. reflexivity. }
      rewrite ET. reflexivity.
  Qed.

  Definition Found (lp : Z * list dict) (it : Z * dict) : Prop :=
    fst it = fst lp /\ forall k, dict_get (snd it) (OName k) = attr (snd lp) k.
  Lemma Forall2_app2 {A B} (R : A -> B -> Prop) a b c d : Forall2 R a b -> Forall2 R c d -> Forall2 R (a ++ c) (b ++ d).
  Proof. induction 1; intros; cbn; [assumption|constructor; auto]. Qed.
  Scheme Stored_mut := Induction for Stored Sort Prop with StoredL_mut := Induction for StoredL Sort Prop.
  Lemma search_lemma t : Stored getobj t -> forall parent anc, (forall k, Inheritable k = true -> dict_get parent (OName k) = attr anc k) ->
    exists n l, (forall f d, (n <= f)%nat -> (n <= d)%nat -> search getobj d f (ORef (id_of t)) parent = (l, None)) /\ Forall2 Found (leaves anc t) l.
  Proof.
    intros H. induction H as [i a G HT|i a kids ko G HT HK HL HS IH| |t r H1 IH1 H2 IH2] using Stored_mut with
     (P0 := fun kids _ => forall parent anc, (forall k, Inheritable k = true -> dict_get parent (OName k) = attr anc k) ->
        exists n l, (forall f d, (n <= f)%nat -> (n <= d)%nat -> gflat (fun c => search getobj d f c parent) (map (fun t => ORef (id_of t)) kids) = (l, None)) /\
          Forall2 Found (flat_map (leaves anc) kids) l).
    - intros parent anc HP. exists 2%nat, [(i, inherit a parent)]. split.
      + intros f d Hf Hd. destruct f as [|f]; [lia|]. apply (search_leaf f d i a parent anc G HT); [lia|assumption].
      + cbn [leaves]. constructor; [|constructor]. split; [reflexivity|]. cbn [snd]. apply (search_leaf 0 2 i a parent anc G HT); [lia|assumption].
    - intros parent anc HP. destruct (leads_resolved _ _ HL) as [m Hm].
      assert (A : forall k, dict_get (inherit a parent) (OName k) = attr (a :: anc) k) by (apply (search_node 0 (S (S m)) i a (map (fun t => ORef (id_of t)) kids) ko parent anc G HT HK); [apply Hm; lia|lia|assumption]).
      destruct (IH (inherit a parent) (a :: anc) (fun k _ => A k)) as (n & l & E & HF).
      exists (S (S (n + m))), l. split; [|exact HF]. intros f d Hf Hd. destruct f as [|f]; [lia|]. cbn [id_of].
      rewrite (proj2 (search_node f d i a (map (fun t => ORef (id_of t)) kids) ko parent anc G HT HK (Hm d ltac:(lia)) ltac:(lia) HP)).
      apply E; lia.
    - intros parent anc HP. exists 0%nat, []. split; [reflexivity|constructor].
    - intros parent anc HP. destruct (IH1 parent anc HP) as (n1 & l1 & E1 & F1), (IH2 parent anc HP) as (n2 & l2 & E2 & F2).
      exists (n1 + n2)%nat, (l1 ++ l2). split.
      + intros f d Hf Hd. cbn [map gflat]. rewrite E1 by lia. rewrite E2 by lia. reflexivity.
      + cbn [flat_map]. apply Forall2_app2; assumption.
  Qed.

  (* what a page object must say about a leaf *)
  Definition PageOf (lp : Z * list dict) (p : page) : Prop :=
    pg_id p = fst lp /\
    (forall k, dict_get (pg_attrs p) (OName k) = attr (snd lp) k) /\
    Value getobj (snd lp) (bs "Resources") (ODict []) (pg_resources p) /\
    (exists o, attr (snd lp) (bs "MediaBox") = Some o /\ Leads getobj ONull o (pg_mediabox p)) /\
    Value getobj (snd lp) (bs "CropBox") (pg_mediabox p) (pg_cropbox p) /\
    (exists r, Value getobj (snd lp) (bs "Rotate") (OInt 0) r /\
       pg_rotate p = (match r with OInt z => z | OBool true => 1 | _ => 0 end) mod 360) /\
    (exists c, Value getobj (snd lp) (bs "Contents") (OArr []) c /\ pg_contents p = match c with OArr l => l | o => [o] end).
  (* the page says where its sheet is, and no attribute is a chain of references without end *)
  Definition Usable (lp : Z * list dict) : Prop :=
    attr (snd lp) (bs "MediaBox") <> None /\ (forall k o, attr (snd lp) k = Some o -> exists v, Leads getobj ONull o v).
  Lemma opt_resolved path k default : (forall k o, attr path k = Some o -> exists v, Leads getobj ONull o v) ->
    (forall i, default <> ORef i) ->
    exists n v, Value getobj path k default v /\ forall d, (n <= d)%nat -> resolved getobj d (match attr path k with Some x => x | None => default end) = Ok v.
  Proof.
    intros HU Hdef. unfold Value. destruct (attr path k) as [o|] eqn:E.
    - destruct (HU k o E) as [v Hv]. destruct (leads_resolved _ _ Hv) as [n Hn]. exists n, v. split; assumption.
    - exists 1%nat, default. split; [reflexivity|]. intros [|d] Hd; [lia|]. unfold resolved. cbn. destruct default; try reflexivity. exfalso. eapply Hdef. reflexivity.
  Qed.
  Lemma make_page_lemma lp it : Found lp it -> Usable lp ->
    exists n p, (forall d, (n <= d)%nat -> make_page getobj d it = Ok p) /\ PageOf lp p.
  Proof.
    destruct lp as [i path], it as [i' tree]. intros [E1 E2] [HM HU]. cbn [fst snd] in *. subst i'.
    destruct (opt_resolved path (bs "LastModified") ONull HU) as (n0 & v0 & V0 & R0); [discriminate|].
    destruct (opt_resolved path (bs "Resources") (ODict []) HU) as (n1 & v1 & V1 & R1); [discriminate|].
    destruct (attr path (bs "MediaBox")) as [mo|] eqn:EM; [|contradiction]. destruct (HU _ _ EM) as [mb HL]. destruct (leads_resolved _ _ HL) as [n2 R2].
    assert (C : exists n3 v3, Value getobj path (bs "CropBox") mb v3 /\
       forall d, (n3 <= d)%nat -> (match attr path (bs "CropBox") with Some x => resolved getobj d x | None => Ok mb end) = Ok v3).
    { unfold Value. destruct (attr path (bs "CropBox")) as [o|] eqn:E; [|exists 0%nat, mb; split; reflexivity].
      destruct (HU _ _ E) as [v Hv]. destruct (leads_resolved _ _ Hv) as [n Hn]. exists n, v. split; assumption. }
    destruct C as (n3 & v3 & V3 & R3).
    destruct (opt_resolved path (bs "Rotate") (OInt 0) HU) as (n4 & v4 & V4 & R4); [discriminate|].
    assert (C : exists n5 v5, Value getobj path (bs "Contents") (OArr []) v5 /\
       forall d, (n5 <= d)%nat -> (match attr path (bs "Contents") with Some x => resolved getobj d x | None => Ok (OArr []) end) = Ok v5).
    { unfold Value. destruct (attr path (bs "Contents")) as [o|] eqn:E; [|exists 0%nat, (OArr []); split; reflexivity].
      destruct (HU _ _ E) as [v Hv]. destruct (leads_resolved _ _ Hv) as [n Hn]. exists n, v. split; assumption. }
    destruct C as (n5 & v5 & V5 & R5).
    exists (n0 + n1 + n2 + n3 + n4 + n5)%nat.
    exists (mkPage i tree v1 mb v3 (((match v4 with OInt z => z | OBool true => 1 | _ => 0 end) + 360) mod 360) (match v5 with OArr l => l | o => [o] end)). split.
    - intros d Hd. unfold make_page, dget, ON. rewrite !E2. rewrite R0 by lia. cbn [bind]. rewrite R1 by lia. cbn [bind]. rewrite EM, R2 by lia. cbn [bind].
      rewrite R3 by lia. cbn [bind].
      assert (EI : int_value getobj d match attr path (bs "Rotate") with Some x => x | None => OInt 0 end = Ok (match v4 with OInt z => z | OBool true => 1 | _ => 0 end)).
      { specialize (R4 d ltac:(lia)). unfold resolved in R4. unfold int_value. destruct (resolve1 getobj d ONull _) as [x|]; [|discriminate]. injection R4 as ->. destruct v4 as [|[]| | | | | | | | |]; reflexivity. }
      rewrite EI. cbn [bind]. rewrite R5 by lia. reflexivity.
    - unfold PageOf. cbn [fst snd pg_id pg_attrs pg_resources pg_mediabox pg_cropbox pg_rotate pg_contents]. split; [reflexivity|]. split; [exact E2|]. split; [exact V1|].
      split; [exists mo; split; [exact EM|exact HL]|]. split; [exact V3|]. split.
      + exists v4. split; [exact V4|]. rewrite Z.add_mod, Z.mod_same, Z.add_0_r, Z.mod_mod by lia. reflexivity.
      + exists v5. split; [exact V5|reflexivity].
  Qed.
  Lemma make_pages_lemma lps its : Forall2 Found lps its -> Forall Usable lps ->
    exists n ps, (forall d, (n <= d)%nat -> gmap_list (make_page getobj d) its = (ps, None)) /\ Forall2 PageOf lps ps.
  Proof.
    induction 1 as [|lp it lps its H1 H2 IH]; intros HU.
    - exists 0%nat, []. split; [reflexivity|constructor].
    - inversion HU as [|? ? U1 U2]; subst. destruct (IH U2) as (n & ps & E & F). destruct (make_page_lemma _ _ H1 U1) as (m & p & Em & Fm).
      exists (n + m)%nat, (p :: ps). split; [|constructor; assumption]. intros d Hd. cbn [gmap_list]. rewrite Em by lia. rewrite E by lia. reflexivity.
  Qed.
End p.
