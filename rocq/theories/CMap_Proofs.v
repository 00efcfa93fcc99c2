From Coq Require Import String.
From Verif Require Import Base Lex_Model Lex_Chunk Lex_Spec Lex_Proofs PNG_Model PNG_Spec PNG_Proofs Obj Stack_Model Stack_Spec Stack_Proofs Geom_Model CMap_Model CMap_Spec.
From Coq Require Import ZifyBool ZifyNat.

(* ---------- code maps ---------- *)
Fixpoint tlook (t : trie) (p : list Z) : option trie :=
  match p with
  | [] => Some t
  | c :: r => match t with Node d => match tget d c with Some t' => tlook t' r | None => None end | Leaf _ => None end
  end.
Inductive kd := KLeaf (v : Z) | KNode | KNone.
Definition kindof (d : list (Z * trie)) (p : list Z) : kd :=
  match tlook (Node d) p with Some (Leaf v) => KLeaf v | Some (Node _) => KNode | None => KNone end.

Lemma tget_tset d k v k' : tget (tset d k v) k' = if k =? k' then Some v else tget d k'.
Proof.
  induction d as [|[a w] d IH]; cbn [tset tget]; [reflexivity|].
  destruct (Z.eqb_spec a k) as [->|Hn]; cbn [tget].
  - destruct (k =? k'); reflexivity.
  - rewrite IH. destruct (Z.eqb_spec a k'), (Z.eqb_spec k k'); congruence || reflexivity.
Qed.

Lemma tlook_app t p q : tlook t (p ++ q) = match tlook t p with Some t' => tlook t' q | None => None end.
Proof.
  revert t; induction p as [|c p IH]; intros t; cbn [app tlook]; [reflexivity|].
  destruct t as [v|d]; [reflexivity|]. destruct (tget d c); [apply IH|reflexivity].
Qed.

Lemma prefix_nil p : Prefix p [] -> p = [].
Proof. intros [r H]. destruct p; [reflexivity|discriminate]. Qed.
Lemma prefix_cons c p c' code : Prefix (c :: p) (c' :: code) <-> c = c' /\ Prefix p code.
Proof.
  split; [intros [r H]; injection H as -> ->; split; [reflexivity|exists r; reflexivity]|].
  intros [-> [r ->]]. exists r. reflexivity.
Qed.

Lemma add_lemma code : forall d cid, code <> [] ->
  (forall p, p <> [] -> Prefix p code -> p <> code -> kindof d p = KNode \/ kindof d p = KNone) ->
  kindof d code <> KNode ->
  exists d', add_code2cid d code cid = Ok d' /\
    forall p, p <> [] -> (p = code -> kindof d' p = KLeaf cid) /\
      (Prefix p code -> p <> code -> kindof d' p = KNode) /\
      (~ Prefix p code -> kindof d' p = kindof d p).
Proof.
  induction code as [|c code IH]; intros d cid Hne Hpre Hnode; [congruence|].
  destruct code as [|c2 code].
  - exists (tset d c (Leaf cid)). split; [reflexivity|]. intros p Hp. destruct p as [|a p]; [congruence|].
    unfold kindof in *. cbn [tlook]. rewrite tget_tset. splits.
    + intros E. injection E as -> ->. rewrite Z.eqb_refl. reflexivity.
    + intros Hpr Hn. apply prefix_cons in Hpr as [-> Hpr]. apply prefix_nil in Hpr. subst. congruence.
    + intros Hn. destruct (Z.eqb_spec c a) as [->|]; [|reflexivity].
      destruct p as [|b p]; [exfalso; apply Hn; exists []; reflexivity|]. cbn [tlook].
      cbn [tlook] in Hnode. destruct (tget d a) as [[v|d']|]; [reflexivity|congruence|reflexivity].
  - cbn [add_code2cid].
    assert (Hc : kindof d [c] = KNode \/ kindof d [c] = KNone).
    { apply Hpre; [discriminate|exists (c2 :: code); reflexivity|discriminate]. }
    assert (Hgo : forall d0, (tget d c = Some (Node d0) \/ (tget d c = None /\ d0 = [])) ->
      exists d', (do d2 <- add_code2cid d0 (c2 :: code) cid; Ok (tset d c (Node d2))) = Ok d' /\
      forall p, p <> [] -> (p = c :: c2 :: code -> kindof d' p = KLeaf cid) /\
      (Prefix p (c :: c2 :: code) -> p <> c :: c2 :: code -> kindof d' p = KNode) /\
      (~ Prefix p (c :: c2 :: code) -> kindof d' p = kindof d p)).
    { intros d0 Hd0.
      assert (Hk : forall p, p <> [] -> kindof d0 p = kindof d (c :: p)).
      { intros p Hp. unfold kindof. cbn [tlook]. destruct Hd0 as [->|[-> ->]]; [reflexivity|]. destruct p; [congruence|reflexivity]. }
      destruct (IH d0 cid ltac:(discriminate)) as (d' & E & Hd').
      { intros p Hp Hpr Hn. rewrite Hk by assumption. apply Hpre; [discriminate|apply prefix_cons; split; [reflexivity|assumption]|congruence]. }
      { rewrite Hk by discriminate. assumption. }
      exists (tset d c (Node d')). rewrite E. split; [reflexivity|]. intros p Hp. destruct p as [|a p]; [congruence|].
      assert (Hs : kindof (tset d c (Node d')) (a :: p) = if c =? a then kindof d' p else kindof d (a :: p)).
      { unfold kindof. cbn [tlook]. rewrite tget_tset. destruct (c =? a); reflexivity. }
      rewrite Hs. destruct (Z.eqb_spec c a) as [<-|Hca].
      - destruct p as [|b p].
        + splits; [discriminate| |].
          * intros _ _. reflexivity.
          * intros Hn. exfalso. apply Hn. exists (c2 :: code). reflexivity.
        + destruct (Hd' (b :: p) ltac:(discriminate)) as (H1 & H2 & H3). splits.
          * intros E'. injection E' as E1 E2. apply H1. congruence.
          * intros Hpr Hn. apply prefix_cons in Hpr as [_ Hpr]. apply H2; [assumption|congruence].
          * intros Hn. rewrite H3; [apply Hk; discriminate|]. intros Hpr. apply Hn. apply prefix_cons. split; [reflexivity|assumption].
      - splits; [congruence| |reflexivity]. intros Hpr. apply prefix_cons in Hpr as [-> _]. congruence. }
    unfold kindof in Hc. cbn [tlook] in Hc. destruct (tget d c) as [[v|d0]|] eqn:E.
    + destruct Hc; discriminate.
    + apply (Hgo d0). left. reflexivity.
    + apply (Hgo []). right. split; reflexivity.
Qed.

(* a dictionary with exactly the codes of m *)
Definition Rep (d : list (Z * trie)) (m : list (list Z * Z)) : Prop :=
  forall p, p <> [] ->
    (forall v, kindof d p = KLeaf v <-> In (p, v) m) /\ (kindof d p = KNode <-> Begins m p).

Fixpoint add_codes (d : list (Z * trie)) (m : list (list Z * Z)) : res (list (Z * trie)) :=
  match m with [] => Ok d | (c, v) :: r => do d' <- add_code2cid d c v; add_codes d' r end.

Lemma rep_nil : Rep [] [].
Proof.
  intros p Hp. destruct p as [|c p]; [congruence|]. unfold kindof. cbn. split; [intros v; split; [discriminate|intros []]|].
  split; [discriminate|]. intros (c' & v & [] & _).
Qed.

Lemma prefix_dec p c : {Prefix p c} + {~ Prefix p c}.
Proof.
  revert c; induction p as [|a p IH]; intros c; [left; exists c; reflexivity|].
  destruct c as [|b c]; [right; intros H; apply prefix_nil in H; discriminate|].
  destruct (Z.eq_dec a b) as [->|Hn]; [|right; intros H; apply prefix_cons in H; tauto].
  destruct (IH c) as [H|H]; [left; apply prefix_cons; tauto|right; intros H'; apply prefix_cons in H'; tauto].
Qed.

Lemma prefix_refl c : Prefix c c. Proof. exists []. symmetry; apply app_nil_r. Qed.
Lemma prefix_trans a b c : Prefix a b -> Prefix b c -> Prefix a c.
Proof. intros [r ->] [q ->]. exists (r ++ q). rewrite app_assoc. reflexivity. Qed.
Lemma prefix_anti a b : Prefix a b -> Prefix b a -> a = b.
Proof.
  intros [r ->] [q H]. rewrite <- app_assoc in H. rewrite <- (app_nil_r a) in H at 1. apply app_inv_head in H.
  symmetry in H. apply app_eq_nil in H as [-> _]. rewrite app_nil_r. reflexivity.
Qed.

Lemma rep_add d m c v : Rep d m -> prefix_free (m ++ [(c, v)]) ->
  exists d', add_code2cid d c v = Ok d' /\ Rep d' (m ++ [(c, v)]).
Proof.
  intros HR [Hne Hpf].
  assert (Hc : c <> []) by (apply (Hne c v); apply in_or_app; right; left; reflexivity).
  assert (Hin : In (c, v) (m ++ [(c, v)])) by (apply in_or_app; right; left; reflexivity).
  destruct (add_lemma c d v Hc) as (d' & E & Hd').
  - intros p Hp Hpr Hn. destruct (kindof d p) as [w| |] eqn:Ek; [|left; reflexivity|right; reflexivity].
    apply (HR p Hp) in Ek. destruct (Hpf p w c v (in_or_app _ _ _ (or_introl Ek)) Hin Hpr). contradiction.
  - intros Ek. apply (HR c Hc) in Ek as (c' & v' & Hi & Hpr & Hn).
    destruct (Hpf c v c' v' Hin (in_or_app _ _ _ (or_introl Hi)) Hpr). contradiction.
  - exists d'. split; [exact E|]. intros p Hp. destruct (Hd' p Hp) as (H1 & H2 & H3). destruct (HR p Hp) as (R1 & R2). split.
    + intros w. destruct (prefix_dec p c) as [Hpr|Hpr].
      * destruct (list_eq_dec Z.eq_dec p c) as [->|Hn].
        -- rewrite H1 by reflexivity. split; [intros Eq; injection Eq as <-; exact Hin|].
           intros Hi. destruct (Hpf c w c v Hi Hin (prefix_refl c)). congruence.
        -- rewrite H2 by assumption. split; [discriminate|]. intros Hi. destruct (Hpf p w c v Hi Hin Hpr). contradiction.
      * rewrite H3 by assumption. rewrite R1, in_app_iff. split; [tauto|]. intros [Hi|[Hi|[]]]; [exact Hi|].
        injection Hi as -> ->. exfalso. apply Hpr, prefix_refl.
    + unfold Begins in *. destruct (prefix_dec p c) as [Hpr|Hpr].
      * destruct (list_eq_dec Z.eq_dec p c) as [->|Hn].
        -- rewrite H1 by reflexivity. split; [discriminate|]. intros (c' & v' & Hi & Hp' & Hn').
           destruct (Hpf c v c' v' Hin Hi Hp'). contradiction.
        -- rewrite H2 by assumption. split; [|reflexivity]. intros _. exists c, v. tauto.
      * rewrite H3 by assumption. rewrite R2. split; intros (c' & v' & Hi & Hp' & Hn').
        -- exists c', v'. rewrite in_app_iff. tauto.
        -- apply in_app_or in Hi as [Hi|[Hi|[]]]; [exists c', v'; tauto|]. injection Hi as -> ->. contradiction.
Qed.

Lemma prefix_free_app m l : prefix_free (m ++ l) -> prefix_free m.
Proof.
  intros [H1 H2]. split.
  - intros c v Hi. apply (H1 c v). apply in_or_app. left. exact Hi.
  - intros c v c' v' Hi Hi'. apply (H2 c v c' v'); apply in_or_app; left; assumption.
Qed.

Lemma rep_adds l : forall m d, Rep d m -> prefix_free (m ++ l) -> exists d', add_codes d l = Ok d' /\ Rep d' (m ++ l).
Proof.
  induction l as [|[c v] l IH]; intros m d HR Hp; cbn [add_codes].
  - exists d. rewrite app_nil_r. split; [reflexivity|exact HR].
  - change ((c, v) :: l) with ([(c, v)] ++ l) in Hp. rewrite app_assoc in Hp.
    destruct (rep_add d m c v HR (prefix_free_app _ _ Hp)) as (d1 & -> & R1). cbn [bind].
    destruct (IH (m ++ [(c, v)]) d1 R1 Hp) as (d2 & E2 & R2). exists d2. rewrite <- app_assoc in R2. split; assumption.
Qed.

(* decoding cuts the text *)
Lemma kindof_node d p : kindof d p = KNode <-> exists d', tlook (Node d) p = Some (Node d').
Proof. unfold kindof. destruct (tlook (Node d) p) as [[v|d']|]; split; try discriminate; try (intros [? ?]; discriminate); eauto. Qed.

Lemma decode_seg root m : Rep root m -> forall code p d,
  tlook (Node root) p = Some (Node d) -> Seg m (p ++ code) (cmap_decode root d code).
Proof.
  intros HR. induction code as [|i r IH]; intros p d Hd; cbn [cmap_decode].
  - rewrite app_nil_r. apply Seg_end. destruct p as [|c p]; [left; reflexivity|right].
    apply (HR (c :: p)); [discriminate|]. apply kindof_node. eauto.
  - assert (Hb : p = [] \/ Begins m p).
    { destruct p as [|c p]; [left; reflexivity|right]. apply (HR (c :: p)); [discriminate|]. apply kindof_node. eauto. }
    assert (Hl : tlook (Node root) (p ++ [i]) = tget d i).
    { rewrite tlook_app, Hd. cbn. destruct (tget d i); reflexivity. }
    assert (Hpi : p ++ [i] <> []) by (destruct p; discriminate). destruct (HR (p ++ [i]) Hpi) as [R1 R2].
    unfold kindof in R1, R2. rewrite Hl in R1, R2.
    destruct (tget d i) as [[v|d']|] eqn:E.
    + replace (p ++ i :: r) with ((p ++ [i]) ++ r) by (rewrite <- app_assoc; reflexivity).
      apply Seg_code; [apply R1; reflexivity|]. apply (IH [] root). reflexivity.
    + replace (p ++ i :: r) with ((p ++ [i]) ++ r) by (rewrite <- app_assoc; reflexivity). apply IH. exact Hl.
    + apply Seg_bad; [exact Hb| |apply (IH [] root); reflexivity].
      intros c v Hi Hpr. destruct (list_eq_dec Z.eq_dec (p ++ [i]) c) as [<-|Hn].
      * apply R1 in Hi. discriminate.
      * assert (X : KNone = KNode) by (apply R2; exists c, v; tauto). discriminate.
Qed.

Lemma decode_path root : forall p t d rest, tlook (Node t) p = Some (Node d) ->
  cmap_decode root t (p ++ rest) = cmap_decode root d rest.
Proof.
  induction p as [|c p IH]; intros t d rest H; cbn [tlook] in H; [injection H as ->; reflexivity|].
  cbn [app cmap_decode]. destruct (tget t c) as [[v|d']|]; [destruct p; discriminate|apply IH; exact H|discriminate].
Qed.

Lemma seg_decode root m : Rep root m -> (forall c v, In (c, v) m -> c <> []) -> forall code out, Seg m code out -> out = cmap_decode root root code.
Proof.
  intros HR Hne.
  assert (Hpath : forall p, p = [] \/ Begins m p -> exists d, tlook (Node root) p = Some (Node d)).
  { intros p [->|Hb]; [exists root; reflexivity|]. destruct p as [|c p]; [exists root; reflexivity|].
    apply kindof_node. apply (HR (c :: p)); [discriminate|exact Hb]. }
  induction 1 as [p Hp|c v rest out Hi HS IH|p i rest out Hp Hbad HS IH].
  - destruct (Hpath p Hp) as (d & Hd). rewrite <- (app_nil_r p). rewrite (decode_path root p root d [] Hd). reflexivity.
  - pose proof (Hne c v Hi) as Hc. destruct (exists_last Hc) as (p & i & ->).
    pose proof (proj2 (proj1 (HR _ Hc) v) Hi) as Hk. unfold kindof in Hk. rewrite tlook_app in Hk.
    destruct (tlook (Node root) p) as [[w|d]|] eqn:Hd; [discriminate| |discriminate].
    rewrite <- app_assoc. rewrite (decode_path root p root d ([i] ++ rest) Hd). cbn [app cmap_decode]. cbn [tlook] in Hk.
    destruct (tget d i) as [[w|d']|]; [injection Hk as ->; rewrite IH; reflexivity|discriminate|discriminate].
  - destruct (Hpath p Hp) as (d & Hd). rewrite (decode_path root p root d (i :: rest) Hd). cbn [cmap_decode].
    assert (Hl : tlook (Node root) (p ++ [i]) = tget d i).
    { rewrite tlook_app, Hd. cbn. destruct (tget d i); reflexivity. }
    assert (Hpi : p ++ [i] <> []) by (destruct p; discriminate). destruct (HR (p ++ [i]) Hpi) as [R1 R2].
    unfold kindof in R1, R2. rewrite Hl in R1, R2. destruct (tget d i) as [[v|d']|].
    + exfalso. apply (Hbad (p ++ [i]) v); [apply R1; reflexivity|apply prefix_refl].
    + exfalso. destruct R2 as [R2 _]. destruct (R2 eq_refl) as (c & v & Hi & Hpr & _). apply (Hbad c v Hi Hpr).
    + exact IH.
Qed.

(* ---------- objects from tokens ---------- *)
Section feeding.
  Context {P : Type} (kw : P -> stk -> Z -> list Z -> res (P * stk)).
  Lemma feed_app a b p s : feed kw p s (a ++ b) = do (p', s') <- feed kw p s a; feed kw p' s' b.
  Proof.
    revert p s; induction a as [|[pos t] a IH]; intros p s; cbn [app feed]; [reflexivity|].
    destruct (step kw p s pos t) as [[p' s']|e]; cbn [bind]; [apply IH|reflexivity].
  Qed.

  Lemma written_feed :
    (forall o ts, Written false false o ts -> forall pts, map snd pts = ts ->
       exists pos, forall p s, feed kw p s pts = Ok (p, push s (pos, o))) /\
    (forall os ts, WrittenL false false os ts -> forall pts, map snd pts = ts ->
       exists l, map snd l = os /\ forall p s, feed kw p s pts = Ok (p, push_all s l)) /\
    (forall kvs ts, WrittenE false false kvs ts -> forall pts, map snd pts = ts ->
       exists l, map snd l = flatten_kv kvs /\ forall p s, feed kw p s pts = Ok (p, push_all s l)).
  Proof.
    apply Written_ind3; try discriminate;
      try (intros x pts Hp; destruct pts as [|[pos t] [|? ?]]; try discriminate Hp; injection Hp as ->;
           exists pos; intros p s; reflexivity).
    - intros os ts HL IH pts Hp. destruct pts as [|[p1 t1] pts]; [discriminate|]. cbn [map snd] in Hp.
      injection Hp as -> Hp. apply map_eq_app in Hp as (l1 & l2 & -> & Hl1 & Hl2).
      destruct l2 as [|[p2 t2] [|? ?]]; try discriminate Hl2. injection Hl2 as ->.
      destruct (IH l1 Hl1) as (l' & Hl' & Hr). exists p1. intros p s.
      cbn [feed]. change (step kw p s p1 (KW "[")) with (Ok (p, start_type s p1 KArr)). cbn [bind]. rewrite feed_app, Hr. cbn [bind feed].
      unfold step, KW.
      change (list_eqb (bs "]") (bs "[")) with false. change (list_eqb (bs "]") (bs "]")) with true. cbn iota.
      rewrite end_start, Hl'. reflexivity.
    - intros kvs ts Hd HE IH pts Hp. destruct pts as [|[p1 t1] pts]; [discriminate|]. cbn [map snd] in Hp.
      injection Hp as -> Hp. apply map_eq_app in Hp as (l1 & l2 & -> & Hl1 & Hl2).
      destruct l2 as [|[p2 t2] [|? ?]]; try discriminate Hl2. injection Hl2 as ->.
      destruct (IH l1 Hl1) as (l' & Hl' & Hr). exists p1. intros p s.
      cbn [feed]. change (step kw p s p1 (KW "<<")) with (Ok (p, start_type s p1 KDict)). cbn [bind]. rewrite feed_app, Hr. cbn [bind feed].
      unfold step, KW.
      change (list_eqb (bs ">>") (bs "[")) with false. change (list_eqb (bs ">>") (bs "]")) with false.
      change (list_eqb (bs ">>") (bs "<<")) with false. change (list_eqb (bs ">>") (bs ">>")) with true. cbn iota.
      rewrite end_start, Hl', flatten_even, build_dict_lemma; [reflexivity|assumption|]. intros k _ k' v' [].
    - intros pts Hp. destruct pts; [|discriminate]. exists []. split; [reflexivity|]. intros p s. rewrite push_all_nil. reflexivity.
    - intros o os t ts H1 IH1 H2 IH2 pts Hp. apply map_eq_app in Hp as (l1 & l2 & -> & Hl1 & Hl2).
      destruct (IH1 l1 Hl1) as (pos & R1). destruct (IH2 l2 Hl2) as (l & Hl & R2).
      exists ((pos, o) :: l). split; [cbn; rewrite Hl; reflexivity|]. intros p s. rewrite feed_app, R1. cbn [bind]. rewrite R2.
      unfold push_all, push. cbn. rewrite <- app_assoc. reflexivity.
    - intros pts Hp. destruct pts; [|discriminate]. exists []. split; [reflexivity|]. intros p s. rewrite push_all_nil. reflexivity.
    - intros k o kvs t ts H1 IH1 H2 IH2 pts Hp.
      destruct pts as [|[p1 t1] pts]; [discriminate|]. cbn [map snd] in Hp. injection Hp as -> Hp.
      apply map_eq_app in Hp as (l1 & l2 & -> & Hl1 & Hl2).
      destruct (IH1 l1 Hl1) as (pos & R1). destruct (IH2 l2 Hl2) as (l & Hl & R2).
      exists ((p1, OName k) :: (pos, o) :: l). split; [cbn; rewrite Hl; reflexivity|]. intros p s.
      cbn [feed]. change (step kw p s p1 (TLit k)) with (Ok (p, push s (p1, OName k))). cbn [bind]. rewrite feed_app, R1. cbn [bind]. rewrite R2.
      unfold push_all, push. cbn. rewrite <- !app_assoc. reflexivity.
  Qed.
End feeding.

(* ---------- big-endian, UTF-16 ---------- *)
Lemma be_encode_be n : forall v, be_encode n v = be n v.
Proof. induction n as [|n IH]; intros v; cbn; [reflexivity|rewrite IH; reflexivity]. Qed.
Lemma be_val_num b : be_val b = num_of b. Proof. reflexivity. Qed.

Lemma pairs16_app a b : Nat.even (length a) = true -> pairs16 (a ++ b) = pairs16 a ++ pairs16 b.
Proof.
  revert b; assert (H : forall n a b, (length a <= n)%nat -> Nat.even (length a) = true -> pairs16 (a ++ b) = pairs16 a ++ pairs16 b).
  { induction n as [|n IH]; intros [|x [|y l]] b Hn He; try discriminate; try reflexivity; cbn in Hn; try lia.
    cbn [app pairs16]. rewrite IH; [reflexivity|lia|exact He]. }
  intros b. apply (H (length a)). lia.
Qed.

Lemma pairs_be2 u : 0 <= u < 65536 -> pairs16 (be 2 u) = [u].
Proof. intros Hu. cbn. f_equal. Z.div_mod_to_equations. lia. Qed.

Lemma utf16_unit_even c : Nat.even (length (utf16_unit c)) = true.
Proof. unfold utf16_unit. destruct (c <? 65536); reflexivity. Qed.
Lemma utf16_of_even t : Nat.even (length (utf16_of t)) = true.
Proof.
  induction t as [|c t IH]; [reflexivity|]. cbn [utf16_of flat_map]. rewrite app_length, Nat.even_add, utf16_unit_even.
  unfold utf16_of in IH. rewrite IH. reflexivity.
Qed.

Definition units (c : Z) : list Z :=
  if c <? 65536 then [c] else [55296 + (c - 65536) / 1024; 56320 + (c - 65536) mod 1024].
Lemma pairs_unit c : scalar c -> pairs16 (utf16_unit c) = units c.
Proof.
  intros Hc. unfold utf16_unit, units. destruct (Z.ltb_spec c 65536) as [H|H].
  - apply pairs_be2. destruct Hc; lia.
  - rewrite pairs16_app by reflexivity. rewrite !pairs_be2; [reflexivity| |]; destruct Hc; Z.div_mod_to_equations; lia.
Qed.
Lemma units_text_unit c r : scalar c -> units_text (units c ++ r) = c :: units_text r.
Proof.
  intros Hc. unfold units. destruct (Z.ltb_spec c 65536) as [H|H]; cbn [app units_text].
  - unfold high_surrogate, low_surrogate.
    replace ((55296 <=? c) && (c <? 56320)) with false by (destruct Hc; lia).
    replace ((56320 <=? c) && (c <? 57344)) with false by (destruct Hc; lia). reflexivity.
  - unfold high_surrogate, low_surrogate.
    pose proof (Z.div_mod (c - 65536) 1024 ltac:(lia)). pose proof (Z.mod_pos_bound (c - 65536) 1024 ltac:(lia)).
    assert (0 <= (c - 65536) / 1024 < 1024) by (destruct Hc; Z.div_mod_to_equations; lia).
    replace ((55296 <=? 55296 + (c - 65536) / 1024) && (55296 + (c - 65536) / 1024 <? 56320)) with true by lia.
    replace ((56320 <=? 56320 + (c - 65536) mod 1024) && (56320 + (c - 65536) mod 1024 <? 57344)) with true by lia.
    f_equal. lia.
Qed.
Lemma utf16_text t : Forall scalar t -> utf16 (utf16_of t) = t.
Proof.
  unfold utf16. induction 1 as [|c t Hc Ht IH]; [reflexivity|]. cbn [utf16_of flat_map].
  rewrite pairs16_app by apply utf16_unit_even. rewrite pairs_unit, units_text_unit by assumption. unfold utf16_of in IH. rewrite IH. reflexivity.
Qed.

(* the maps *)
Lemma iget_iput {A} (m : imap A) k v k' : iget (iput m k v) k' = if k =? k' then Some v else iget m k'.
Proof. reflexivity. Qed.
Definition updated (m : umap) (asg : list (Z * list Z)) (m' : umap) : Prop :=
  forall k, iget m' k = match last_for asg k with Some t => Some t | None => iget m k end.
Lemma updated_nil m : updated m [] m. Proof. intros k; reflexivity. Qed.
Lemma last_for_app {A} (a b : list (Z * A)) k : last_for (a ++ b) k = match last_for b k with Some x => Some x | None => last_for a k end.
Proof.
  induction a as [|[k0 v] a IH]; cbn [app last_for]; [destruct (last_for b k); reflexivity|]. rewrite IH.
  destruct (last_for b k); [reflexivity|]. destruct (last_for a k); reflexivity.
Qed.
Lemma updated_app m a m1 b m2 : updated m a m1 -> updated m1 b m2 -> updated m (a ++ b) m2.
Proof. intros H1 H2 k. rewrite H2, H1, last_for_app. destruct (last_for b k); reflexivity. Qed.
Lemma updated_one m k t : updated m [(k, t)] (iput m k t).
Proof. intros k'. rewrite iget_iput. cbn. destruct (k =? k'); reflexivity. Qed.

(* adding to the last bytes *)
Lemma pack4_tail v n : (n <= 4)%nat -> 0 <= v < 256 ^ Z.of_nat n -> (1 <= n)%nat ->
  exists p, pack4 v = Ok p /\ tail_n n p = be n v.
Proof.
  intros Hn Hv H1. unfold pack4.
  assert (Hv32 : v < 2 ^ 32).
  { destruct n as [|[|[|[|[|n]]]]]; try lia; cbn in Hv; lia. }
  replace ((0 <=? v) && (v <? 2 ^ 32)) with true by lia.
  eexists; split; [reflexivity|].
  destruct n as [|[|[|[|[|n]]]]]; try lia; unfold tail_n; cbn [length Nat.sub skipn be app];
    change (2 ^ 24) with 16777216; change (2 ^ 16) with 65536; change (2 ^ 8) with 256; cbn in Hv;
    repeat (f_equal; try (Z.div_mod_to_equations; lia)).
Qed.

Lemma num_of_app a b : num_of (a ++ b) = num_of a * 256 ^ Z.of_nat (length b) + num_of b.
Proof.
  revert a; induction b as [|x b IH] using rev_ind; intros a.
  - rewrite app_nil_r. cbn. lia.
  - rewrite app_assoc, <- !be_val_num, !be_val_snoc, !be_val_num, IH, app_length. cbn [length].
    rewrite Nat2Z.inj_add, Z.pow_add_r by lia. change (256 ^ Z.of_nat 1) with 256. change (be_val b) with (num_of b). lia.
Qed.
Lemma num_of_be n v : 0 <= v < 256 ^ Z.of_nat n -> num_of (be n v) = v.
Proof. intros H. rewrite <- be_encode_be, <- be_val_num. apply be_val_encode. exact H. Qed.
Lemma be_length n v : length (be n v) = n.
Proof. rewrite <- be_encode_be. apply be_encode_length. Qed.
Lemma be_split n m v : be (n + m) v = be n (v / 256 ^ Z.of_nat m) ++ be m v.
Proof.
  revert v; induction m as [|m IH]; intros v.
  - rewrite Nat.add_0_r. change (256 ^ Z.of_nat 0) with 1. rewrite Z.div_1_r. cbn. rewrite app_nil_r. reflexivity.
  - rewrite Nat.add_succ_r. cbn [be]. rewrite IH, app_assoc. f_equal. f_equal. f_equal. rewrite Z.div_div by (try lia; apply Z.pow_pos_nonneg; lia).
    f_equal. rewrite Nat2Z.inj_succ, Z.pow_succ_r by lia. lia.
Qed.
Lemma be_num b : bytes b -> be (length b) (num_of b) = b.
Proof.
  induction b as [|x b IH] using rev_ind; intros Hb; [reflexivity|].
  apply Forall_app in Hb as [Hb Hx]. inversion_clear Hx as [|? ? Hx' _]. unfold is_byte in Hx'.
  rewrite app_length. cbn [length]. rewrite Nat.add_1_r. cbn [be]. rewrite num_of_app. cbn [length].
  change (256 ^ Z.of_nat 1) with 256. change (num_of [x]) with (0 * 256 + x).
  replace ((num_of b * 256 + (0 * 256 + x)) / 256) with (num_of b) by (Z.div_mod_to_equations; lia).
  replace ((num_of b * 256 + (0 * 256 + x)) mod 256) with x by (Z.div_mod_to_equations; lia). rewrite IH by assumption. reflexivity.
Qed.
Lemma num_of_bound b : bytes b -> 0 <= num_of b < 256 ^ Z.of_nat (length b).
Proof.
  induction b as [|x b IH] using rev_ind; intros Hb; [cbn; lia|].
  apply Forall_app in Hb as [Hb Hx]. inversion_clear Hx as [|? ? Hx' _]. unfold is_byte in Hx'. specialize (IH Hb).
  rewrite app_length. cbn [length]. rewrite num_of_app. cbn [length].
  change (256 ^ Z.of_nat 1) with 256. change (num_of [x]) with (0 * 256 + x).
  rewrite Nat2Z.inj_add, Z.pow_add_r by lia. change (256 ^ Z.of_nat 1) with 256. lia.
Qed.
Lemma be_bytes n : forall v, bytes (be n v).
Proof.
  induction n as [|n IH]; intros v; [constructor|]. cbn [be]. apply Forall_app. split; [apply IH|].
  constructor; [|constructor]. unfold is_byte. apply Z.mod_pos_bound. lia.
Qed.
Lemma utf16_of_bytes t : bytes (utf16_of t).
Proof.
  unfold bytes. induction t as [|c t IH]; [constructor|]. cbn [utf16_of flat_map]. apply Forall_app. split; [|exact IH].
  unfold utf16_unit. destruct (c <? 65536); [apply be_bytes|]. apply Forall_app. split; apply be_bytes.
Qed.
Lemma utf16_of_app a b : utf16_of (a ++ b) = utf16_of a ++ utf16_of b.
Proof. apply flat_map_app. Qed.

Section programs.
  Context (glyphs : list Z -> option (list Z)).

  Lemma nunpack_code c : code_len c -> nunpack c 0 = Ok (num_of c).
  Proof. unfold code_len, nunpack. intros H. destruct c as [|? [|? [|? [|? [|? ?]]]]]; cbn [length] in H; try lia; reflexivity. Qed.

  Lemma range_bytes_lemma prefix vlen : (1 <= vlen <= 4)%nat -> forall n m c base,
    0 <= base -> base + Z.of_nat n <= 256 ^ Z.of_nat vlen ->
    exists m', range_bytes glyphs m c n prefix base vlen = Ok m' /\
      updated m (map (fun i => (c + Z.of_nat i, utf16 (prefix ++ be vlen (base + Z.of_nat i)))) (seq 0 n)) m'.
  Proof.
    intros Hv. induction n as [|n IH]; intros m c base Hb Hs; cbn [range_bytes].
    - exists m. split; [reflexivity|apply updated_nil].
    - destruct (pack4_tail base vlen ltac:(lia) ltac:(lia) ltac:(lia)) as (p & -> & Hp). cbn [bind add_cid2unichr]. rewrite Hp.
      destruct (IH (iput m c (utf16 (prefix ++ be vlen base))) (c + 1) (base + 1) ltac:(lia) ltac:(lia)) as (m' & E & U).
      exists m'. split; [exact E|]. cbn [seq map].
      change (fun i : nat => (c + Z.of_nat i, utf16 (prefix ++ be vlen (base + Z.of_nat i)))) with
        (fun i : nat => (c + Z.of_nat i, utf16 (prefix ++ be vlen (base + Z.of_nat i)))).
      rewrite <- seq_shift, map_map. change (?x :: ?l) with ([x] ++ l) at 1.
      rewrite (map_ext (fun i => (c + Z.of_nat (S i), utf16 (prefix ++ be vlen (base + Z.of_nat (S i)))))
                       (fun i => (c + 1 + Z.of_nat i, utf16 (prefix ++ be vlen (base + 1 + Z.of_nat i))))).
      + change ((c + Z.of_nat 0, utf16 (prefix ++ be vlen (base + Z.of_nat 0))) :: ?l) with ([(c + Z.of_nat 0, utf16 (prefix ++ be vlen (base + Z.of_nat 0)))] ++ l).
        eapply updated_app; [|exact U]. change (Z.of_nat 0) with 0. rewrite !Z.add_0_r. apply updated_one.
      + intros i. replace (c + Z.of_nat (S i)) with (c + 1 + Z.of_nat i) by lia. replace (base + Z.of_nat (S i)) with (base + 1 + Z.of_nat i) by lia. reflexivity.
  Qed.

  Lemma range_array_lemma : forall texts m c, Forall (Forall scalar) texts ->
    exists m', range_array glyphs m c (length texts) (map (fun t => OStr (utf16_of t)) texts) = Ok m' /\
      updated m (combine (map (fun i => c + Z.of_nat i) (seq 0 (length texts))) texts) m'.
  Proof.
    induction texts as [|t texts IH]; intros m c Ht; cbn [length map range_array].
    - exists m. split; [reflexivity|apply updated_nil].
    - inversion_clear Ht as [|? ? H1 H2]. cbn [add_cid2unichr bind]. rewrite utf16_text by assumption.
      destruct (IH (iput m c t) (c + 1) H2) as (m' & E & U). exists m'. split; [exact E|].
      cbn [seq map combine]. rewrite <- seq_shift, map_map.
      rewrite (map_ext (fun i => c + Z.of_nat (S i)) (fun i => c + 1 + Z.of_nat i)) by (intros; lia).
      change ((c + Z.of_nat 0, t) :: ?l) with ([(c + Z.of_nat 0, t)] ++ l).
      eapply updated_app; [|exact U]. change (Z.of_nat 0) with 0. rewrite Z.add_0_r. apply updated_one.
  Qed.

  Lemma charline_lemma l a : CharLine l a -> forall m, exists m', bfchar1 glyphs m l = Ok m' /\ updated m a m'.
  Proof.
    intros [code text Hc Ht] m. cbn [bfchar1]. rewrite nunpack_code by assumption. cbn [bind add_cid2unichr].
    rewrite utf16_text by assumption. eexists. split; [reflexivity|apply updated_one].
  Qed.

  (* the destination of a range: the prefix and the bytes that are counted up *)
  Lemma dest_split t c : Forall scalar t -> 0 <= c < 65536 -> forall n, c + n <= 65536 -> 0 <= n ->
    let b := utf16_of (t ++ [c]) in
    let var := skipn (length b - 4) b in
    (1 <= length var <= 4)%nat /\ nunpack var 0 = Ok (num_of var) /\ 0 <= num_of var /\
    num_of var + n <= 256 ^ Z.of_nat (length var) /\
    forall i, 0 <= i < n -> firstn (length b - 4) b ++ be (length var) (num_of var + i) = utf16_of t ++ be 2 (c + i).
  Proof.
    intros Ht Hc n Hn H0 b var.
    assert (Eb : b = utf16_of t ++ be 2 c).
    { unfold b. rewrite utf16_of_app. cbn [utf16_of flat_map]. rewrite app_nil_r. unfold utf16_unit.
      replace (c <? 65536) with true by lia. reflexivity. }
    destruct t as [|c0 t0].
    - cbn [utf16_of flat_map app] in Eb. unfold var. rewrite Eb. cbn [be length app Nat.sub skipn firstn].
      change ([c / 256 mod 256; c mod 256]) with (be 2 c). rewrite num_of_be by (change (256 ^ Z.of_nat 2) with 65536; lia).
      change (256 ^ Z.of_nat 2) with 65536. splits; try lia; [|intros i Hi; reflexivity].
      unfold nunpack. rewrite be_length, be_val_num, num_of_be by (change (256 ^ Z.of_nat 2) with 65536; lia). reflexivity.
    - destruct (exists_last (l := utf16_of (c0 :: t0))) as (u1 & x2 & E1).
      { cbn. unfold utf16_unit. destruct (c0 <? 65536); discriminate. }
      assert (Hu1 : u1 <> []).
      { intros ->. pose proof (utf16_of_even (c0 :: t0)) as He. rewrite E1 in He. discriminate. }
      destruct (exists_last Hu1) as (u & x1 & ->). rewrite <- app_assoc in E1. cbn [app] in E1.
      pose proof (utf16_of_bytes (c0 :: t0)) as Hby. rewrite E1 in Hby. apply Forall_app in Hby as [_ Hby].
      inversion_clear Hby as [|? ? Hx1 Hby']. inversion_clear Hby' as [|? ? Hx2 _]. unfold is_byte in Hx1, Hx2.
      rewrite E1 in Eb.
      assert (El : (length b - 4)%nat = length u).
      { rewrite Eb, !app_length, be_length. cbn [length]. lia. }
      assert (Ev : var = [x1; x2] ++ be 2 c).
      { unfold var. rewrite El, Eb, <- app_assoc, skipn_app, skipn_all, Nat.sub_diag. reflexivity. }
      assert (Ef : firstn (length b - 4) b = u).
      { rewrite El, Eb, <- app_assoc, firstn_app, firstn_all, Nat.sub_diag. cbn [firstn]. apply app_nil_r. }
      assert (Lv : length var = 4%nat) by (rewrite Ev, app_length, be_length; reflexivity).
      assert (Nv : num_of var = (x1 * 256 + x2) * 65536 + c).
      { rewrite Ev, num_of_app, be_length, num_of_be by (change (256 ^ Z.of_nat 2) with 65536; lia). 
        change (256 ^ Z.of_nat 2) with 65536. change (num_of [x1; x2]) with ((0 * 256 + x1) * 256 + x2). lia. }
      rewrite Lv, Nv, Ef. change (256 ^ Z.of_nat 4) with 4294967296. splits; try lia.
      + unfold nunpack. rewrite Lv, <- Nv. reflexivity.
      + intros i Hi. rewrite E1, <- app_assoc. f_equal. change 4%nat with (2 + 2)%nat. rewrite be_split. change (256 ^ Z.of_nat 2) with 65536.
        replace (((x1 * 256 + x2) * 65536 + c + i) / 65536) with (x1 * 256 + x2) by (Z.div_mod_to_equations; lia).
        f_equal; cbn [be app].
        * f_equal; [Z.div_mod_to_equations; lia|]. f_equal. Z.div_mod_to_equations; lia.
        * f_equal; [Z.div_mod_to_equations; lia|]. f_equal. Z.div_mod_to_equations; lia.
  Qed.

  Lemma dest_split_high t c : Forall scalar t -> 65536 <= c <= 1114111 -> forall n, (c - 65536) mod 1024 + n <= 1024 -> 0 <= n ->
    let b := utf16_of (t ++ [c]) in
    let var := skipn (length b - 4) b in
    (1 <= length var <= 4)%nat /\ nunpack var 0 = Ok (num_of var) /\ 0 <= num_of var /\
    num_of var + n <= 256 ^ Z.of_nat (length var) /\
    forall i, 0 <= i < n -> firstn (length b - 4) b ++ be (length var) (num_of var + i) = utf16_of (t ++ [c + i]).
  Proof.
    intros Ht Hc n Hn H0 b var.
    set (h := 55296 + (c - 65536) / 1024). set (l := 56320 + (c - 65536) mod 1024).
    assert (Hh : 55296 <= h < 56320) by (unfold h; Z.div_mod_to_equations; lia).
    assert (Hl : 56320 <= l < 57344) by (unfold l; Z.div_mod_to_equations; lia).
    assert (Eb : b = utf16_of t ++ be 2 h ++ be 2 l).
    { unfold b. rewrite utf16_of_app. cbn [utf16_of flat_map]. rewrite app_nil_r. unfold utf16_unit.
      replace (c <? 65536) with false by lia. reflexivity. }
    assert (El : (length b - 4)%nat = length (utf16_of t)).
    { rewrite Eb, !app_length, !be_length. lia. }
    assert (Ev : var = be 2 h ++ be 2 l).
    { unfold var. rewrite El, Eb, skipn_app, skipn_all, Nat.sub_diag. reflexivity. }
    assert (Ef : firstn (length b - 4) b = utf16_of t).
    { rewrite El, Eb, firstn_app, firstn_all, Nat.sub_diag. cbn [firstn]. apply app_nil_r. }
    assert (Lv : length var = 4%nat) by (rewrite Ev, app_length, !be_length; reflexivity).
    assert (Nv : num_of var = h * 65536 + l).
    { rewrite Ev, num_of_app, be_length, !num_of_be by (change (256 ^ Z.of_nat 2) with 65536; lia). reflexivity. }
    rewrite Lv, Nv, Ef. change (256 ^ Z.of_nat 4) with 4294967296. splits; try lia.
    + unfold nunpack. rewrite Lv, <- Nv. reflexivity.
    + intros i Hi. rewrite utf16_of_app. f_equal. cbn [utf16_of flat_map]. rewrite app_nil_r. unfold utf16_unit.
      replace (c + i <? 65536) with false by lia.
      assert (D1 : (c + i - 65536) / 1024 = (c - 65536) / 1024) by (unfold l in *; Z.div_mod_to_equations; lia).
      assert (D2 : (c + i - 65536) mod 1024 = (c - 65536) mod 1024 + i) by (unfold l in *; Z.div_mod_to_equations; lia).
      rewrite D1, D2. change 4%nat with (2 + 2)%nat. rewrite be_split. change (256 ^ Z.of_nat 2) with 65536.
      replace ((h * 65536 + l + i) / 65536) with h by (Z.div_mod_to_equations; lia).
      f_equal. replace (56320 + ((c - 65536) mod 1024 + i)) with (l + i) by (unfold l; lia).
      cbn [be app]. f_equal; [Z.div_mod_to_equations; lia|]. f_equal. Z.div_mod_to_equations; lia.
  Qed.

  Lemma rangeline_lemma l a : RangeLine l a -> forall m, exists m', bfrange1 glyphs m l = Ok m' /\ updated m a m'.
  Proof.
    intros [lo hi t c Hl Hh Hle Ht Hc0 Hc|lo hi t c Hl Hh Hle Ht Hc0 Hc|lo hi texts Hl Hh Hn Ht] m; cbn [bfrange1]; rewrite Hh, Nat.eqb_refl; cbn [negb].
    - rewrite !nunpack_code by (unfold code_len in *; lia). cbn [bind].
      set (n := Z.to_nat (num_of hi - num_of lo + 1)).
      destruct (dest_split t c Ht ltac:(lia) (Z.of_nat n) ltac:(lia) ltac:(lia)) as (D1 & D2 & D3 & D4 & D5).
      rewrite D2. cbn [bind].
      destruct (range_bytes_lemma (firstn (length (utf16_of (t ++ [c])) - 4) (utf16_of (t ++ [c]))) _ D1 n m (num_of lo) _ D3 D4) as (m' & E & U).
      exists m'. split; [exact E|].
      match goal with U : updated m ?x m' |- updated m ?y m' => replace y with x; [exact U|] end.
      apply map_ext_in. intros i Hi. apply in_seq in Hi. f_equal. rewrite D5 by lia.
      assert (Ei : utf16_of t ++ be 2 (c + Z.of_nat i) = utf16_of (t ++ [c + Z.of_nat i])).
      { rewrite utf16_of_app. cbn [utf16_of flat_map]. rewrite app_nil_r. f_equal. unfold utf16_unit.
        replace (c + Z.of_nat i <? 65536) with true by lia. reflexivity. }
      rewrite Ei. apply utf16_text. apply Forall_app. split; [exact Ht|]. constructor; [|constructor]. unfold scalar. lia.
    - rewrite !nunpack_code by (unfold code_len in *; lia). cbn [bind].
      set (n := Z.to_nat (num_of hi - num_of lo + 1)).
      destruct (dest_split_high t c Ht Hc0 (Z.of_nat n) ltac:(lia) ltac:(lia)) as (D1 & D2 & D3 & D4 & D5).
      rewrite D2. cbn [bind].
      destruct (range_bytes_lemma (firstn (length (utf16_of (t ++ [c])) - 4) (utf16_of (t ++ [c]))) _ D1 n m (num_of lo) _ D3 D4) as (m' & E & U).
      exists m'. split; [exact E|].
      match goal with U : updated m ?x m' |- updated m ?y m' => replace y with x; [exact U|] end.
      apply map_ext_in. intros i Hi. apply in_seq in Hi. f_equal. rewrite D5 by lia. apply utf16_text. apply Forall_app. split; [exact Ht|].
      constructor; [|constructor]. unfold scalar. right. Z.div_mod_to_equations. lia.
    - rewrite !nunpack_code by (unfold code_len in *; lia). cbn [bind]. rewrite Hn, Nat2Z.id. apply range_array_lemma. exact Ht.
  Qed.

  (* choplist on concatenated lines *)
  Lemma chop_fill (n : nat) (l rest r : list obj) : (length r + length l = n)%nat -> l <> [] ->
    chop n r (l ++ rest) = (r ++ l) :: chop n [] rest.
  Proof.
    revert r; induction l as [|x l IH]; intros r Hl Hne; [congruence|]. cbn [app chop]. cbn [length] in Hl.
    rewrite app_length. cbn [length]. destruct l as [|y l].
    - cbn [length] in Hl. replace (Nat.eqb (length r + 1) n) with true by lia. reflexivity.
    - cbn [length] in Hl. replace (Nat.eqb (length r + 1) n) with false by lia.
      rewrite IH; [rewrite <- app_assoc; reflexivity|rewrite app_length; cbn [length] in *; lia|discriminate].
  Qed.
  Lemma lines_fold (n : nat) (one : list obj -> list (Z * list Z) -> Prop) (f : umap -> list obj -> res umap) : (0 < n)%nat ->
    (forall l a, one l a -> length l = n /\ forall m, exists m', f m l = Ok m' /\ updated m a m') ->
    forall os asg, Lines one os asg -> forall m, exists m', fold_m f m (choplist n os) = Ok m' /\ updated m asg m'.
  Proof.
    intros Hn Hf os asg HL. induction HL as [|l a ls r H1 HL IH]; intros m.
    - exists m. split; [reflexivity|apply updated_nil].
    - destruct (Hf _ _ H1) as (Hlen & Hm). unfold choplist. rewrite chop_fill; [|exact Hlen|intros ->; cbn in Hlen; lia].
      cbn [app fold_m]. destruct (Hm m) as (m1 & -> & U1). cbn [bind].
      destruct (IH m1) as (m2 & E2 & U2). exists m2. split; [exact E2|]. eapply updated_app; eassumption.
  Qed.

  Ltac kws := repeat match goal with |- context [list_eqb (bs ?a) (bs ?b)] =>
    let v := eval vm_compute in (list_eqb (bs a) (bs b)) in change (list_eqb (bs a) (bs b)) with v end; cbn iota.

  Lemma operator_step c s pos k : ~ In k operators -> in_cmap c = true ->
    step (cmap_keyword glyphs) c s pos (TKwd k) = Ok (c, push s (pos, OKwd k)).
  Proof.
    intros Hk Hc. unfold step.
    assert (F : forall x, In (bs x) operators -> list_eqb k (bs x) = false).
    { intros x Hx. destruct (list_eqb k (bs x)) eqn:E; [|reflexivity]. apply list_eqb_eq in E. subst. contradiction. }
    unfold cmap_keyword. rewrite Hc.
    repeat rewrite F by (cbn; tauto). reflexivity.
  Qed.

  Lemma tail_lemma ts : Tail ts -> forall pts m s, map snd pts = ts ->
    exists s', feed (cmap_keyword glyphs) (mkCm false m) s pts = Ok (mkCm false m, s').
  Proof.
    induction 1 as [|o t ts Hw HT IH|k ts Hk Hb HT IH]; intros pts m s Hp.
    - destruct pts; [|discriminate]. exists s. reflexivity.
    - apply map_eq_app in Hp as (l1 & l2 & -> & Hl1 & Hl2).
      destruct (proj1 (written_feed (cmap_keyword glyphs)) _ _ Hw l1 Hl1) as (pos & E). rewrite feed_app, E. cbn [bind]. apply IH. exact Hl2.
    - destruct pts as [|[pos t] pts]; [discriminate|]. injection Hp as -> Hp. cbn [feed].
      assert (Hs : exists s', step (cmap_keyword glyphs) (mkCm false m) s pos (TKwd k) = Ok (mkCm false m, s')).
      { unfold step.
        assert (F : forall x, In (bs x) (map bs ["["; "]"; "<<"; ">>"; "{"; "}"]%string) -> list_eqb k (bs x) = false).
        { intros x Hx. destruct (list_eqb k (bs x)) eqn:E; [|reflexivity]. apply list_eqb_eq in E. subst. contradiction. }
        repeat rewrite F by (cbn; tauto).
        unfold cmap_keyword. destruct (list_eqb k (bs "begincmap")) eqn:E; [apply list_eqb_eq in E; contradiction|].
        destruct (list_eqb k (bs "endcmap")); cbn; eauto. }
      destruct Hs as (s' & ->). cbn [bind]. apply IH. exact Hp.
  Qed.

  Lemma pop_snoc s0 l n : length l = n -> curstack s0 <> [] \/ True -> forall st, curstack s0 = st ++ l ->
    pop s0 n = (l, mkStk (context s0) (curtype s0) st (results s0)).
  Proof.
    intros Hl _ st Hs. unfold pop. rewrite Hs, app_length, Hl, Nat.add_sub, skipn_app, firstn_app, skipn_all, firstn_all, Nat.sub_diag.
    cbn [skipn firstn app]. rewrite app_nil_r. reflexivity.
  Qed.

  Lemma charline2 l a : CharLine l a -> length l = 2%nat /\ forall m, exists m', bfchar1 glyphs m l = Ok m' /\ updated m a m'.
  Proof. intros H. split; [destruct H; reflexivity|apply charline_lemma; exact H]. Qed.
  Lemma rangeline3 l a : RangeLine l a -> length l = 3%nat /\ forall m, exists m', bfrange1 glyphs m l = Ok m' /\ updated m a m'.
  Proof. intros H. split; [destruct H; reflexivity|apply rangeline_lemma; exact H]. Qed.

  Lemma step_word c s pos k : ~ In k (map bs ["["; "]"; "<<"; ">>"; "{"; "}"]%string) ->
    step (cmap_keyword glyphs) c s pos (TKwd k) = cmap_keyword glyphs c s pos k.
  Proof.
    intros Hb. assert (F : forall x, In (bs x) (map bs ["["; "]"; "<<"; ">>"; "{"; "}"]%string) -> list_eqb k (bs x) = false).
    { intros x Hx. destruct (list_eqb k (bs x)) eqn:E; [|reflexivity]. apply list_eqb_eq in E. subst. contradiction. }
    unfold step. repeat rewrite F by (cbn; tauto). reflexivity.
  Qed.

  Lemma program_lemma st ts asg : Program st ts asg -> forall pts m s, map snd pts = ts -> map snd (curstack s) = st ->
    exists c s', feed (cmap_keyword glyphs) (mkCm true m) s pts = Ok (c, s') /\ updated m asg (cm_map c).
  Proof.
    induction 1 as [st|st ts HT|st o t ts asg Hw HP IH|st k ts asg Hk HP IH|st ts asg HP IH|st k v ts asg Hk HP IH|st n ts asg HP IH
                   |st b e os t ts asg Hbe Hw HP IH|st os t ls asg ts HL Hw HP IH|st os t ls asg ts HL Hw HP IH]; intros pts m s Hp Hs.
    - destruct pts; [|discriminate]. exists (mkCm true m), s. split; [reflexivity|apply updated_nil].
    - destruct pts as [|[pos t] pts]; [discriminate|]. injection Hp as -> Hp. cbn [feed].
      unfold KW. rewrite step_word by (cbn; intuition discriminate). unfold cmap_keyword at 1. kws.
      destruct (tail_lemma ts HT pts m s Hp) as (s' & E). cbn [bind cm_map]. rewrite E. eexists _, _. split; [reflexivity|apply updated_nil].
    - apply map_eq_app in Hp as (l1 & l2 & -> & Hl1 & Hl2).
      destruct (proj1 (written_feed (cmap_keyword glyphs)) _ _ Hw l1 Hl1) as (pos & E). rewrite feed_app, E. cbn [bind]. apply IH; [exact Hl2|].
      rewrite <- Hs. apply map_app.
    - destruct pts as [|[pos t] pts]; [discriminate|]. injection Hp as -> Hp. cbn [feed].
      rewrite operator_step by (assumption || reflexivity). cbn [bind]. apply IH; [exact Hp|]. rewrite <- Hs. apply map_app.
    - destruct pts as [|[pos t] pts]; [discriminate|]. injection Hp as -> Hp. cbn [feed].
      unfold KW. rewrite step_word by (cbn; intuition discriminate). unfold cmap_keyword at 1. kws. cbn [popall bind cm_map]. apply IH; [exact Hp|reflexivity].
    - destruct pts as [|[pos t] pts]; [discriminate|]. injection Hp as -> Hp. cbn [feed].
      unfold KW. rewrite step_word by (cbn; intuition discriminate). unfold cmap_keyword at 1. kws. cbn [in_cmap negb].
      apply map_eq_app in Hs as Hs'. destruct Hs' as (l1 & l2 & El & Hl1 & Hl2). 
      destruct l2 as [|[p1 k'] [|[p2 v'] [|? ?]]]; try discriminate Hl2. injection Hl2 as -> ->.
      rewrite (pop_snoc s [(p1, k); (p2, v)] 2 eq_refl (or_intror I) l1 El). rewrite Hk. cbn [bind]. apply IH; [exact Hp|exact Hl1].
    - destruct pts as [|[pos t] pts]; [discriminate|]. injection Hp as -> Hp. cbn [feed].
      unfold KW. rewrite step_word by (cbn; intuition discriminate). unfold cmap_keyword at 1. kws. cbn [in_cmap negb].
      apply map_eq_app in Hs as Hs'. destruct Hs' as (l1 & l2 & El & Hl1 & Hl2). 
      destruct l2 as [|[p1 k'] [|? ?]]; try discriminate Hl2. injection Hl2 as ->.
      rewrite (pop_snoc s [(p1, OName n)] 1 eq_refl (or_intror I) l1 El). cbn [bind]. apply IH; [exact Hp|exact Hl1].
    - destruct pts as [|[pos t0] pts]; [discriminate|]. injection Hp as -> Hp. cbn [feed].
      apply map_eq_app in Hp as (l1 & l2 & -> & Hl1 & Hl2). destruct l2 as [|[pos2 t2] l2]; [discriminate|]. injection Hl2 as -> Hl2.
      destruct (proj1 (proj2 (written_feed (cmap_keyword glyphs))) _ _ Hw l1 Hl1) as (l & Hl & E).
      cbn [In] in Hbe. unfold KW.
      destruct Hbe as [Hbe|[Hbe|[Hbe|[Hbe|[]]]]]; injection Hbe as <- <-;
        (rewrite step_word by (cbn; intuition discriminate); unfold cmap_keyword at 1; kws; cbn [in_cmap negb orb popall bind];
         rewrite feed_app, E; cbn [bind feed];
         rewrite step_word by (cbn; intuition discriminate); unfold cmap_keyword at 1; kws; cbn [in_cmap negb orb popall bind];
         apply IH; [exact Hl2|reflexivity]).
    - destruct pts as [|[pos t0] pts]; [discriminate|]. injection Hp as -> Hp. cbn [feed].
      apply map_eq_app in Hp as (l1 & l2 & -> & Hl1 & Hl2). destruct l2 as [|[pos2 t2] l2]; [discriminate|]. injection Hl2 as -> Hl2.
      destruct (proj1 (proj2 (written_feed (cmap_keyword glyphs))) _ _ Hw l1 Hl1) as (l & Hl & E). unfold KW.
      rewrite step_word by (cbn; intuition discriminate); unfold cmap_keyword at 1; kws; cbn [in_cmap negb orb popall bind];
      rewrite feed_app, E; cbn [bind feed];
      rewrite step_word by (cbn; intuition discriminate); unfold cmap_keyword at 1; kws; cbn [in_cmap negb orb popall push_all curstack app cm_map].
      rewrite Hl. destruct (lines_fold 2 CharLine (bfchar1 glyphs) ltac:(lia) charline2 os ls HL m) as (m1 & -> & U1). cbn [bind].
      destruct (IH l2 m1 (mkStk (context s) (curtype s) [] (results s)) Hl2 eq_refl) as (c & s' & Ec & U2). exists c, s'. split; [exact Ec|].
      eapply updated_app; eassumption.
    - destruct pts as [|[pos t0] pts]; [discriminate|]. injection Hp as -> Hp. cbn [feed].
      apply map_eq_app in Hp as (l1 & l2 & -> & Hl1 & Hl2). destruct l2 as [|[pos2 t2] l2]; [discriminate|]. injection Hl2 as -> Hl2.
      destruct (proj1 (proj2 (written_feed (cmap_keyword glyphs))) _ _ Hw l1 Hl1) as (l & Hl & E). unfold KW.
      rewrite step_word by (cbn; intuition discriminate); unfold cmap_keyword at 1; kws; cbn [in_cmap negb orb popall bind];
      rewrite feed_app, E; cbn [bind feed];
      rewrite step_word by (cbn; intuition discriminate); unfold cmap_keyword at 1; kws; cbn [in_cmap negb orb popall push_all curstack app cm_map].
      rewrite Hl. destruct (lines_fold 3 RangeLine (bfrange1 glyphs) ltac:(lia) rangeline3 os ls HL m) as (m1 & -> & U1). cbn [bind].
      destruct (IH l2 m1 (mkStk (context s) (curtype s) [] (results s)) Hl2 eq_refl) as (c & s' & Ec & U2). exists c, s'. split; [exact Ec|].
      eapply updated_app; eassumption.
  Qed.
End programs.

Lemma data_tokens e bufsiz ts text : (0 < bufsiz)%nat -> Layout e 0 ts text ->
  exists pts, tokens (open_at 0 (read_chunks bufsiz text)) = (pts, PSEOF) /\ map snd pts = map snd ts.
Proof.
  intros Hb HL. destruct (read_chunks_spec bufsiz text Hb) as [E N].
  rewrite tokens_toks by exact N. cbn [open_at lx Lex_Model.pos buf chunks app]. rewrite E.
  destruct (layout_values_lemma e 0 ts text HL lex0 0 eq_refl) as [V _]. unfold vals in V.
  destruct (toks lex0 0 text) as [pts ex]. cbn [fst snd] in V. injection V as V1 V2. exists pts. split; [congruence|exact V1].
Qed.
