(* C28 (page tree), C29 (page selection), C30 (rotation), C31 (coordinates), C32 (repeated iteration). *)
From Coq Require Import String.
From Verif Require Import Base Obj Stream_Model Stream_Spec Num Geom_Model Geom_Spec Page_Model Page_Spec Page_Proofs.
From Coq Require Import Qcanon ZifyBool ZifyNat.
Open Scope Z_scope.

(* ---------- C28 ---------- *)
(* every page tree reached from the catalog by a reference, with at least one page: the pages are its leaves in order,
   each with its own or inherited attributes (PageOf), for all large enough recursion and reference depths *)
Theorem C28_pages_partial getobj catalog objids t : Stored getobj t -> dget catalog "Pages" = Some (ORef (id_of t)) ->
  (forall k, Inheritable k = true -> dict_get catalog (OName k) = None) ->
  leaves [] t <> [] -> Forall (Usable getobj) (leaves [] t) ->
  exists n pages, (forall f d, (n <= f)%nat -> (n <= d)%nat -> create_pages getobj d f catalog objids = (pages, None)) /\
    Forall2 (PageOf getobj) (leaves [] t) pages.
Proof.
  intros HS HC HI Hne HU. destruct (search_lemma getobj t HS catalog []) as (n1 & l & E1 & F1); [intros k Hk; rewrite (HI k Hk); reflexivity|].
  destruct (make_pages_lemma getobj _ _ F1 HU) as (n2 & ps & E2 & F2). exists (n1 + n2)%nat, ps. split; [|exact F2].
  intros f d Hf Hd. unfold create_pages. rewrite HC. unfold gmap. rewrite E1 by lia. cbn [fst snd]. rewrite E2 by lia. unfold gapp. cbn [fst snd]. rewrite app_nil_r.
  destruct ps as [|p ps]; [|reflexivity]. inversion F2 as [X|]. symmetry in X. contradiction.
Qed.
(* an attribute other than the four is never inherited *)
Theorem C28_not_inherited a up k : Inheritable k = false -> attr (a :: up) k = dict_get a (OName k).
Proof. intros H. cbn [attr]. rewrite H. destruct (dict_get a (OName k)); reflexivity. Qed.

(* a document with three pages under two levels *)
Definition doc28 (i : Z) : option obj :=
  match i with
  | 1 => Some (ODict [(ON "Type", ON "Catalog"); (ON "Pages", ORef 2)])
  | 2 => Some (ODict [(ON "Type", ON "Pages"); (ON "Kids", OArr [ORef 3; ORef 6]); (ON "MediaBox", ORef 7); (ON "Rotate", OInt (-90)); (ON "Note", OInt 1)])
  | 3 => Some (ODict [(ON "Type", ON "Pages"); (ON "Kids", ORef 8); (ON "Rotate", OInt 450)])
  | 4 => Some (ODict [(ON "Type", ON "Page"); (ON "Contents", ORef 9)])
  | 5 => Some (ODict [(ON "Type", ON "Page"); (ON "MediaBox", OArr [OInt 0; OInt 0; OInt 10; OInt 10])])
  | 6 => Some (ODict [(ON "Type", ON "Page")])
  | 7 => Some (OArr [OInt 0; OInt 0; OInt 600; OInt 800])
  | 8 => Some (OArr [ORef 4; ORef 5])
  | 9 => Some (OStream [] [])
  | _ => None
  end.
Definition dictof (i : Z) : list (obj * obj) := match doc28 i with Some (ODict d) => d | _ => [] end.
Definition tree28 : ptree := PNode 2 (dictof 2) [PNode 3 (dictof 3) [PLeaf 4 (dictof 4); PLeaf 5 (dictof 5)]; PLeaf 6 (dictof 6)].
Example C28_case_hyps : Stored doc28 tree28 /\ dget (dictof 1) "Pages" = Some (ORef (id_of tree28)) /\
  (forall k, Inheritable k = true -> dict_get (dictof 1) (OName k) = None) /\ leaves [] tree28 <> [] /\ Forall (Usable doc28) (leaves [] tree28).
Proof.
  split; [|split; [reflexivity|split; [|split; [discriminate|]]]].
  - eapply S_node; [reflexivity|reflexivity|reflexivity|apply Leads_stop; discriminate|].
    repeat constructor. eapply S_node; [reflexivity|reflexivity|reflexivity|eapply Leads_ref; [reflexivity|apply Leads_stop; discriminate]|].
    repeat constructor.
  - intros k Hk. cbn. destruct (list_eqb (bs "Type") k) eqn:E1; [apply list_eqb_eq in E1; subst k; discriminate|].
    destruct (list_eqb (bs "Pages") k) eqn:E2; [apply list_eqb_eq in E2; subst k; discriminate|]. unfold ON. cbn [bs] in E1, E2. cbn in E1, E2 |- *. rewrite E1, E2. reflexivity.
  - assert (K : forall path, (forall a, In a path -> Forall (fun kv => forall i, snd kv = ORef i -> exists v, Leads doc28 ONull (ORef i) v) a) ->
      forall k o, attr path k = Some o -> exists v, Leads doc28 ONull o v).
    { induction path as [|a path IH]; intros HA k o; cbn [attr]; [discriminate|].
      assert (G : forall d, Forall (fun kv => forall i, snd kv = ORef i -> exists v, Leads doc28 ONull (ORef i) v) d -> forall v, dict_get d (OName k) = Some v -> exists w, Leads doc28 ONull v w).
      { induction 1 as [|[k' v'] d H1 H2 IHd]; cbn [dict_get]; [discriminate|]. destruct (key_eqb k' (OName k)); [|exact IHd].
        intros v E. injection E as <-. cbn [snd] in H1. destruct v' as [| | | | | | | | |i| ]; try (eexists; apply Leads_stop; discriminate). apply H1. reflexivity. }
      destruct (dict_get a (OName k)) eqn:E; [intros X; injection X as <-; apply (G a); [apply HA; left; reflexivity|assumption]|].
      destruct (Inheritable k); [|discriminate]. apply IH. intros b Hb. apply HA. right. assumption. }
    assert (L : forall i, In i [2; 3; 6; 7; 8; 9; 4; 5] -> exists v, Leads doc28 ONull (ORef i) v).
    { intros i Hi. cbn in Hi. decompose [or] Hi; subst; try contradiction; eexists; (eapply Leads_ref; [reflexivity|apply Leads_stop; discriminate]). }
    assert (All : forall i, In i [2; 3; 4; 5; 6] -> Forall (fun kv => forall j, snd kv = ORef j -> exists v, Leads doc28 ONull (ORef j) v) (dictof i)).
    { intros i Hi. cbn in Hi. decompose [or] Hi; subst; try contradiction; repeat constructor; intros j E; try discriminate E; injection E as <-; apply L; cbn; tauto. }
    unfold tree28. cbn [leaves flat_map app]. repeat constructor; try discriminate; cbn [snd]; apply K; intros a Ha; cbn [In] in Ha; decompose [or] Ha; subst; try contradiction; apply All; cbn; tauto.
Qed.
Example C28_case : fst (create_pages doc28 9 9 (dictof 1) []) =
  [mkPage 4 (dictof 4 ++ [(ON "Rotate", OInt 450); (ON "MediaBox", ORef 7)]) (ODict []) (OArr [OInt 0; OInt 0; OInt 600; OInt 800]) (OArr [OInt 0; OInt 0; OInt 600; OInt 800]) 90 [OStream [] []];
   mkPage 5 (dictof 5 ++ [(ON "Rotate", OInt 450)]) (ODict []) (OArr [OInt 0; OInt 0; OInt 10; OInt 10]) (OArr [OInt 0; OInt 0; OInt 10; OInt 10]) 90 [];
   mkPage 6 (dictof 6 ++ [(ON "MediaBox", ORef 7); (ON "Rotate", OInt (-90))]) (ODict []) (OArr [OInt 0; OInt 0; OInt 600; OInt 800]) (OArr [OInt 0; OInt 0; OInt 600; OInt 800]) 270 []].
Proof. vm_compute. reflexivity. Qed.

(* a document without a page tree, or whose page tree has no page: every object of the cross-reference sections that is a
   page dictionary is a page, in the order of the sections, with its own attributes only *)
Lemma fallback_lemma getobj ids ps : PageObjects getobj ids ps -> Forall (Usable getobj) ps ->
  exists n pages, (forall d, (n <= d)%nat -> fallback_pages getobj d ids = (pages, None)) /\ Forall2 (PageOf getobj) ps pages.
Proof.
  induction 1 as [|i d ids ps HG HT HP IH|i ids ps HN HP IH]; intros HU.
  - exists 0%nat, []. split; [reflexivity|constructor].
  - inversion HU as [|? ? U1 U2]; subst. destruct (IH U2) as (n & pages & E & F).
    destruct (make_page_lemma getobj (i, [d]) (i, d)) as (m & p & Em & Fm); [|exact U1|].
    { split; [reflexivity|]. intros k. cbn [snd attr]. destruct (dict_get d (OName k)); [reflexivity|]. destruct (Inheritable k); reflexivity. }
    exists (n + m)%nat, (p :: pages). split; [|constructor; assumption]. intros dd Hd. unfold fallback_pages in *. cbn [gflat].
    rewrite HG, HT, E by lia. cbn [is_name ON]. rewrite list_eqb_refl, Em by lia. reflexivity.
  - destruct (IH HU) as (n & pages & E & F). exists n, pages. split; [|assumption]. intros dd Hd. unfold fallback_pages in *. cbn [gflat].
    rewrite E by lia. destruct (getobj i) as [[| | | | | | | |d| | ]|]; try reflexivity. specialize (HN d eq_refl).
    destruct (is_name (dget d "Type") "Page") eqn:EN; [|reflexivity]. exfalso. apply HN. unfold is_name in EN.
    destruct (dget d "Type") as [[| | | | | | | | | | ]|]; try discriminate. apply list_eqb_eq in EN. subst. reflexivity.
Qed.
Theorem C28_fallback getobj catalog objids ps :
  dget catalog "Pages" = None \/
   (exists t, Stored getobj t /\ dget catalog "Pages" = Some (ORef (id_of t)) /\
      (forall k, Inheritable k = true -> dict_get catalog (OName k) = None) /\ leaves [] t = []) ->
  PageObjects getobj (concat objids) ps -> Forall (Usable getobj) ps ->
  exists n pages, (forall f d, (n <= f)%nat -> (n <= d)%nat -> create_pages getobj d f catalog objids = (pages, None)) /\
    Forall2 (PageOf getobj) ps pages.
Proof.
  intros HC HP HU. destruct (fallback_lemma _ _ _ HP HU) as (n & pages & E & F).
  destruct HC as [HC|(t & HS & HC & HI & HE)].
  - exists n, pages. split; [|exact F]. intros f d _ Hd. unfold create_pages. rewrite HC. apply E. exact Hd.
  - destruct (search_lemma getobj t HS catalog []) as (n1 & l & E1 & F1); [intros k Hk; rewrite (HI k Hk); reflexivity|].
    rewrite HE in F1. inversion F1; subst. exists (n + n1)%nat, pages. split; [|exact F].
    intros f d Hf Hd. unfold create_pages. rewrite HC. unfold gmap. rewrite E1 by lia. cbn. apply E. lia.
Qed.
Example C28_fallback_case : PageObjects doc28 (concat [[1; 4]; [5; 9]]) [(4, [dictof 4]); (5, [dictof 5])] /\
  fst (create_pages doc28 9 9 [] [[1]; [5; 9]]) =
  [mkPage 5 (dictof 5) (ODict []) (OArr [OInt 0; OInt 0; OInt 10; OInt 10]) (OArr [OInt 0; OInt 0; OInt 10; OInt 10]) 0 []].
Proof.
  split; [|vm_compute; reflexivity]. cbn [concat app].
  apply PO_other; [intros d H; injection H as <-; discriminate|]. apply PO_page; [reflexivity|reflexivity|].
  apply PO_page; [reflexivity|reflexivity|]. apply PO_other; [discriminate|]. constructor.
Qed.

(* Refuted: a child written as a direct dictionary (not a reference) makes the iteration fail with AttributeError *)
Theorem C28_direct_kid_refuted : exists getobj catalog, forall f d, (3 <= d)%nat ->
  create_pages getobj d (S (S f)) catalog [] = ([], Some AttributeError).
Proof.
  exists (fun i => if i =? 2 then Some (ODict [(ON "Type", ON "Pages"); (ON "Kids", OArr [ODict [(ON "Type", ON "Page"); (ON "MediaBox", OArr [])]])]) else None), [(ON "Pages", ORef 2)].
  intros f [|[|d]] Hd; [lia|lia|]. reflexivity.
Qed.
(* Refuted: a page whose Type is written as a reference to the name is skipped *)
Theorem C28_indirect_type_refuted : exists getobj catalog, forall f d, (3 <= d)%nat ->
  getobj 3 = Some (ODict [(ON "Type", ORef 4); (ON "MediaBox", OArr [])]) /\ getobj 4 = Some (ON "Page") /\
  create_pages getobj d (S (S f)) catalog [] = ([], None).
Proof.
  exists (fun i => if i =? 2 then Some (ODict [(ON "Type", ON "Pages"); (ON "Kids", OArr [ORef 3])])
            else if i =? 3 then Some (ODict [(ON "Type", ORef 4); (ON "MediaBox", OArr [])]) else if i =? 4 then Some (ON "Page") else None), [(ON "Pages", ORef 2)].
  intros f [|[|d]] Hd; [lia|lia|]. repeat split.
Qed.
(* Refuted: one page without a MediaBox ends the whole iteration with KeyError, losing the pages after it *)
Theorem C28_no_mediabox_refuted : exists getobj catalog, forall f d, (3 <= d)%nat ->
  getobj 4 = Some (ODict [(ON "Type", ON "Page"); (ON "MediaBox", OArr [])]) /\
  create_pages getobj d (S (S f)) catalog [] = ([], Some KeyError).
Proof.
  exists (fun i => if i =? 2 then Some (ODict [(ON "Type", ON "Pages"); (ON "Kids", OArr [ORef 3; ORef 4])])
            else if i =? 3 then Some (ODict [(ON "Type", ON "Page")]) else if i =? 4 then Some (ODict [(ON "Type", ON "Page"); (ON "MediaBox", OArr [])]) else None), [(ON "Pages", ORef 2)].
  intros f [|[|d]] Hd; [lia|lia|]. split; reflexivity.
Qed.
(* Refuted: a page tree that refers to itself is never finished, whatever the recursion depth *)
Theorem C28_cycle_refuted : exists getobj, forall f d parent, (2 <= d)%nat -> snd (search getobj d f (ORef 2) parent) = Some OutOfFuel.
Proof.
  exists (fun i => if i =? 2 then Some (ODict [(ON "Type", ON "Pages"); (ON "Kids", OArr [ORef 2])]) else None).
  intros f d parent Hd. revert parent. induction f as [|f IH]; intros parent; [reflexivity|].
  destruct (search_node (fun i => if i =? 2 then Some (ODict [(ON "Type", ON "Pages"); (ON "Kids", OArr [ORef 2])]) else None) f d 2
     [(ON "Type", ON "Pages"); (ON "Kids", OArr [ORef 2])] [ORef 2] (OArr [ORef 2]) parent [parent]) as [_ E].
  - reflexivity.
  - reflexivity.
  - reflexivity.
  - destruct d; [lia|reflexivity].
  - lia.
  - intros k Hk. cbn [attr]. rewrite Hk. destruct (dict_get parent (OName k)); reflexivity.
  - rewrite E. cbn [gflat]. unfold gapp. rewrite IH. apply IH.
Qed.
(* Refuted: an attribute of the catalog itself is inherited by the pages, though the catalog is not in the page tree *)
Theorem C28_catalog_refuted : exists getobj catalog p, create_pages getobj 3 3 catalog [] = ([p], None) /\ pg_rotate p = 90 /\
  dget catalog "Rotate" = Some (OInt 90) /\ forall i a, getobj i = Some (ODict a) -> dget a "Rotate" = None.
Proof.
  exists (fun i => if i =? 2 then Some (ODict [(ON "Type", ON "Pages"); (ON "Kids", OArr [ORef 3])])
            else if i =? 3 then Some (ODict [(ON "Type", ON "Page"); (ON "MediaBox", OArr [])]) else None), [(ON "Pages", ORef 2); (ON "Rotate", OInt 90)].
  eexists. split; [vm_compute; reflexivity|]. split; [reflexivity|]. split; [reflexivity|].
  intros i a. destruct (i =? 2); [intros E; injection E as <-; reflexivity|]. destruct (i =? 3); [intros E; injection E as <-; reflexivity|discriminate].
Qed.

(* ---------- C29 ---------- *)
(* numbered pages of a document from a given number on *)
Definition numbered {A} (l : list A) : list (Z * A) := combine (map Z.of_nat (seq 0 (length l))) l.
Fixpoint numbered_from {A} (n : Z) (l : list A) : list (Z * A) := match l with [] => [] | x :: r => (n, x) :: numbered_from (n + 1) r end.
Lemma numbered_eq {A} (l : list A) : numbered l = numbered_from 0 l.
Proof.
  unfold numbered. assert (G : forall (l : list A) k, combine (map Z.of_nat (seq k (length l))) l = numbered_from (Z.of_nat k) l).
  { induction l0 as [|x l0 IH]; intros k; cbn; [reflexivity|]. rewrite IH. do 2 f_equal. lia. }
  apply (G l 0%nat).
Qed.
(* no maximum: exactly the pages whose number is requested (all when none is), in document order; errors while reading
   are passed on *)
Theorem C29_selection {A} pagenos (pages : list A) e :
  get_pages false true pagenos 0 (pages, e) =
  (map snd (filter (fun np => match pagenos with [] => true | _ => existsb (Z.eqb (fst np)) pagenos end) (numbered pages)), e).
Proof.
  unfold get_pages. cbn [andb negb fst snd]. rewrite numbered_eq.
  assert (G : forall (l : list A) n, select_from pagenos 0 n l = (map snd (filter (fun np => match pagenos with [] => true | _ => existsb (Z.eqb (fst np)) pagenos end) (numbered_from n l)), false)).
  { induction l as [|p l IH]; intros n; cbn [select_from numbered_from filter map]; [reflexivity|]. cbn [fst]. rewrite IH. cbn [Z.eqb negb andb].
    destruct pagenos as [|q qs]; [reflexivity|]. destruct (existsb (Z.eqb n) (q :: qs)); reflexivity. }
  rewrite G. reflexivity.
Qed.
(* a maximum alone: the first pages, at most that many; what comes after is not read *)
Theorem C29_maximum {A} m (pages : list A) e : 0 < m ->
  get_pages false true [] m (pages, e) = (firstn (Z.to_nat m) pages, if m <=? Z.of_nat (length pages) then None else e).
Proof.
  intros Hm. unfold get_pages. cbn [andb negb fst snd].
  assert (G : forall (l : list A) n, 0 <= n < m -> select_from [] m n l = (firstn (Z.to_nat (m - n)) l, m <=? n + Z.of_nat (length l))).
  { induction l as [|p l IH]; intros n Hn; cbn [select_from].
    - rewrite firstn_nil. f_equal. cbn. lia.
    - replace (Z.to_nat (m - n)) with (S (Z.to_nat (m - (n + 1)))) by lia. cbn [firstn length].
      replace (negb (m =? 0)) with true by lia. cbn [andb]. destruct (m <=? n + 1) eqn:E.
      + replace (Z.to_nat (m - (n + 1))) with 0%nat by lia. cbn [firstn]. f_equal. lia.
      + rewrite IH by lia. f_equal. lia. }
  rewrite G by lia. rewrite Z.sub_0_r. cbn. reflexivity.
Qed.
(* both: the pages given are requested, in document order, a subsequence of the document, and at most the maximum *)
Inductive Sub {A} : list A -> list A -> Prop :=
| Sub_nil : Sub [] []
| Sub_take : forall x a b, Sub a b -> Sub (x :: a) (x :: b)
| Sub_skip : forall x a b, Sub a b -> Sub a (x :: b).
Theorem C29_both_partial {A} pagenos m (pages : list A) e : 0 < m -> pagenos <> [] ->
  exists sel, fst (get_pages false true pagenos m (pages, e)) = map snd sel /\ Sub sel (numbered pages) /\
    Forall (fun np => In (fst np) pagenos) sel /\ Z.of_nat (length sel) <= m.
Proof.
  intros Hm Hp. unfold get_pages. cbn [andb negb fst snd]. rewrite numbered_eq.
  assert (G : forall (l : list A) n k, 0 <= k -> k <= n -> (k < m) -> exists sel, fst (select_from pagenos m n l) = map snd sel /\ Sub sel (numbered_from n l) /\
     Forall (fun np => In (fst np) pagenos) sel /\ Z.of_nat (length sel) + k <= m).
  { induction l as [|p l IH]; intros n k Hk Hkn Hkm; cbn [select_from numbered_from].
    - exists []. repeat split; [constructor|constructor|cbn; lia].
    - destruct pagenos as [|q qs] eqn:Eq; [contradiction|]. rewrite <- Eq in *. destruct (existsb (Z.eqb n) pagenos) eqn:Ex; cbn [negb].
      + apply existsb_exists in Ex as (x & Hx & Exx). assert (x = n) by lia. subst x.
        replace (m =? 0) with false by lia. cbn [negb andb]. destruct (m <=? n + 1) eqn:E.
        * exists [(n, p)]. repeat split; [apply Sub_take|constructor; [exact Hx|constructor]|cbn; lia].
          clear. generalize (n + 1). induction l; intros z; cbn; [constructor|apply Sub_skip; apply IHl].
        * destruct (IH (n + 1) (k + 1) ltac:(lia) ltac:(lia) ltac:(lia)) as (sel & E1 & E2 & E3 & E4).
          destruct (select_from pagenos m (n + 1) l) as [sl stop]. cbn [fst] in *. exists ((n, p) :: sel). cbn [map snd]. rewrite E1.
          repeat split; [apply Sub_take; assumption|constructor; assumption|cbn [length]; lia].
      + destruct (IH (n + 1) k ltac:(lia) ltac:(lia) ltac:(lia)) as (sel & E1 & E2 & E3 & E4). exists sel. repeat split; [assumption|apply Sub_skip; assumption|assumption|assumption]. }
  destruct (G pages 0 0) as (sel & E1 & E2 & E3 & E4); [lia|lia|lia|]. exists sel. destruct (select_from pagenos m 0 pages) as [sl stop]. cbn [fst] in *.
  repeat split; try assumption. lia.
Qed.
(* Refuted: with both, fewer pages than allowed are given: the maximum is compared with the page number *)
Theorem C29_both_refuted : exists pagenos m (pages : list Z), fst (get_pages false true pagenos m (pages, None)) = [5] /\
  m = 2 /\ pagenos = [5; 6] /\ In 6 pages.
Proof. exists [5; 6], 2, [0; 1; 2; 3; 4; 5; 6; 7]. repeat split. cbn. tauto. Qed.
(* Refuted: selecting no page gives every page *)
Theorem C29_empty_selection_refuted {A} (pages : list A) : fst (get_pages false true [] 0 (pages, None)) = pages.
Proof.
  rewrite C29_selection. cbn [fst]. rewrite numbered_eq. generalize 0. induction pages as [|p pages IH]; intros n; cbn; [reflexivity|]. f_equal. apply IH.
Qed.
(* a document that forbids extraction yields nothing unless the check is off *)
Theorem C29_extractable {A} pagenos m (g : gen A) : get_pages true false pagenos m g = ([], Some PDFTextExtractionNotAllowed) /\
  get_pages true true pagenos m g = get_pages false true pagenos m g /\ get_pages false false pagenos m g = get_pages false true pagenos m g.
Proof. repeat split. Qed.

(* ---------- C30 ---------- *)
Theorem C30_rotation getobj d i attrs p r : make_page getobj d (i, attrs) = Ok p -> dget attrs "Rotate" = Some (OInt r) ->
  0 <= pg_rotate p < 360 /\ exists k, pg_rotate p = r + 360 * k.
Proof.
  unfold make_page. intros H HR. repeat match type of H with (do _ <- ?x; _) = _ => destruct x eqn:?; cbn [bind] in H; [|discriminate] end.
  injection H as <-. cbn [pg_rotate].
  assert (a3 = r).
  { match goal with E : int_value _ _ _ = Ok a3 |- _ => rewrite HR in E; unfold int_value in E; destruct d; cbn in E; [discriminate|injection E as <-; reflexivity] end. }
  subst a3. split; [apply Z.mod_pos_bound; lia|]. exists (1 - (r + 360) / 360). pose proof (Z.div_mod (r + 360) 360). lia.
Qed.
Theorem C30_default getobj d i attrs p : make_page getobj d (i, attrs) = Ok p -> dget attrs "Rotate" = None -> pg_rotate p = 0.
Proof.
  unfold make_page. intros H HR. repeat match type of H with (do _ <- ?x; _) = _ => destruct x eqn:?; cbn [bind] in H; [|discriminate] end.
  injection H as <-. cbn [pg_rotate].
  match goal with E : int_value _ _ _ = Ok ?z |- _ => rewrite HR in E; unfold int_value in E; destruct d; cbn in E; [discriminate|injection E as <-; reflexivity] end.
Qed.

(* ---------- C31 ---------- *)
(* the four rotations: clockwise by the given angle (90: a step to the right becomes a step down), then moved so that the
   sheet starts at the origin: a point of the media box goes into the box of the rotated sheet, and every point of that
   comes from one *)
Definition quarter (k : Z) (v : num * num) : num * num :=   (* k quarter turns clockwise of a vector *)
  let '(x, y) := v in
  if k =? 1 then (y, - x)%Qc else if k =? 2 then (- x, - y)%Qc else if k =? 3 then (- y, x)%Qc else (x, y).
Theorem C31_rotation_partial k x0 y0 x1 y1 p : 0 <= k <= 3 ->
  apply_matrix_norm (page_ctm (90 * k) x0 y0 x1 y1) p = quarter k p.
Proof.
  intros Hk. destruct p as [x y]. assert (E : k = 0 \/ k = 1 \/ k = 2 \/ k = 3) by lia.
  change (qz 1) with 1%Qc. 
  decompose [or] E; subst; cbn [page_ctm quarter apply_matrix_norm Z.mul Z.eqb Pos.eqb Pos.mul Pos.add]; unfold page_ctm; cbn; rewrite ?qz_opp;
   change (qz 1) with 1%Qc; change (qz 0) with 0%Qc; change (qz (-1)) with (-(1))%Qc; apply (f_equal2 pair); ring.
Qed.
Lemma ctm_image k x0 y0 x1 y1 x y : 0 <= k <= 3 -> apply_matrix_pt (page_ctm (90 * k) x0 y0 x1 y1) (x, y) =
  if k =? 1 then (y - y0, x1 - x)%Qc else if k =? 2 then (x1 - x, y1 - y)%Qc else if k =? 3 then (y1 - y, x - x0)%Qc else (x - x0, y - y0)%Qc.
Proof.
  intros Hk. assert (E : k = 0 \/ k = 1 \/ k = 2 \/ k = 3) by lia.
  decompose [or] E; subst k; unfold page_ctm; cbn; change (qz 1) with 1%Qc; change (qz 0) with 0%Qc; change (qz (-1)) with (-(1))%Qc; apply (f_equal2 pair); ring.
Qed.
Theorem C31_onto_origin k x0 y0 x1 y1 x y : 0 <= k <= 3 ->
  let (w, h) := if Z.even k then ((x1 - x0)%Qc, (y1 - y0)%Qc) else ((y1 - y0)%Qc, (x1 - x0)%Qc) in
  let (u, v) := apply_matrix_pt (page_ctm (90 * k) x0 y0 x1 y1) (x, y) in
  Contains x0 y0 x1 y1 x y <-> Contains (qz 0) (qz 0) w h u v.
Proof.
  intros Hk. rewrite (ctm_image k x0 y0 x1 y1 x y Hk). unfold Contains. assert (E : k = 0 \/ k = 1 \/ k = 2 \/ k = 3) by lia.
  decompose [or] E; subst k; cbn [Z.even Z.eqb Pos.eqb]; split; intros (H1 & H2 & H3 & H4); repeat split; qc_lra.
Qed.
(* distances are kept *)
Theorem C31_distance k x0 y0 x1 y1 p q : 0 <= k <= 3 -> let f := apply_matrix_pt (page_ctm (90 * k) x0 y0 x1 y1) in
  let d2 := fun a b : num * num => ((fst a - fst b) * (fst a - fst b) + (snd a - snd b) * (snd a - snd b))%Qc in
  d2 (f p) (f q) = d2 p q.
Proof.
  intros Hk. assert (E : k = 0 \/ k = 1 \/ k = 2 \/ k = 3) by lia. destruct p as [px py], q as [qx qy].
  cbn zeta. rewrite !ctm_image by assumption. decompose [or] E; subst k; cbn [Z.eqb Pos.eqb fst snd]; ring.
Qed.
(* Refuted: the width and height reported for a page rotated by 90 are those of the sheet before rotation *)
Theorem C31_size_refuted : page_size (qz 0) (qz 0) (qz 600) (qz 800) = (qz 600, qz 800) /\
  apply_matrix_pt (page_ctm 90 (qz 0) (qz 0) (qz 600) (qz 800)) (qz 0, qz 800) = (qz 800, qz 600).
Proof. split; vm_compute; apply (f_equal2 pair); apply Qc_is_canon; reflexivity. Qed.

(* ---------- C32 ---------- *)
Section c32.
  Context {A : Type} (l : list A).
  Notation src := (l, @None exn).
  (* consuming one iteration to its end: n times next and then the end *)
  Lemma load_all : forall n pages iters k, nth_error iters k = Some (Loading n) -> (n <= length l)%nat -> pages = firstn n l -> l <> [] ->
    exists iters', nth_error iters' k = Some Over /\
     acts src (mkInterp pages iters) (repeat (Next k) (S (length l - n))) = (mkInterp l iters', map (fun p => (k, Yield p)) (skipn n l) ++ [(k, Stop)]).
  Proof.
    intros n. remember (length l - n)%nat as m eqn:Hm. revert n Hm. induction m as [|m IH]; intros n Hm pages iters k Hk Hn Hp Hne.
    - assert (n = length l) by lia. subst n. rewrite firstn_all in Hp. subst pages. rewrite skipn_all. cbn [map app repeat acts act in_iters in_pages].
      rewrite Hk. cbn [next_step]. unfold load_step. cbn [fst snd]. rewrite (proj2 (nth_error_None l (length l))) by lia.
      destruct l as [|x l']; [contradiction|]. exists (set_nth iters k Over). split; [|reflexivity].
      unfold set_nth. assert (k < length iters)%nat by (apply nth_error_Some; congruence). rewrite nth_error_app2 by (rewrite firstn_length; lia). rewrite firstn_length, Nat.min_l by lia. rewrite Nat.sub_diag. reflexivity.
    - destruct (nth_error l n) as [p|] eqn:Ep; [|apply nth_error_None in Ep; lia].
      change (repeat (Next k) (S (S m))) with (Next k :: repeat (Next k) (S m)). cbn [acts act in_iters in_pages]. rewrite Hk. cbn [next_step]. unfold load_step. cbn [fst snd]. rewrite Ep.
      assert (k < length iters)%nat by (apply nth_error_Some; congruence).
      destruct (IH (S n) ltac:(lia) (pages ++ [p]) (set_nth iters k (Loading (S n))) k) as (it' & H1 & H2).
      + unfold set_nth. rewrite nth_error_app2 by (rewrite firstn_length; lia). rewrite firstn_length, Nat.min_l by lia. rewrite Nat.sub_diag. reflexivity.
      + lia.
      + subst pages. rewrite <- (firstn_skipn n l) in Ep. rewrite nth_error_app2 in Ep by (rewrite firstn_length; lia). rewrite firstn_length, Nat.min_l, Nat.sub_diag in Ep by lia.
        destruct (skipn n l) as [|y r] eqn:Es; [discriminate|]. injection Ep as ->.
        rewrite <- (firstn_skipn n l) at 2. rewrite Es. rewrite firstn_app, firstn_firstn, firstn_length. replace (S n - Nat.min n (length l))%nat with 1%nat by lia. rewrite Nat.min_r by lia. reflexivity.
      + assumption.
      + exists it'. split; [exact H1|]. rewrite H2. cbn [acts]. f_equal. 
        assert (Es : skipn n l = p :: skipn (S n) l).
        { clear -Ep. revert n Ep. induction l as [|x r IHr]; intros [|n] E; try discriminate; cbn in *; [congruence|apply IHr; assumption]. }
        rewrite Es. reflexivity.
  Qed.
  Lemma walk_all pages : forall m n iters k, nth_error iters k = Some (Walking n) -> m = (length pages - n)%nat -> (n <= length pages)%nat ->
    exists iters', nth_error iters' k = Some Over /\
     acts src (mkInterp pages iters) (repeat (Next k) (S m)) = (mkInterp pages iters', map (fun p => (k, Yield p)) (skipn n pages) ++ [(k, Stop)]).
  Proof.
    induction m as [|m IH]; intros n iters k Hk Hm Hn.
    - assert (n = length pages) by lia. subst n. rewrite skipn_all. cbn [map app repeat acts act in_iters in_pages]. rewrite Hk. cbn [next_step]. unfold walk_step.
      rewrite (proj2 (nth_error_None pages (length pages))) by lia. exists (set_nth iters k Over). split; [|reflexivity].
      unfold set_nth. assert (k < length iters)%nat by (apply nth_error_Some; congruence). rewrite nth_error_app2 by (rewrite firstn_length; lia). rewrite firstn_length, Nat.min_l by lia. rewrite Nat.sub_diag. reflexivity.
    - destruct (nth_error pages n) as [p|] eqn:Ep; [|apply nth_error_None in Ep; lia].
      change (repeat (Next k) (S (S m))) with (Next k :: repeat (Next k) (S m)). cbn [acts act in_iters in_pages]. rewrite Hk. cbn [next_step]. unfold walk_step. rewrite Ep.
      assert (k < length iters)%nat by (apply nth_error_Some; congruence).
      destruct (IH (S n) (set_nth iters k (Walking (S n))) k) as (it' & H1 & H2).
      + unfold set_nth. rewrite nth_error_app2 by (rewrite firstn_length; lia). rewrite firstn_length, Nat.min_l by lia. rewrite Nat.sub_diag. reflexivity.
      + lia.
      + lia.
      + exists it'. split; [exact H1|]. rewrite H2. f_equal.
        assert (Es : skipn n pages = p :: skipn (S n) pages).
        { clear -Ep. revert n Ep. induction pages as [|x r IHr]; intros [|n] E; try discriminate; cbn in *; [congruence|apply IHr; assumption]. }
        rewrite Es. reflexivity.
  Qed.

  Lemma acts_cons a s h : acts src s (a :: h) = let (s1, o) := act src s a in let (s2, os) := acts src s1 h in (s2, match o with Some x => x :: os | None => os end).
  Proof. reflexivity. Qed.
  Lemma acts_app a : forall s b, acts src s (a ++ b) = let (s1, o1) := acts src s a in let (s2, o2) := acts src s1 b in (s2, o1 ++ o2).
  Proof.
    induction a as [|x a IH]; intros s b; cbn [app acts]; [destruct (acts src s b); reflexivity|].
    destruct (act src s x) as [s1 o]. rewrite IH. destruct (acts src s1 a) as [s2 o2]. destruct (acts src s2 b) as [s3 o3]. destruct o; reflexivity.
  Qed.
  Lemma nth_snoc {X} (a : list X) x : nth_error (a ++ [x]) (length a) = Some x.
  Proof. rewrite nth_error_app2, Nat.sub_diag by lia. reflexivity. Qed.
  Lemma nth_set_nth {X} (a : list X) k x : (k < length a)%nat -> nth_error (set_nth a k x) k = Some x.
  Proof. intros H. unfold set_nth. rewrite nth_error_app2 by (rewrite firstn_length; lia). rewrite firstn_length, Nat.min_l, Nat.sub_diag by lia. reflexivity. Qed.
  Lemma set_nth_length {X} (a : list X) k x : (k < length a)%nat -> length (set_nth a k x) = length a.
  Proof. intros H. unfold set_nth. rewrite app_length, firstn_length. cbn [length]. rewrite skipn_length. lia. Qed.
  Lemma acts_iters h : forall s, (forall a, In a h -> exists k, a = Next k) -> length (in_iters (fst (acts src s h))) = length (in_iters s).
  Proof.
    induction h as [|a h IH]; intros s Hh; [reflexivity|]. cbn [acts]. destruct (act src s a) as [s1 o] eqn:E. specialize (IH s1 (fun b Hb => Hh b (or_intror Hb))).
    destruct (acts src s1 h) as [s2 os]. cbn [fst] in *. rewrite IH. destruct (Hh a (or_introl eq_refl)) as [k ->]. cbn [act] in E.
    destruct (nth_error (in_iters s) k) as [i|] eqn:Ei; [|injection E as <- <-; reflexivity].
    destruct (next_step src (in_pages s) i) as [[oo ps] i']. injection E as <- <-. cbn [in_iters]. apply set_nth_length. apply nth_error_Some. congruence.
  Qed.
  (* starting an iteration on a complete list *)
  Lemma full_iteration iters : l <> [] -> exists iters', length iters' = S (length iters) /\ acts src (mkInterp l iters) (Iter :: repeat (Next (length iters)) (S (length l))) =
      (mkInterp l iters', map (fun p => (length iters, Yield p)) l ++ [(length iters, Stop)]).
  Proof.
    intros Hne. cbn [acts act in_iters in_pages repeat]. rewrite nth_snoc. cbn [next_step].
    assert (E : (match l with [] => load_step src l 0 | _ :: _ => walk_step l 0 end) = walk_step l 0) by (destruct l; [contradiction|reflexivity]).
    rewrite E. destruct l as [|x r] eqn:El; [contradiction|]. cbn [walk_step nth_error].
    destruct (walk_all (x :: r) (length r) 1 (set_nth (iters ++ [Fresh]) (length iters) (Walking 1)) (length iters)) as (it' & H1 & H2).
    - apply nth_set_nth. rewrite app_length. cbn. lia.
    - cbn. lia.
    - cbn. lia.
    - exists it'. rewrite El in H2. change (length (x :: r)) with (S (length r)). rewrite H2. split; [|reflexivity].
      assert (L : length (in_iters (fst (acts (x :: r, None) (mkInterp (x :: r) (set_nth (iters ++ [Fresh]) (length iters) (Walking 1))) (repeat (Next (length iters)) (S (length r)))))) = S (length iters)).
      { rewrite <- El. rewrite acts_iters; [|intros a Ha; apply repeat_spec in Ha; exists (length iters); exact Ha]. cbn [in_iters].
        rewrite set_nth_length; rewrite app_length; cbn; lia. }
      rewrite H2 in L. exact L.
  Qed.
  (* iterations each consumed to its end before the next one is started: every one yields every page *)
  Theorem C32_serial_partial (r : nat) : l <> [] ->
    exists s, acts src fresh_interp (flat_map (fun k => Iter :: repeat (Next k) (S (length l))) (seq 0 r)) =
      (s, flat_map (fun k => map (fun p => (k, Yield p)) l ++ [(k, Stop)]) (seq 0 r)).
  Proof.
    intros Hne. assert (G : forall r iters, exists s, acts src (mkInterp l iters) (flat_map (fun k => Iter :: repeat (Next k) (S (length l))) (seq (length iters) r)) =
       (s, flat_map (fun k => map (fun p => (k, Yield p)) l ++ [(k, Stop)]) (seq (length iters) r))).
    { clear r. induction r as [|r IH]; intros iters; cbn [seq flat_map]; [eexists; reflexivity|].
      destruct (full_iteration iters Hne) as (it' & L & E). rewrite acts_app, E. rewrite <- L. destruct (IH it') as (s & Es). rewrite Es. eexists. reflexivity. }
    destruct r as [|r]; [eexists; reflexivity|]. cbn [seq flat_map]. rewrite acts_app.
    cbn [acts act fresh_interp in_iters in_pages repeat app]. cbn [nth_error next_step]. unfold load_step at 1. cbn [fst snd].
    destruct l as [|x t] eqn:El; [contradiction|]. rewrite <- El in *. replace (nth_error l 0) with (Some x) by (rewrite El; reflexivity).
    destruct (load_all 1 [x] (set_nth [Fresh] 0 (Loading 1)) 0) as (it' & H1 & H2); [reflexivity|rewrite El; cbn; lia|rewrite El; reflexivity|assumption|].
    assert (EL : length l = S (length l - 1)) by (rewrite El; cbn; lia).
    assert (L : length (in_iters (fst (acts src (mkInterp [x] (set_nth [Fresh] 0 (Loading 1))) (repeat (Next 0) (S (length l - 1)))))) = 1%nat).
    { rewrite acts_iters; [reflexivity|intros a Ha; apply repeat_spec in Ha; exists 0%nat; exact Ha]. }
    rewrite <- EL in H2, L. cbn [app] in H2 |- *. rewrite H2 in L |- *. cbn [fst in_iters] in L.
    destruct (G r it') as (s & Es). rewrite L in Es. cbn [repeat app] in Es |- *. rewrite Es. exists s. f_equal. rewrite El. reflexivity.
  Qed.
  (* preloaded: every interleaving of any number of iterations: what each has been given is the pages from the first on,
     and it stops only after the last *)
  Definition pos (o : option iter) : nat := match o with None | Some Fresh => 0 | Some (Walking n) => n | Some (Loading n) => n | Some Over => length l end.
  Lemma preloaded_run h : forall iters k, l <> [] -> (forall j n, nth_error iters j <> Some (Loading n)) -> 
    exists m j, given k (snd (acts src (mkInterp l iters) h)) = map Yield (firstn m (skipn (pos (nth_error iters k)) l)) ++ repeat Stop j /\ (j = 0%nat \/ (length (skipn (pos (nth_error iters k)) l) <= m)%nat).
  Proof.
    induction h as [|a h IH]; intros iters k Hne HL.
    - exists 0%nat, 0%nat. split; [reflexivity|left; reflexivity].
    - cbn [acts]. destruct a as [|k'].
      + cbn [act in_pages in_iters]. destruct (IH (iters ++ [Fresh]) k Hne) as (m & j & E1 & E2).
        { intros j0 n Hj. destruct (Nat.lt_ge_cases j0 (length iters)) as [Hlt|Hge]; [rewrite nth_error_app1 in Hj by exact Hlt; exact (HL _ _ Hj)|].
          rewrite nth_error_app2 in Hj by exact Hge. destruct (j0 - length iters)%nat as [|[|q]]; discriminate. }
        destruct (acts src (mkInterp l (iters ++ [Fresh])) h) as [s2 os]. cbn [snd] in *. exists m, j.
        assert (EP : pos (nth_error (iters ++ [Fresh]) k) = pos (nth_error iters k)).
        { destruct (Nat.lt_ge_cases k (length iters)) as [Hlt|Hge]; [rewrite nth_error_app1 by exact Hlt; reflexivity|].
          rewrite nth_error_app2 by exact Hge. rewrite (proj2 (nth_error_None iters k)) by exact Hge. destruct (k - length iters)%nat as [|[|q]]; reflexivity. }
        rewrite EP in *. split; assumption.
      + cbn [act in_pages in_iters]. destruct (nth_error iters k') as [i|] eqn:Ei.
        2:{ destruct (IH iters k Hne HL) as (m & j & E1 & E2). destruct (acts src (mkInterp l iters) h) as [s2 os]. cbn [snd] in *. exists m, j. split; assumption. }
        assert (Hlen : (k' < length iters)%nat) by (apply nth_error_Some; congruence).
        assert (St : exists o i', next_step src l i = (o, l, i') /\ (forall n, i' <> Loading n) /\ ((exists p, o = Yield p /\ skipn (pos (Some i)) l = p :: skipn (pos (Some i')) l) \/ (o = Stop /\ (length l <= pos (Some i))%nat /\ i' = Over))).
        { assert (Es : forall n p, nth_error l n = Some p -> skipn n l = p :: skipn (S n) l).
          { clear. induction l as [|x r IHr]; intros [|n] p E; try discriminate; cbn in *; [congruence|apply IHr; assumption]. }
          assert (W : forall n, exists o i', walk_step l n = (o, l, i') /\ (forall n0, i' <> Loading n0) /\ ((exists p, o = Yield p /\ skipn n l = p :: skipn (pos (Some i')) l) \/ (o = Stop /\ (length l <= n)%nat /\ i' = Over))).
          { intros n. unfold walk_step. destruct (nth_error l n) as [p|] eqn:Ep.
            - eexists _, _. split; [reflexivity|]. split; [discriminate|]. left. exists p. split; [reflexivity|]. cbn [pos]. apply Es. assumption.
            - eexists _, _. split; [reflexivity|]. split; [discriminate|]. right. apply nth_error_None in Ep. repeat split; assumption. }
          destruct i as [|n|n|]; cbn [next_step pos].
          - destruct l as [|x r] eqn:El; [contradiction|]. rewrite <- El in *. apply (W 0%nat).
          - apply W.
          - exfalso. exact (HL _ _ Ei).
          - eexists _, _. split; [reflexivity|]. split; [discriminate|]. right. repeat split. lia. }
        destruct St as (o & i' & Est & Hi' & HO). rewrite Est.
        destruct (IH (set_nth iters k' i') k Hne) as (m & j & E1 & E2).
        { intros j0 n Hj. destruct (Nat.eq_dec j0 k') as [->|Hn]; [rewrite nth_set_nth in Hj by exact Hlen; injection Hj as ->; exact (Hi' _ eq_refl)|].
          apply (HL j0 n). rewrite <- Hj. unfold set_nth. symmetry. destruct (Nat.lt_ge_cases j0 k') as [Hlt|Hge].
          - rewrite nth_error_app1 by (rewrite firstn_length; lia). rewrite <- (firstn_skipn k' iters) at 2. rewrite nth_error_app1 by (rewrite firstn_length; lia). reflexivity.
          - rewrite nth_error_app2 by (rewrite firstn_length; lia). rewrite firstn_length, Nat.min_l by lia. replace (j0 - k')%nat with (S (j0 - S k')) by lia. cbn [nth_error].
            rewrite <- (firstn_skipn (S k') iters) at 2. rewrite nth_error_app2 by (rewrite firstn_length; lia). rewrite firstn_length, Nat.min_l by lia. reflexivity. }
        destruct (acts src (mkInterp l (set_nth iters k' i')) h) as [s2 os]. cbn [snd] in *.
        unfold given in *. cbn [filter fst]. destruct (Nat.eqb_spec k' k) as [->|Hn].
        * cbn [map snd]. rewrite nth_set_nth in E1, E2 by exact Hlen. rewrite Ei. rewrite E1. destruct HO as [(p & -> & Hs)|(-> & Hs & ->)].
          -- exists (S m), j. rewrite Hs. cbn [firstn map app length]. split; [reflexivity|]. destruct E2 as [->|E2]; [left; reflexivity|right; lia].
          -- exists 0%nat, (S j). rewrite (skipn_all2 (n := pos (Some i)) l) by exact Hs. change (pos (Some Over)) with (length l). rewrite (skipn_all2 (n := length l) l) by lia. rewrite firstn_nil. cbn [firstn map app repeat length].
             split; [reflexivity|right; lia].
        * exists m, j. assert (EP : nth_error (set_nth iters k' i') k = nth_error iters k).
          { unfold set_nth. destruct (Nat.lt_ge_cases k k') as [Hlt|Hge].
            - rewrite nth_error_app1 by (rewrite firstn_length; lia). rewrite <- (firstn_skipn k' iters) at 2. rewrite nth_error_app1 by (rewrite firstn_length; lia). reflexivity.
            - rewrite nth_error_app2 by (rewrite firstn_length; lia). rewrite firstn_length, Nat.min_l by lia. replace (k - k')%nat with (S (k - S k')) by lia. cbn [nth_error].
              rewrite <- (firstn_skipn (S k') iters) at 2. rewrite nth_error_app2 by (rewrite firstn_length; lia). rewrite firstn_length, Nat.min_l by lia. reflexivity. }
          rewrite EP in *. split; assumption.
  Qed.
  Theorem C32_preloaded_partial s h k : preloaded src = Ok s ->
    exists m j, given k (snd (acts src s h)) = map Yield (firstn m l) ++ repeat Stop j /\ (j = 0%nat \/ (length l <= m)%nat).
  Proof.
    unfold preloaded. cbn [fst snd]. intros H. destruct l as [|x r] eqn:El; [discriminate|]. rewrite <- El in *. injection H as <-.
    destruct (preloaded_run h [] k) as (m & j & E1 & E2); [rewrite El; discriminate|intros [|q] n; discriminate|].
    exists m, j. replace (nth_error [] k) with (@None iter) in * by (destruct k; reflexivity). cbn [pos skipn] in *. split; assumption.
  Qed.
  (* Refuted: an iteration given up after n pages (n > 0) truncates the document for ever: the next one yields those n *)
  Lemma load_some : forall n m pages iters k, nth_error iters k = Some (Loading m) -> (m + n <= length l)%nat -> pages = firstn m l ->
    exists iters', length iters' = length iters /\ acts src (mkInterp pages iters) (repeat (Next k) n) = (mkInterp (firstn (m + n) l) iters', map (fun p => (k, Yield p)) (firstn n (skipn m l))).
  Proof.
    induction n as [|n IH]; intros m pages iters k Hk Hn Hp; [exists iters; subst; rewrite Nat.add_0_r; split; reflexivity|].
    destruct (nth_error l m) as [p|] eqn:Ep; [|apply nth_error_None in Ep; lia].
    assert (Es : skipn m l = p :: skipn (S m) l).
    { clear -Ep. revert m Ep. induction l as [|x r IHr]; intros [|n] E; try discriminate; cbn in *; [congruence|apply IHr; assumption]. }
    assert (Hlen : (k < length iters)%nat) by (apply nth_error_Some; congruence).
    cbn [repeat acts act in_iters in_pages]. rewrite Hk. cbn [next_step]. unfold load_step. cbn [fst snd]. rewrite Ep.
    destruct (IH (S m) (pages ++ [p]) (set_nth iters k (Loading (S m))) k) as (it' & L & E).
    - apply nth_set_nth. assumption.
    - lia.
    - subst pages. rewrite <- (firstn_skipn m l) at 2. rewrite Es. rewrite firstn_app, firstn_firstn, firstn_length. replace (S m - Nat.min m (length l))%nat with 1%nat by lia. rewrite Nat.min_r by lia. reflexivity.
    - exists it'. rewrite set_nth_length in L by exact Hlen. split; [exact L|]. rewrite E. replace (m + S n)%nat with (S m + n)%nat by lia. rewrite Es. reflexivity.
  Qed.
  Theorem C32_abandoned_refuted n : (0 < n <= length l)%nat ->
    snd (acts src fresh_interp (Iter :: repeat (Next 0) n ++ Iter :: repeat (Next 1) (S n))) =
    map (fun p => (0%nat, Yield p)) (firstn n l) ++ map (fun p => (1%nat, Yield p)) (firstn n l) ++ [(1%nat, Stop)].
  Proof.
    intros Hn. destruct n as [|n]; [lia|]. destruct l as [|x r] eqn:El; [cbn in Hn; lia|]. rewrite <- El in *.
    change (Iter :: repeat (Next 0) (S n) ++ Iter :: repeat (Next 1) (S (S n))) with ([Iter; Next 0] ++ repeat (Next 0) n ++ Iter :: repeat (Next 1) (S (S n))).
    rewrite acts_app. cbn [acts act fresh_interp in_iters in_pages app nth_error next_step]. unfold load_step at 1. cbn [fst snd]. replace (nth_error l 0) with (Some x) by (rewrite El; reflexivity).
    rewrite acts_app. destruct (load_some n 1 [x] (set_nth [Fresh] 0 (Loading 1)) 0) as (it' & L & E); [reflexivity|lia|rewrite El; reflexivity|].
    cbn [app] in E |- *. rewrite E. cbn [Nat.add]. cbn [acts act in_iters in_pages]. 
    assert (L1 : length it' = 1%nat) by exact L.
    assert (Hf : firstn (S n) l <> []) by (rewrite El; discriminate).
    assert (Hfl : length (firstn (S n) l) = S n) by (rewrite firstn_length; lia).
    assert (K : exists s, acts src (mkInterp (firstn (S n) l) (it' ++ [Fresh])) (repeat (Next 1) (S (S n))) = (s, map (fun p => (1%nat, Yield p)) (firstn (S n) l) ++ [(1%nat, Stop)])).
    { change (repeat (Next 1) (S (S n))) with (Next 1 :: repeat (Next 1) (S n)). rewrite acts_cons. cbn [act in_iters in_pages]. replace (nth_error (it' ++ [Fresh]) 1) with (Some Fresh) by (rewrite <- L1, nth_snoc; reflexivity). cbn [next_step].
      set (pg := firstn (S n) l) in *. assert (Eb : (match pg with [] => load_step src pg 0 | _ :: _ => walk_step pg 0 end) = walk_step pg 0) by (destruct pg; [contradiction|reflexivity]).
      rewrite Eb. destruct pg as [|y q] eqn:Epg; [contradiction|]. cbn [walk_step nth_error].
      destruct (walk_all (y :: q) n 1 (set_nth (it' ++ [Fresh]) 1 (Walking 1)) 1) as (it2 & H1 & H2).
      - apply nth_set_nth. rewrite app_length. cbn. lia.
      - cbn in *. lia.
      - cbn. lia.
      - rewrite H2. eexists. reflexivity. }
    destruct K as (s & Ks). rewrite Ks. cbn [snd]. rewrite El. reflexivity.
  Qed.
End c32.
(* Refuted: a second iteration started while the first is under way ends as soon as it catches up *)
Theorem C32_interleaved_refuted : snd (acts ([10; 20; 30], None) fresh_interp [Iter; Iter; Next 0; Next 1; Next 1; Next 0; Next 0; Next 0]) =
  [(0%nat, Yield 10); (1%nat, Yield 10); (1%nat, Stop); (0%nat, Yield 20); (0%nat, Yield 30); (0%nat, Stop)].
Proof. reflexivity. Qed.
(* Refuted: an iteration that failed with an exception after some pages; the next one stops after them as if complete *)
Theorem C32_error_forgotten_refuted : snd (acts ([10], Some KeyError) fresh_interp [Iter; Next 0; Next 0; Iter; Next 1; Next 1]) =
  [(0%nat, Yield 10); (0%nat, Raise KeyError); (1%nat, Yield 10); (1%nat, Stop)].
Proof. reflexivity. Qed.
(* an empty document is reported at the end of every iteration *)
Theorem C32_empty (r : nat) : exists s, acts (@nil Z, None) fresh_interp (flat_map (fun k => [Iter; Next k]) (seq 0 r)) =
  (s, map (fun k => (k, Raise EmptyDocumentError)) (seq 0 r)).
Proof.
  assert (G : forall r iters, exists s, acts (@nil Z, None) (mkInterp [] iters) (flat_map (fun k => [Iter; Next k]) (seq (length iters) r)) =
    (s, map (fun k => (k, Raise EmptyDocumentError)) (seq (length iters) r))).
  { clear r. induction r as [|r IH]; intros iters; [eexists; reflexivity|]. cbn [seq flat_map app acts act in_iters in_pages map].
    rewrite nth_snoc. cbn [next_step load_step fst snd nth_error]. destruct (IH (set_nth (iters ++ [Fresh]) (length iters) Over)) as (s & E).
    rewrite set_nth_length in E by (rewrite app_length; cbn; lia). rewrite app_length, Nat.add_comm in E. cbn [length Nat.add] in E. rewrite E. eexists. reflexivity. }
  apply (G r []).
Qed.
