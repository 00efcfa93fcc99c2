(* C23, C25, C26, C27, C63, C64: object lookup, caching, object streams, the chain of cross-reference sections, files
   with several revisions. *)
From Coq Require Import String.
From Verif Require Import Base Lex_Model Lex_Chunk Lex_Spec Lex_Proofs Lines_Model Lines_Spec Lines_Proofs Obj Stack_Model Stack_Spec Stack_Proofs StreamObj_Proofs Stack_Props Stream_Model XRef_Model XRef_Spec XRef_Proofs Doc_Model Doc_Spec Doc_Proofs Witness.
From Coq Require Import ZifyBool ZifyNat.

(* ---------- C23 ---------- *)
(* the entry of object i in a section, if it has one; the outcome of reading an entry, None if it cannot be read
   (the end of the file is met, or the object there is not object i) *)
Definition place (i : Z) (x : Z -> res pos3) : option pos3 := opt (x i).
Definition reading (D : docdata) (f : nat) (i : Z) (p : pos3) : option (res obj) :=
  match read_at D f i p with Err PSEOF | Err PDFSyntaxError => None | r => Some r end.

(* In every document, for every object number: the outcome of a lookup (an object, or an exception other than the two
   that mean "cannot be read") is r exactly if r is the outcome of reading the first readable entry; or there is no
   readable entry and it is PDFObjectNotFound. *)
Theorem C23_newest_wins_partial D f i r : i <> 0 -> d_xrefs D <> [] ->
  Forall (fun x => forall e, x i = Err e -> e = KeyError) (d_xrefs D) ->
  (look D (S f) i = r <->
   Newest (place i) (reading D f i) (d_xrefs D) r \/
   (r = Err PDFObjectNotFound /\ Forall (fun x => forall p, place i x = Some p -> reading D f i p = None) (d_xrefs D))).
Proof.
  intros Hi Hx HK. rewrite (look_unfold D f i Hi Hx). clear Hx. induction (d_xrefs D) as [|x xs IH].
  - cbn. split; [intros <-; right; split; [reflexivity|constructor]|intros [H|[-> _]]; [inversion H|reflexivity]].
  - inversion_clear HK as [|? ? H1 H2]. specialize (IH H2). rewrite try_cons.
    destruct (x i) as [p|e] eqn:Ex.
    + assert (K : (reading D f i p = None /\ match read_at D f i p with Err PSEOF | Err PDFSyntaxError => fst (try_xrefs D false (getobj D false f) f i xs dstate0) | r0 => r0 end = fst (try_xrefs D false (getobj D false f) f i xs dstate0))
             \/ (reading D f i p = Some (read_at D f i p) /\ match read_at D f i p with Err PSEOF | Err PDFSyntaxError => fst (try_xrefs D false (getobj D false f) f i xs dstate0) | r0 => r0 end = read_at D f i p)).
      { unfold reading. destruct (read_at D f i p) as [o|[]]; auto. }
      destruct K as [[K1 K2]|[K1 K2]]; rewrite K2.
      * split.
        -- intros H. apply IH in H as [H|[H HF]]; [left; apply Newest_unreadable with p; [unfold place; rewrite Ex; reflexivity|assumption|assumption]|].
           right. split; [assumption|]. constructor; [|assumption]. intros p' Hp. unfold place in Hp. rewrite Ex in Hp. cbn in Hp. congruence.
        -- intros H. apply IH. destruct H as [H|[H HF]].
           ++ inversion H as [? ? p' ? Hp Hr|? ? ? Hp Hr|? ? p' ? Hp Hr Hn]; subst; unfold place in Hp; rewrite Ex in Hp; cbn in Hp;
                [injection Hp as <-; rewrite K1 in Hr; discriminate|discriminate|left; assumption].
           ++ right. split; [assumption|]. inversion HF; assumption.
      * split.
        -- intros <-. left. apply Newest_here with p; [unfold place; rewrite Ex; reflexivity|exact K1].
        -- intros [H|[H HF]].
           ++ inversion H as [? ? p' ? Hp Hr|? ? ? Hp Hr|? ? p' ? Hp Hr Hn]; subst; unfold place in Hp; rewrite Ex in Hp; cbn in Hp;
                [injection Hp as <-; congruence|discriminate|injection Hp as <-; congruence].
           ++ inversion HF as [|? ? HF1 HF2]; subst. specialize (HF1 p). unfold place in HF1. rewrite Ex in HF1. specialize (HF1 eq_refl). congruence.
    + rewrite (H1 e eq_refl). split.
      * intros H. apply IH in H as [H|[H HF]]; [left; apply Newest_absent; [unfold place; rewrite Ex; reflexivity|assumption]|].
        right. split; [assumption|]. constructor; [|assumption]. intros p' Hp. unfold place in Hp. rewrite Ex in Hp. discriminate.
      * intros H. apply IH. destruct H as [H|[H HF]].
        -- inversion H as [? ? p' ? Hp Hr|? ? ? Hp Hr|? ? p' ? Hp Hr Hn]; subst; unfold place in Hp; rewrite Ex in Hp; try discriminate. left; assumption.
        -- right. split; [assumption|]. inversion HF; assumption.
Qed.
(* an object number that no section has *)
Corollary C23_absent D f i : i <> 0 -> d_xrefs D <> [] -> Forall (fun x => x i = Err KeyError) (d_xrefs D) ->
  look D (S f) i = Err PDFObjectNotFound.
Proof.
  intros Hi Hx H. apply C23_newest_wins_partial; [assumption|assumption|eapply Forall_impl; [|exact H]; cbn; congruence|].
  right. split; [reflexivity|]. eapply Forall_impl; [|exact H]. unfold place. intros x -> p. discriminate.
Qed.
(* outcomes do not depend on the bound on nested lookups, once it is large enough *)
Theorem C23_fuel D f f' i r : (f <= f')%nat -> look D f i = r -> r <> Err OutOfFuel -> look D f' i = r.
Proof. apply look_mono. Qed.
(* object number 0 is refused by an assertion *)
Theorem C23_zero D f : look D (S f) 0 = Err AssertionError.
Proof. reflexivity. Qed.

(* ---------- C25 ---------- *)
(* every history of lookups of a document gives the same outcomes with and without caching: each is the outcome of
   that lookup alone *)
Theorem C25_caching D f ids : Forall (fun i => look D f i <> Err OutOfFuel) ids ->
  lookups D true f dstate0 ids = map (look D f) ids /\ lookups D false f dstate0 ids = map (look D f) ids.
Proof.
  intros H. assert (G : forall c s, CInv D s -> lookups D c f s ids = map (look D f) ids).
  { intros c. induction H as [|i ids Hi H IH]; intros s Hs; [reflexivity|]. cbn [lookups map].
    destruct (caching_sim D c f i s Hs Hi) as [A B]. destruct (getobj D c f i s) as [o s']. cbn [fst snd] in A, B. subst o.
    f_equal. apply IH. assumption. }
  split; apply G; apply CInv0.
Qed.
(* asking for the same object twice gives the same outcome *)
Corollary C25_repeat D f ids i : Forall (fun i => look D f i <> Err OutOfFuel) ids -> In i ids ->
  forall k k' r r', nth_error ids k = Some i -> nth_error ids k' = Some i ->
  nth_error (lookups D true f dstate0 ids) k = Some r -> nth_error (lookups D true f dstate0 ids) k' = Some r' -> r = r'.
Proof.
  intros H _ k k' r r' Hk Hk' E E'. rewrite (proj1 (C25_caching D f ids H)) in E, E'.
  rewrite (map_nth_error (look D f) _ _ Hk) in E. rewrite (map_nth_error (look D f) _ _ Hk') in E'. congruence.
Qed.

(* ---------- C26 ---------- *)
(* an object stream: N objects, preceded by N pairs of numbers *)
Theorem C26_members bufsiz attrs data pairs os ts exact :
  (0 < bufsiz)%nat -> dget attrs "N" = Some (OInt (Z.of_nat (length os))) ->
  length pairs = length os ->
  LayoutP exact 0 ts data [] ->
  WrittenL false true (flat_map (fun p => [OInt (fst p); OInt (snd p)]) pairs ++ os) (map snd ts) ->
  Forall (fun o => forall i, o <> ORef i) os ->
  exists n v, (forall f, get_objects bufsiz (n + f) attrs data = Ok v) /\
    forall i o, nth_error os i = Some o -> member_at v (Z.of_nat i) = Ok o.
Proof.
  intros Hb HN Hp HL HW Ho.
  destruct (C16_stream_objects_partial bufsiz data _ ts exact Hb HL HW) as (k & l & El & E).
  { apply Forall_app. split; [|assumption]. clear. induction pairs as [|p l IH]; [constructor|]. cbn. repeat constructor; try discriminate. assumption. }
  exists k, (flat_map (fun p => [OInt (fst p); OInt (snd p)]) pairs ++ os, Z.of_nat (length os)). split.
  - intros f. unfold get_objects. rewrite HN. cbn [bind]. rewrite E, El. reflexivity.
  - intros i o Hi. unfold member_at, py_index. cbn [fst snd].
    replace (0 <=? Z.of_nat (length os) * 2 + Z.of_nat i) with true by lia.
    assert (Hl : length (flat_map (fun p : Z * Z => [OInt (fst p); OInt (snd p)]) pairs) = (length os * 2)%nat).
    { rewrite <- Hp. clear. induction pairs as [|p l IH]; [reflexivity|]. cbn [flat_map app length]. rewrite IH. lia. }
    replace (Z.to_nat (Z.of_nat (length os) * 2 + Z.of_nat i)) with (length os * 2 + i)%nat by lia.
    rewrite nth_error_app2 by (rewrite Hl; lia). rewrite Hl. replace (length os * 2 + i - length os * 2)%nat with i by lia. rewrite Hi. reflexivity.
Qed.
(* A lookup of an object whose newest entry is "the idx-th object of stream sid" gives that object. *)
Theorem C26_lookup e getdata xrefs sid idx id attrs raw data pairs os ts exact o g :
  (0 < bufsiz e)%nat -> id <> 0 ->
  Newest (place id) Some (map (fun x => get_pos (fst x)) xrefs) (Some sid, Z.of_nat idx, g) ->
  Forall (fun x => forall ex, get_pos (fst x) id = Err ex -> ex = KeyError) xrefs ->
  getdata attrs raw = Ok data ->
  dget attrs "N" = Some (OInt (Z.of_nat (length os))) -> length pairs = length os ->
  LayoutP exact 0 ts data [] ->
  WrittenL false true (flat_map (fun p => [OInt (fst p); OInt (snd p)]) pairs ++ os) (map snd ts) ->
  Forall (fun o => forall i, o <> ORef i) os ->
  nth_error os idx = Some o ->
  exists n, forall fuel f, (n <= fuel)%nat -> look (document e getdata fuel xrefs) f sid = Ok (OStream attrs raw) ->
    look (document e getdata fuel xrefs) (S f) id = Ok o.
Proof.
  intros Hb Hid HN HK Hd HNn Hp HL HW Ho Hi.
  destruct (C26_members (bufsiz e) attrs data pairs os ts exact Hb HNn Hp HL HW Ho) as (n & v & E & M).
  exists n. intros fuel f Hf Hs. specialize (M _ _ Hi). specialize (E (fuel - n)%nat). replace (n + (fuel - n))%nat with fuel in E by lia.
  set (D := document e getdata fuel xrefs) in *.
  assert (Hne : map (fun x : section_ * list (obj * obj) => get_pos (fst x)) xrefs <> []) by (intros X; rewrite X in HN; inversion HN).
  apply C23_newest_wins_partial; [assumption|exact Hne|apply Forall_map; exact HK|left].
  assert (R : read_at D f id (Some sid, Z.of_nat idx, g) = Ok o).
  { unfold read_at, read_entry, mbind. unfold look in Hs.
    pose proof (getobj_state D f sid dstate0) as Hst. destruct (getobj D false f sid dstate0) as [r s]. cbn [fst snd] in *. subst r s.
    assert (HF : follow (getobj D false f) f sid (OStream attrs raw) dstate0 = (Ok (Some sid, OStream attrs raw), dstate0)) by (destruct f; reflexivity).
    rewrite HF. cbn [fst snd]. unfold getobj_objstm. cbn [dstate0 ds_parsed oget].
    change (d_members D (OStream attrs raw)) with (do data <- getdata attrs raw; get_objects (bufsiz e) fuel attrs data).
    rewrite Hd. cbn [bind]. rewrite E. cbn [fst]. exact M. }
  change (d_xrefs D) with (map (fun x : section_ * list (obj * obj) => get_pos (fst x)) xrefs).
  clear -HN R. induction HN as [x l p a H1 H2|x l a H1 H2 IH|x l p a H1 H2 H3 IH].
  - injection H2 as ->. apply Newest_here with a; [assumption|]. unfold reading. rewrite R. reflexivity.
  - apply Newest_absent; auto.
  - discriminate.
Qed.

(* ---------- C27 ---------- *)
Theorem C27_chain_in_order (X : Type) (load : Z -> res (X * list (obj * obj))) int_value start l :
  Chain (fun p => opt (load p)) (fun v => opt (int_value v)) start l ->
  exists n, forall f, read_xref_from load int_value (n + f) start [] = Ok l.
Proof. intros H. destruct (proj1 (chain_lemma load int_value) _ _ H) as (n & E). exists n. intros f. rewrite E. reflexivity. Qed.
Theorem C27_chain_only (X : Type) (load : Z -> res (X * list (obj * obj))) int_value start l n :
  read_xref_from load int_value n start [] = Ok l -> Chain (fun p => opt (load p)) (fun v => opt (int_value v)) start l.
Proof. intros H. destruct (chain_sound load int_value n _ _ _ H) as (l' & -> & HC). exact HC. Qed.
(* it terminates if every link points backwards in the file (as they do in files written by appending revisions) *)
Theorem C27_terminates_partial (X : Type) (load : Z -> res (X * list (obj * obj))) int_value :
  (forall start x tr, load start = Ok (x, tr) -> forall k v pos,
      (k = "XRefStm"%string \/ k = "Prev"%string) -> dget tr k = Some v -> int_value v = Ok pos -> 0 <= pos < start) ->
  (forall v, int_value v <> Err OutOfFuel) -> (forall p, load p <> Err OutOfFuel) ->
  forall n start, 0 <= start -> (Z.to_nat start < n)%nat -> read_xref_from load int_value n start [] <> Err OutOfFuel.
Proof. intros H1 H2 H3 n start H4 H5. apply chain_terminates; assumption. Qed.
(* Refuted: a section whose Prev is its own position is read without end (in Python: until RecursionError) *)
Theorem C27_cycle_refuted (X : Type) (load : Z -> res (X * list (obj * obj))) int_value start x tr v :
  load start = Ok (x, tr) -> dget tr "XRefStm" = None -> dget tr "Prev" = Some v -> int_value v = Ok start ->
  forall n, read_xref_from load int_value n start [] = Err OutOfFuel.
Proof. intros H1 H2 H3 H4 n. eapply chain_cycle; eassumption. Qed.

(* ---------- C63 ---------- *)
Theorem C63_startxref_partial n file v : (0 < n)%nat -> StartXRef file v -> find_xref n file = Ok v.
Proof. intros Hn (head & e & l1 & num & l2 & tail & -> & He & H1 & Hv & H2 & Hno). eapply find_xref_lemma; eassumption. Qed.
(* Without startxref the outcome is PDFNoValidXRef (which the constructor answers with the recovery scan) *)
Theorem C63_missing n file : (0 < n)%nat -> (forall a b, file <> a ++ bs "startxref" ++ b) -> find_xref n file = Err PDFNoValidXRef.
Proof.
  intros Hn Hno. unfold find_xref. destruct (revread_spec n file Hn) as (h & A & B & C).
  assert (HF : Forall (fun l => strip l <> bs "startxref") (revreadlines n file)).
  { apply Forall_forall. intros l Hl E. apply in_rev in Hl. apply in_split in Hl as (y1 & y2 & Ey).
    destruct (strip_sub l) as (a & b & El). rewrite E in El. apply (Hno (h ++ concat y1 ++ a) (b ++ concat y2)).
    rewrite C, Ey, concat_app. cbn [concat]. rewrite El, <- !app_assoc. reflexivity. }
  rewrite <- (app_nil_r (revreadlines n file)), find_skip by assumption. reflexivity.
Qed.
(* Refuted: a number that is missing, or not a number, gives TypeError or ValueError, which the constructor does not
   answer with the recovery scan *)
Theorem C63_no_number_refuted : find_xref 4096 (bs "%PDF
startxref
") = Err TypeError.
Proof. vm_compute. reflexivity. Qed.
Theorem C63_bad_number_refuted : find_xref 4096 (bs "%PDF
startxref
12x
%%EOF
") = Err ValueError.
Proof. vm_compute. reflexivity. Qed.

(* ---------- C64 ---------- *)
Definition rev_section (x : section_ * list (obj * obj)) (r : list subsection * list (obj * obj)) : Prop :=
  snd x = snd r /\ fst x = STable (add_sections [] (fst r)).

Lemma table_at e getdata start secs d : (0 < bufsiz e)%nat -> (forall o, (forall i, o <> ORef i) -> resolve e o = o) ->
  TableAt (file e) start secs d -> 0 <= start /\
  exists n, forall f, (n <= f)%nat -> load_section e getdata f start = Ok (STable (add_sections [] secs), d).
Proof.
  intros Hb Hres (before & xl & table & ttext & rest & ts & q1 & q & exact & Hf & -> & Hr & HX & HT & (l & tail & El & HL) & HLa & HW).
  split; [lia|].
  assert (Hxl : exists nl, xl = bs "xref" ++ nl) by (destruct HX as (sp & m & -> & _); exists (sp ++ m); reflexivity).
  destruct Hxl as (nl & ->). rewrite <- !app_assoc in Hf, HLa.
  destruct (load_section_lemma e getdata before nl secs table ttext rest d ts q1 q exact) as (n & H); try assumption.
  - exists (bs "trailer" ++ l), tail. splits; [assumption|assumption|reflexivity].
  - exists n. intros f Hfn. replace f with (n + (f - n))%nat by lia. apply H.
Qed.

Lemma revisions_lemma e getdata start revs : (0 < bufsiz e)%nat -> (forall o, (forall i, o <> ORef i) -> resolve e o = o) ->
  Revisions (file e) start revs ->
  exists n xrefs, Forall2 rev_section xrefs revs /\ forall F k acc, (n <= F)%nat -> (n <= k)%nat ->
    read_xref_from (fun p => do (x, tr) <- load_section e getdata F p; Ok ((x, tr), tr)) int_direct k start acc = Ok (acc ++ xrefs).
Proof.
  intros Hb Hres. induction 1 as [start secs d HT H1 H2|start secs d prev l HT H1 H2 H IH].
  - destruct (table_at e getdata _ _ _ Hb Hres HT) as (Hs & n & E).
    exists (S n), [(STable (add_sections [] secs), d)]. split; [repeat constructor|]. intros F k acc HF Hk.
    destruct k as [|k]; [lia|]. cbn [read_xref_from]. rewrite E by lia. cbn [bind]. rewrite H1, H2. cbn [bind]. reflexivity.
  - destruct (table_at e getdata _ _ _ Hb Hres HT) as (Hs & n & E). destruct IH as (n2 & xr & FF & E2).
    exists (S (n + n2)), ((STable (add_sections [] secs), d) :: xr). split; [constructor; [split; reflexivity|assumption]|].
    intros F k acc HF Hk. destruct k as [|k]; [lia|]. cbn [read_xref_from]. rewrite E by lia. cbn [bind]. rewrite H1, H2. cbn [bind int_direct].
    rewrite E2 by lia. rewrite <- app_assoc. reflexivity.
Qed.

(* Opening a file whose last startxref leads to a chain of tables: the sections are those of the file, newest first, each
   with its trailer, and each answers for every object number as its table says. *)
Theorem C64_sections e getdata start revs : (0 < bufsiz e)%nat -> (forall o, (forall i, o <> ORef i) -> resolve e o = o) ->
  StartXRef (file e) start -> Revisions (file e) start revs ->
  exists n xrefs, (forall f, (n <= f)%nat -> read_sections e getdata f = Ok xrefs) /\
    Forall2 (fun x r => snd x = snd r /\ (Disjoint (fst r) -> forall id en, EntryOf (fst r) id en ->
               get_pos (fst x) id = match en with InUse off gen => Ok (None, off, gen) | _ => Err KeyError end) /\
             (forall id, Uncovered (fst r) id -> get_pos (fst x) id = Err KeyError)) xrefs revs.
Proof.
  intros Hb Hres HS HR. destruct (revisions_lemma e getdata start revs Hb Hres HR) as (n & xr & FF & E).
  exists n, xr. split.
  - intros f Hf. unfold read_sections. rewrite (C63_startxref_partial _ _ _ Hb HS). cbn [bind]. rewrite E by lia. reflexivity.
  - clear -FF. induction FF as [|x r xs rs [H1 H2] FF IH]; [constructor|]. constructor; [|exact IH]. split; [exact H1|]. rewrite H2. split.
    + intros HD id en HE. cbn [get_pos]. rewrite (add_sections_get _ _ _ _ HD HE). destruct en; reflexivity.
    + intros id HU. cbn [get_pos]. rewrite add_sections_uncovered by exact HU. reflexivity.
Qed.

(* the revision that defines an object: no newer one has an entry for it other than a free one *)
Definition Defines (revs : list (list subsection * list (obj * obj))) (id off : Z) : Prop :=
  exists newer secs d older gen, revs = newer ++ (secs, d) :: older /\ EntryOf secs id (InUse off gen) /\
    Forall (fun r => Uncovered (fst r) id \/ exists a b, EntryOf (fst r) id (Free a b)) newer.

Lemma look_caching D caching f i r : look D f i = r -> r <> Err OutOfFuel -> fst (getobj D caching f i dstate0) = r.
Proof. intros <- H. exact (proj1 (caching_sim D caching f i dstate0 (CInv0 D) H)). Qed.
Lemma look_direct e getdata xrefs fuel f newer x older id off gen o : id <> 0 ->
  xrefs = newer ++ x :: older -> Forall (fun y => get_pos (fst y) id = Err KeyError) newer ->
  Forall (fun y => forall ex, get_pos (fst y) id = Err ex -> ex = KeyError) xrefs ->
  get_pos (fst x) id = Ok (None, off, gen) -> getobj_parse e fuel off id = Ok o ->
  look (document e getdata fuel xrefs) (S f) id = Ok o.
Proof.
  intros Hid Ex HN HK Hx Ho. apply C23_newest_wins_partial; [assumption|subst xrefs; cbn; destruct newer; discriminate|apply Forall_map; exact HK|left].
  change (d_xrefs (document e getdata fuel xrefs)) with (map (fun x : section_ * list (obj * obj) => get_pos (fst x)) xrefs).
  assert (R : reading (document e getdata fuel xrefs) f id (None, off, gen) = Some (Ok o)).
  { unfold reading, read_at, read_entry, mbind. cbn [d_parse document run_prog ret d_decipher]. rewrite Ho. reflexivity. }
  set (D := document e getdata fuel xrefs) in *. clearbody D. subst xrefs.
  rewrite map_app. cbn [map]. clear HK. induction HN as [|y newer Hy HN IH]; cbn [map app].
  - apply Newest_here with (None, off, gen); [unfold place; rewrite Hx; reflexivity|exact R].
  - apply Newest_absent; [unfold place; rewrite Hy; reflexivity|]. exact IH.
Qed.

Lemma entry_covers l id en : EntryOf l id en -> exists t, In t l /\ covers t id.
Proof.
  intros (pre & s & post & k & -> & -> & Hk & _). exists s. split; [apply in_or_app; right; left; reflexivity|].
  assert (k < length (snd s))%nat by (apply nth_error_Some; congruence). unfold covers. lia.
Qed.
Lemma table_keyerror (secs : list subsection) id ex : get_pos (STable (add_sections [] secs)) id = Err ex -> ex = KeyError.
Proof. cbn [get_pos]. destruct (zget _ _); congruence. Qed.

Lemma revisions_get (revs : list (list subsection * list (obj * obj))) (xrefs : list (section_ * list (obj * obj))) id off :
  Forall2 rev_section xrefs revs -> Forall (fun r => Disjoint (fst r)) revs -> Defines revs id off ->
  exists newer x older gen, xrefs = newer ++ x :: older /\ Forall (fun y => get_pos (fst y) id = Err KeyError) newer /\
    get_pos (fst x) id = Ok (None, off, gen).
Proof.
  intros FF HD (nw & secs & d & old & gen & -> & HE & HN).
  apply Forall2_app_inv_r in FF as (xn & xo & F1 & F2 & ->). inversion F2 as [|x ? xo' ? [Hx1 Hx2] F3]; subst.
  apply Forall_app in HD as [HD1 HD2]. inversion_clear HD2 as [|? ? HD3 HD4]. cbn [fst snd] in *.
  exists xn, x, xo', gen. splits; [reflexivity| |].
  - clear -F1 HN HD1. induction F1 as [|y r ys rs [H1 H2] F1 IH]; [constructor|]. inversion_clear HN as [|? ? HN1 HN2]. inversion_clear HD1 as [|? ? A B].
    constructor; [|apply IH; assumption]. rewrite H2. cbn [get_pos].
    destruct HN1 as [HU|(a & b & HE)]; [rewrite add_sections_uncovered by exact HU|rewrite (add_sections_get _ _ _ _ A HE)]; reflexivity.
  - rewrite Hx2. cbn [get_pos]. rewrite (add_sections_get _ _ _ _ HD3 HE). reflexivity.
Qed.

(* Looking up an object in such a file, with or without caching, gives the object that stands where the newest
   revision that has it says. *)
Theorem C64_object_partial e getdata start revs id off o : (0 < bufsiz e)%nat -> (forall o, (forall i, o <> ORef i) -> resolve e o = o) ->
  StartXRef (file e) start -> Revisions (file e) start revs -> Forall (fun r => Disjoint (fst r)) revs ->
  id <> 0 -> Defines revs id off -> ObjectAt (file e) off id o ->
  exists n, forall fuel f caching, (n <= fuel)%nat -> exists xrefs, read_sections e getdata fuel = Ok xrefs /\
    fst (getobj (document e getdata fuel xrefs) caching (S f) id dstate0) = Ok o.
Proof.
  intros Hb Hres HS HR HD Hid Hdef (before & text & rest & gen & ts & q1 & q2 & q3 & q & exact & Hf & -> & Hr & HL & HW).
  destruct (revisions_lemma e getdata start revs Hb Hres HR) as (n & xr & FF & E).
  destruct (parse_object_lemma e before text rest id gen o ts q1 q2 q3 q exact Hb Hf Hr HL HW) as (n2 & HP).
  destruct (revisions_get revs xr id _ FF HD Hdef) as (nw & x & old & g & Ex & HN & Hx).
  exists (n + n2)%nat. intros fuel f caching Hfu. exists xr. split.
  - unfold read_sections. rewrite (C63_startxref_partial _ _ _ Hb HS). cbn [bind]. rewrite E by lia. reflexivity.
  - assert (HLk : look (document e getdata fuel xr) (S f) id = Ok o).
    { eapply look_direct; try eassumption.
      - clear -FF. induction FF as [|y r ys rs [H1 H2] FF IH]; constructor; [|assumption]. rewrite H2. intros ex. apply table_keyerror.
      - replace fuel with (n2 + (fuel - n2))%nat by lia. apply HP. }
    apply look_caching; [exact HLk|discriminate].
Qed.

(* the same for stream objects, read without the fallback reader *)
Theorem C64_stream_partial e getdata start revs id off d data : (0 < bufsiz e)%nat -> fallback e = false ->
  (forall o, (forall i, o <> ORef i) -> resolve e o = o) ->
  StartXRef (file e) start -> Revisions (file e) start revs -> Forall (fun r => Disjoint (fst r)) revs ->
  id <> 0 -> Defines revs id off ->
  StreamAt (fun v => match resolve e v with OInt z => Some z | _ => None end) (file e) off id d data ->
  exists n, forall fuel f caching, (n <= fuel)%nat -> exists xrefs, read_sections e getdata fuel = Ok xrefs /\
    fst (getobj (document e getdata fuel xrefs) caching (S f) id dstate0) = Ok (OStream d data).
Proof.
  intros Hb Hfb Hres HS HR HD Hid Hdef (before & text & nl & g & g2 & rest & gen & ts & q1 & q2 & q3 & v & Hf & -> & HL & HW & Hnl & Hv & Hlen & Hg & Hg2 & Hg2n & Hrest & HU).
  destruct (revisions_lemma e getdata start revs Hb Hres HR) as (n & xr & FF & E).
  destruct (parse_stream_lemma e before text nl data (g ++ bs "endstream" ++ g2 ++ bs "endobj" ++ rest) (length g) g2 rest id gen d ts q1 q2 q3) as (n2 & HP); try assumption.
  { apply Hres. discriminate. }
  { rewrite Hfb. exists v. split; [assumption|]. destruct (resolve e v); congruence. }
  { apply first_after_white; [assumption|]. exists 101, (bs "ndstream"). split; [reflexivity|unfold white; lia]. }
  { rewrite skipn_before by reflexivity. intros U. apply HU. apply (unfinished_suffix (bs "endstream")). exact U. }
  { rewrite skipn_before; reflexivity. }
  rewrite Hfb in HP.
  destruct (revisions_get revs xr id _ FF HD Hdef) as (nw & x & old & gg & Ex & HN & Hx).
  exists (n + n2)%nat. intros fuel f caching Hfu. exists xr. split.
  - unfold read_sections. rewrite (C63_startxref_partial _ _ _ Hb HS). cbn [bind]. rewrite E by lia. reflexivity.
  - assert (HLk : look (document e getdata fuel xr) (S f) id = Ok (OStream d data)).
    { eapply look_direct; try eassumption.
      - clear -FF. induction FF as [|y r ys rs [H1 H2] FF IH]; constructor; [|assumption]. rewrite H2. intros ex. apply table_keyerror.
      - replace fuel with (n2 + (fuel - n2))%nat by lia. apply HP. }
    apply look_caching; [exact HLk|discriminate].
Qed.
(* an object number that no revision has in use *)
Theorem C64_absent e getdata start revs id : (0 < bufsiz e)%nat -> (forall o, (forall i, o <> ORef i) -> resolve e o = o) ->
  StartXRef (file e) start -> Revisions (file e) start revs -> Forall (fun r => Disjoint (fst r)) revs -> id <> 0 ->
  Forall (fun r => Uncovered (fst r) id \/ exists a b, EntryOf (fst r) id (Free a b)) revs ->
  exists n, forall fuel f, (n <= fuel)%nat -> exists xrefs, read_sections e getdata fuel = Ok xrefs /\
    look (document e getdata fuel xrefs) (S f) id = Err PDFObjectNotFound.
Proof.
  intros Hb Hres HS HR HD Hid HN.
  destruct (revisions_lemma e getdata start revs Hb Hres HR) as (n & xr & FF & E).
  exists n. intros fuel f Hfu. exists xr. split.
  - unfold read_sections. rewrite (C63_startxref_partial _ _ _ Hb HS). cbn [bind]. rewrite E by lia. reflexivity.
  - apply C23_absent; [assumption| |].
    + cbn. inversion HR; subst; inversion FF; discriminate.
    + cbn. apply Forall_map. clear -FF HN HD. induction FF as [|y r ys rs [H1 H2] FF IH]; [constructor|]. inversion_clear HN as [|? ? HN1 HN2]. inversion_clear HD as [|? ? A B].
      constructor; [|apply IH; assumption]. rewrite H2. cbn [get_pos].
      destruct HN1 as [HU|(a & b & HE)]; [rewrite add_sections_uncovered by exact HU|rewrite (add_sections_get _ _ _ _ A HE)]; reflexivity.
Qed.

(* a file with one object *)
Definition file1 : list Z := bs "%PDF-1.4
1 0 obj 5 endobj
xref
1 1
0000000009 00000 n 
trailer <</Root 1 0 R>>
startxref
26
%%EOF
".
Lemma C64_case_hyps : StartXRef file1 26 /\ Revisions file1 26 [([(1, [InUse 9 0])], [(ON "Root", ORef 1)])] /\
  Disjoint [(1, [InUse 9 0])] /\ Defines [([(1, [InUse 9 0])], [(ON "Root", ORef 1)])] 1 9 /\ ObjectAt file1 9 1 (OInt 5).
Proof.
  splits.
  - exists (bs "%PDF-1.4
1 0 obj 5 endobj
xref
1 1
0000000009 00000 n 
trailer <</Root 1 0 R>>"), 10, (bs "startxref" ++ [10]), (bs "26"), (bs "26" ++ [10]), (bs "%%EOF" ++ [10]).
    splits; [reflexivity|left; reflexivity| | | |].
    + apply (textline_ok _ [] [10]); [reflexivity|constructor|constructor|discriminate].
    + apply dec_eq; [reflexivity|discriminate|reflexivity].
    + apply (textline_ok _ [] [10]); [reflexivity|constructor|constructor|discriminate].
    + intros a b H. apply (f_equal (@length Z)) in H. rewrite !app_length in H. cbn in H. lia.
  - apply Rev_last; [|reflexivity|reflexivity].
    eexists (bs "%PDF-1.4
1 0 obj 5 endobj
"), (bs "xref" ++ [10]), (bs "1 1
0000000009 00000 n 
"), (bs "trailer <</Root 1 0 R>>
startxref"), (bs "
26
%%EOF
"), [(_, KW "<<"); (_, TLit (bs "Root")); (_, TInt 1); (_, TInt 0); (_, KW "R"); (_, KW ">>")], _, _, true.
    splits; [reflexivity|reflexivity|discriminate| | | | |].
    + apply (textline_ok _ [] [10]); [reflexivity|constructor|constructor|discriminate].
    + apply (XT_sub 1 [InUse 9 0] (bs "1") (bs "1") (bs "1 1" ++ [10]) (bs "0000000009 00000 n " ++ [10]) [] []).
      * apply dec_eq; [reflexivity|discriminate|reflexivity].
      * apply dec_eq; [reflexivity|discriminate|reflexivity].
      * apply (textline_ok _ [] [10]); [reflexivity|constructor|constructor|discriminate].
      * apply (XE_cons (InUse 9 0) [] (bs "0000000009 00000 n") (bs "0000000009 00000 n " ++ [10]) []); [| |constructor].
        -- apply (XT_n 9 0 (bs "0000000009") (bs "00000")); apply dec_eq; [reflexivity|discriminate|reflexivity|reflexivity|discriminate|reflexivity].
        -- apply (textline_ok _ [32] [10]); [reflexivity|repeat constructor|constructor|discriminate].
      * constructor.
    + exists (bs " <</Root 1 0 R>>" ++ [10]), (bs "startxref
26
%%EOF
"). split; [reflexivity|]. apply (Line_lf (bs "trailer <</Root 1 0 R>>")). repeat constructor; cbn; unfold eol_byte; lia.
    + kw_tok (@nil Z) (bs "trailer"). dopen_tok [32]. name_tok (@nil Z) (bs "Root"). int_tok [32] (bs "1"). int_tok [32] (bs "0").
      kw_tok [32] (bs "R"). dclose_tok (@nil Z). kw_tok [10] (bs "startxref"). lay_end.
    + apply (W_dict true true [(bs "Root", ORef 1)] [TLit (bs "Root"); TInt 1; TInt 0; KW "R"]); [repeat constructor; cbn; tauto|].
      apply (WE_cons true true (bs "Root") (ORef 1) [] [TInt 1; TInt 0; KW "R"] []); repeat constructor.
  - repeat constructor.
  - exists [], [(1, [InUse 9 0])], [(ON "Root", ORef 1)], [], 0. splits; [reflexivity| |constructor].
    exists [], (1, [InUse 9 0]), [], 0%nat. splits; [reflexivity|reflexivity|reflexivity|constructor].
  - eexists (bs "%PDF-1.4
"), (bs "1 0 obj 5 endobj"), _, 0, [(_, TInt 5)], _, _, _, _, true.
    splits; [reflexivity|reflexivity|discriminate| |constructor].
    int_tok (@nil Z) (bs "1"). int_tok [32] (bs "0"). kw_tok [32] (bs "obj"). int_tok [32] (bs "5"). kw_tok [32] (bs "endobj"). lay_end.
Qed.

(* ---- what happens in a file with two revisions: object 1 is replaced, object 2 is freed, 3 never was ---- *)
Definition look_in (file : list Z) (i : Z) : res obj :=
  let e := env0 file 7 true in
  do xr <- read_sections e (fun _ _ => Err PDFNotImplementedError) 90; look (document e (fun _ _ => Err PDFNotImplementedError) 90 xr) 9 i.
Definition file2 : list Z := bs "%PDF-1.4
1 0 obj 5 endobj
2 0 obj (a) endobj
xref
1 1
0000000009 00000 n 
2 1
0000000026 00000 n 
trailer <</Root 1 0 R>>
startxref
45
%%EOF
1 0 obj [6] endobj
xref
1 1
0000000141 00000 n 
2 1
0000000000 00001 f 
trailer <</Root 1 0 R /Prev 45>>
startxref
160
%%EOF
".
Example C64_case : look_in file2 1 = Ok (OArr [OInt 6]) /\ look_in file2 3 = Err PDFObjectNotFound.
Proof. vm_compute. split; reflexivity. Qed.
(* Refuted: an object deleted by the newest revision is found in the older one (also a general fact: Defines in
   C64_object_partial skips free entries) *)
Theorem C23_freed_object_refuted : look_in file2 2 = Ok (OStr (bs "a")).
Proof. vm_compute. reflexivity. Qed.
Theorem C23_freed_object_general_refuted e getdata start secs d older id off o a b :
  (0 < bufsiz e)%nat -> (forall o, (forall i, o <> ORef i) -> resolve e o = o) ->
  StartXRef (file e) start -> Revisions (file e) start ((secs, d) :: older) -> Forall (fun r => Disjoint (fst r)) ((secs, d) :: older) ->
  id <> 0 -> EntryOf secs id (Free a b) -> Defines older id off -> ObjectAt (file e) off id o ->
  exists n, forall fuel f, (n <= fuel)%nat -> exists xrefs, read_sections e getdata fuel = Ok xrefs /\
    look (document e getdata fuel xrefs) (S f) id = Ok o.
Proof.
  intros Hb Hres HS HR HD Hid HE (nw & s & d' & ol & g & -> & H1 & H2) HO.
  destruct (C64_object_partial e getdata start _ id off o Hb Hres HS HR HD Hid) as (n & H).
  - exists ((secs, d) :: nw), s, d', ol, g. splits; [reflexivity|assumption|]. constructor; [right; exists a, b; exact HE|assumption].
  - assumption.
  - exists n. intros fuel f Hf. destruct (H fuel f false Hf) as (xr & A & B). exists xr. split; assumption.
Qed.
(* Refuted: if the newest version of an object is a dictionary with an odd number of elements, PSSyntaxError is raised
   instead of falling back to the older version (PSSyntaxError is not a PDFSyntaxError) *)
Definition file3 : list Z := bs "%PDF-1.4
1 0 obj 5 endobj
xref
1 1
0000000009 00000 n 
trailer <</Root 1 0 R>>
startxref
26
%%EOF
1 0 obj <</A>> endobj
xref
1 1
0000000098 00000 n 
trailer <</Root 1 0 R /Prev 26>>
startxref
120
%%EOF
".
Theorem C23_syntax_error_not_skipped_refuted : look_in file3 1 = Err PSSyntaxError.
Proof. vm_compute. reflexivity. Qed.
(* an entry that points to another object is skipped.  Refuted for the recovery of offsets before the header: the
   reader takes the token before obj (x[-2] is the generation number) for the object number, so an object whose
   header follows the offset is not found, or IndexError is raised, or another object (9, generation 7) is returned *)
Definition parse_at (text : list Z) (pos id : Z) : res obj := getobj_parse (env0 text 7 true) 30 pos id.
Theorem C23_offset_before_header_refuted :
  parse_at (bs "1 2 3 7 0 obj (x) endobj ") 0 7 = Err PDFSyntaxError /\
  parse_at (bs "3 7 0 obj (x) endobj ") 0 7 = Err IndexError /\
  parse_at (bs "1 2 3 9 7 obj (x) endobj ") 0 7 = Ok (OStr (bs "x")).
Proof. vm_compute. repeat split. Qed.
Example C23_other_object_skipped : parse_at (bs "3 0 obj (x) endobj ") 0 7 = Err PDFSyntaxError.
Proof. vm_compute. reflexivity. Qed.

(* ---- cases for C25, C26, C27 ---- *)
Example C25_case : let D := document (env0 file2 7 true) (fun _ _ => Err PDFNotImplementedError) 90
    (match read_sections (env0 file2 7 true) (fun _ _ => Err PDFNotImplementedError) 90 with Ok x => x | Err _ => [] end) in
  Forall (fun i => look D 9 i <> Err OutOfFuel) [1; 2; 1; 3; 2] /\
  lookups D true 9 dstate0 [1; 2; 1; 3; 2] = [Ok (OArr [OInt 6]); Ok (OStr (bs "a")); Ok (OArr [OInt 6]); Err PDFObjectNotFound; Ok (OStr (bs "a"))].
Proof. cbn zeta. split; [repeat constructor; vm_compute; discriminate|vm_compute; reflexivity]. Qed.
Lemma C26_case_hyps : exists ts, LayoutP true 0 ts (bs "11 0 12 2 5 /A ") [] /\
  WrittenL false true (flat_map (fun p => [OInt (fst p); OInt (snd p)]) [(11, 0); (12, 2)] ++ [OInt 5; ON "A"]) (map snd ts).
Proof.
  eexists [(_, TInt 11); (_, TInt 0); (_, TInt 12); (_, TInt 2); (_, TInt 5); (_, TLit (bs "A"))]. split.
  - int_tok (@nil Z) (bs "11"). int_tok [32] (bs "0"). int_tok [32] (bs "12"). int_tok [32] (bs "2"). int_tok [32] (bs "5"). name_tok [32] (bs "A"). lay_end.
  - cbn [map snd flat_map app fst].
    apply (WL_cons false true (OInt 11) _ [TInt 11]); [constructor|]. apply (WL_cons false true (OInt 0) _ [TInt 0]); [constructor|].
    apply (WL_cons false true (OInt 12) _ [TInt 12]); [constructor|]. apply (WL_cons false true (OInt 2) _ [TInt 2]); [constructor|].
    apply (WL_cons false true (OInt 5) _ [TInt 5]); [constructor|]. apply (WL_cons false true (ON "A") [] [TLit (bs "A")]); constructor.
Qed.
Example C26_case : get_objects 3 50 [(ON "N", OInt 2)] (bs "11 0 12 2 5 /A ") = Ok ([OInt 11; OInt 0; OInt 12; OInt 2; OInt 5; ON "A"], 2).
Proof. vm_compute. reflexivity. Qed.
(* an index past the end raises PDFSyntaxError, so that older sections are tried *)
Theorem C26_index_out_of_range : member_at ([OInt 11; OInt 0; OInt 5], 1) 1 = Err PDFSyntaxError.
Proof. reflexivity. Qed.
Example C27_case : exists l, read_sections (env0 file2 7 true) (fun _ _ => Err PDFNotImplementedError) 90 = Ok l /\ length l = 2%nat /\
  map (fun x => dget (snd x) "Root") l = [Some (ORef 1); Some (ORef 1)].
Proof. eexists. split; [vm_compute; reflexivity|split; reflexivity]. Qed.
