(* C80: documents without a usable cross-reference table. *)
From Coq Require Import String.
From Verif Require Import Base Lex_Model Lex_Chunk Lex_Spec Lex_Proofs Lines_Model Lines_Spec Lines_Proofs Obj Stack_Model Stack_Spec Stack_Proofs
  Stack_Props StreamObj_Proofs XRef_Model XRef_Spec XRef_Proofs Doc_Model Doc_Spec Doc_Proofs Doc_Props Fallback_Model Fallback_Spec Fallback_Proofs.
From Coq Require Import ZifyBool ZifyNat.
Open Scope Z_scope.

(* the table made by the scan: the last thing found under each number before the first trailer *)
Definition Tells (x : section_) (hits : list hit) : Prop :=
  (forall id en o p, LastHit hits id en o -> place_of en = Some p -> get_pos x id = Ok p) /\
  (forall id, NoHit hits id -> get_pos x id = Err KeyError).

(* A file in which the word startxref does not occur: opening it makes one section, which tells where the last object
   with each number is, and the trailer is the first of the file.  Whatever the buffer size. *)
Theorem C80_scan e getdata hits d : (0 < bufsiz e)%nat -> (forall o, (forall i, o <> ORef i) -> resolve e o = o) ->
  (forall a b, file e <> a ++ bs "startxref" ++ b) -> Contents getdata 0 (file e) hits d ->
  exists n x, Tells x hits /\ forall fuel, (n <= fuel)%nat -> open_sections true e getdata fuel = Ok [(x, d)].
Proof.
  intros Hb Hres Hno HC.
  destruct (fb_load_lemma (set_fallback e true) getdata hits d Hb eq_refl Hres HC) as (n & H).
  exists n, (STable (add_hits [] hits)). split; [split|].
  - intros id en o p HLst Hp. cbn [get_pos]. rewrite (add_hits_last hits id en o p HLst Hp). reflexivity.
  - intros id HN. cbn [get_pos]. rewrite add_hits_other by exact HN. reflexivity.
  - intros fuel Hf. unfold open_sections, read_regular. cbn [set_fallback bufsiz file]. rewrite (C63_missing _ _ Hb Hno). cbn [bind].
    replace fuel with (n + (fuel - n))%nat by lia. rewrite H. reflexivity.
Qed.

(* every object that was found is what a lookup gives, with or without caching *)
Theorem C80_recovered_partial e getdata hits d id o : (0 < bufsiz e)%nat -> (forall o, (forall i, o <> ORef i) -> resolve e o = o) ->
  (forall a b, file e <> a ++ bs "startxref" ++ b) -> Contents getdata 0 (file e) hits d -> id <> 0 -> Recovered getdata hits id o ->
  exists n, forall fuel f caching, (n <= fuel)%nat -> exists D, open_document true e getdata fuel = Ok D /\
    fst (getobj D caching (S (S f)) id dstate0) = Ok o.
Proof.
  intros Hb Hres Hno HC Hid HR. destruct (C80_scan e getdata hits d Hb Hres Hno HC) as (n & x & (T1 & T2) & HO).
  set (e1 := set_fallback e true).
  assert (HK : forall i, Forall (fun y : section_ * list (obj * obj) => forall ex, get_pos (fst y) i = Err ex -> ex = KeyError) [(x, d)]).
  { intros i. repeat constructor. cbn [fst]. intros ex Hex.
    assert (Hx : exists offs, x = STable offs).
    { specialize (HO n (le_n n)). unfold open_sections, read_regular in HO. cbn [set_fallback bufsiz file] in HO. rewrite (C63_missing _ _ Hb Hno) in HO.
      cbn [bind] in HO. destruct (fb_load _ _ _) as [[offs tr]|]; [|discriminate]. injection HO as <- _. eexists. reflexivity. }
    destruct Hx as (offs & ->). cbn [get_pos] in Hex. destruct (zget offs i); congruence. }
  assert (HD : forall i off g v, i <> 0 -> LastHit hits i (InUse off g) v -> exists m, forall fuel f, (m <= fuel)%nat ->
     look (document e1 getdata fuel [(x, d)]) (S f) i = Ok v).
  { intros i off g v Hi HLst. destruct (contents_parse e1 getdata Hb eq_refl Hres _ _ _ _ HC [] eq_refl eq_refl i off g v) as (m & Hm).
    - destruct HLst as (a & b & -> & _). apply in_or_app. right. left. reflexivity.
    - exists m. intros fuel f Hf. eapply (look_direct e1 getdata [(x, d)] fuel f [] (x, d) []); [assumption|reflexivity|constructor|apply HK| |].
      + cbn [fst]. apply (T1 _ _ _ _ HLst). reflexivity.
      + replace fuel with (m + (fuel - m))%nat by lia. apply Hm. }
  destruct HR as [id off gen o HLst|id sid k o0 off gen attrs raw ms i o HLst Hsid HS (HT & HN & data & pairs & ts & ex & Hd & Hp & HL & HW & Ho) Hk].
  - destruct (HD id off gen o Hid HLst) as (m & Hm). exists (n + m)%nat. intros fuel f caching Hf.
    exists (document e1 getdata fuel [(x, d)]). split; [unfold open_document; rewrite HO by lia; reflexivity|].
    apply look_caching; [apply Hm; lia|discriminate].
  - destruct (HD sid off gen (OStream attrs raw) Hsid HS) as (m & Hm).
    destruct (C26_lookup e1 getdata [(x, d)] sid k id attrs raw data pairs (map snd ms) ts ex o 0) as (m2 & HM); try assumption.
    + apply Newest_here with (Some sid, Z.of_nat k, 0); [|reflexivity]. unfold place. cbn [fst]. rewrite (T1 _ _ _ (Some sid, Z.of_nat k, 0) HLst eq_refl). reflexivity.
    + apply HK.
    + rewrite map_length. exact HN.
    + rewrite map_length. apply (f_equal (@length _)) in Hp. rewrite !map_length in Hp. exact Hp.
    + apply Forall_map. exact Ho.
    + rewrite nth_error_map, Hk. reflexivity.
    + exists (n + m + m2)%nat. intros fuel f caching Hf. exists (document e1 getdata fuel [(x, d)]).
      split; [unfold open_document; rewrite HO by lia; reflexivity|]. apply look_caching; [|discriminate]. apply HM; [lia|]. apply Hm. lia.
Qed.
Theorem C80_absent e getdata hits d id : (0 < bufsiz e)%nat -> (forall o, (forall i, o <> ORef i) -> resolve e o = o) ->
  (forall a b, file e <> a ++ bs "startxref" ++ b) -> Contents getdata 0 (file e) hits d -> id <> 0 -> NoHit hits id ->
  exists n, forall fuel f, (n <= fuel)%nat -> exists D, open_document true e getdata fuel = Ok D /\ look D (S f) id = Err PDFObjectNotFound.
Proof.
  intros Hb Hres Hno HC Hid HN. destruct (C80_scan e getdata hits d Hb Hres Hno HC) as (n & x & (T1 & T2) & HO).
  exists n. intros fuel f Hf. eexists. split; [unfold open_document; rewrite HO by lia; reflexivity|].
  apply C23_absent; [assumption|discriminate|]. repeat constructor. apply T2. exact HN.
Qed.

(* ---- files that have a table: the scan is done all the same, but only adds a section at the end ---- *)
Lemma read_xrefs_ok {X} (load : Z -> res (X * list (obj * obj))) iv : forall f s acc l,
  read_xref_from load iv f s acc = Ok l -> read_xrefs load iv f s acc = (l, None).
Proof.
  induction f as [|f IH]; intros s acc l H; [discriminate|]. cbn [read_xref_from read_xrefs] in *. destruct (load s) as [[x tr]|ex]; cbn [bind] in H; [|discriminate].
  destruct (dget tr "XRefStm") as [v|].
  - destruct (iv v) as [pos|]; cbn [bind] in H; [|discriminate]. destruct (read_xref_from load iv f pos (acc ++ [x])) as [l1|] eqn:E; cbn [bind] in H; [|discriminate].
    rewrite (IH _ _ _ E). destruct (dget tr "Prev") as [w|]; [|congruence]. destruct (iv w) as [pos2|]; cbn [bind] in H; [|discriminate]. apply IH, H.
  - cbn [bind] in H. destruct (dget tr "Prev") as [w|]; [|congruence]. destruct (iv w) as [pos2|]; cbn [bind] in H; [|discriminate]. apply IH, H.
Qed.
Lemma open_with_table e getdata start revs hits d : (0 < bufsiz e)%nat -> (forall o, (forall i, o <> ORef i) -> resolve e o = o) ->
  StartXRef (file e) start -> Revisions (file e) start revs -> Contents getdata 0 (file e) hits d ->
  exists n xrefs, Forall2 rev_section xrefs revs /\
    forall fuel b, (n <= fuel)%nat -> open_sections b e getdata fuel = Ok (xrefs ++ if b then [(STable (add_hits [] hits), d)] else []).
Proof.
  intros Hb Hres HS HR HC.
  destruct (revisions_lemma (set_fallback e false) getdata start revs Hb Hres HR) as (n & xr & FF & E).
  destruct (fb_load_lemma (set_fallback e true) getdata hits d Hb eq_refl Hres HC) as (m & H).
  exists (n + m)%nat, xr. split; [exact FF|]. intros fuel b Hf. unfold open_sections, read_regular.
  replace (find_xref (bufsiz (set_fallback e false)) (file (set_fallback e false))) with (Ok start) by (symmetry; exact (C63_startxref_partial _ _ _ Hb HS)).
  rewrite (read_xrefs_ok _ _ _ _ _ xr) by (rewrite E by lia; reflexivity). cbn [bind].
  destruct b; [|rewrite app_nil_r; reflexivity]. replace fuel with (m + (fuel - m))%nat by lia. rewrite H. reflexivity.
Qed.
Lemma rev_keyerror xr revs id hits d : Forall2 rev_section xr revs ->
  Forall (fun y : section_ * list (obj * obj) => forall ex, get_pos (fst y) id = Err ex -> ex = KeyError) (xr ++ [(STable (add_hits [] hits), d)]).
Proof.
  intros FF. apply Forall_app. split.
  - induction FF as [|y r ys rs [H1 H2] FF IH]; constructor; [|assumption]. rewrite H2. intros ex. apply table_keyerror.
  - constructor; [|constructor]. intros ex. cbn [fst get_pos]. destruct (zget _ _); congruence.
Qed.

(* An object that the tables of the file define is found where they say, although the scan is done too, and whatever the
   scan found under the same number. *)
Theorem C80_kept e getdata start revs hits d id off o : (0 < bufsiz e)%nat -> (forall o, (forall i, o <> ORef i) -> resolve e o = o) ->
  StartXRef (file e) start -> Revisions (file e) start revs -> Forall (fun r => Disjoint (fst r)) revs -> Contents getdata 0 (file e) hits d ->
  id <> 0 -> Defines revs id off -> (ObjectAt (file e) off id o \/ exists gen, In (id, InUse off gen, o) hits) ->
  exists n, forall fuel f caching, (n <= fuel)%nat -> exists D, open_document true e getdata fuel = Ok D /\ fst (getobj D caching (S f) id dstate0) = Ok o.
Proof.
  intros Hb Hres HS HR HD HC Hid Hdef Ho. set (e1 := set_fallback e true).
  destruct (open_with_table e getdata start revs hits d Hb Hres HS HR HC) as (n & xr & FF & HO).
  destruct (revisions_get revs xr id _ FF HD Hdef) as (nw & x & old & g & Ex & HN & Hx).
  assert (HP : exists m, forall fuel, (m <= fuel)%nat -> getobj_parse e1 fuel off id = Ok o).
  { destruct Ho as [(before & text & rest & gen & ts & q1 & q2 & q3 & q & exact & Hf & -> & Hr & HL & HW)|(gen & HI)].
    - destruct (parse_object_lemma e1 before text rest id gen o ts q1 q2 q3 q exact Hb Hf Hr HL HW) as (m & HP). exists m. intros fuel Hfu.
      replace fuel with (m + (fuel - m))%nat by lia. apply HP.
    - destruct (contents_parse e1 getdata Hb eq_refl Hres _ _ _ _ HC [] eq_refl eq_refl id off gen o HI) as (m & Hm). exists m. intros fuel Hfu.
      replace fuel with (m + (fuel - m))%nat by lia. apply Hm. }
  destruct HP as (m & HP). exists (n + m)%nat. intros fuel f caching Hfu. eexists. split; [unfold open_document; rewrite HO by lia; reflexivity|].
  apply look_caching; [|discriminate]. eapply (look_direct e1 getdata _ fuel f nw x (old ++ [(STable (add_hits [] hits), d)])); try eassumption.
  - rewrite Ex, <- app_assoc. reflexivity.
  - eapply rev_keyerror, FF.
  - apply HP. lia.
Qed.
(* An object that no table of the file has in use - it was deleted, or never listed - is found by the scan. *)
Theorem C80_unlisted e getdata start revs hits d id off gen o : (0 < bufsiz e)%nat -> (forall o, (forall i, o <> ORef i) -> resolve e o = o) ->
  StartXRef (file e) start -> Revisions (file e) start revs -> Forall (fun r => Disjoint (fst r)) revs -> Contents getdata 0 (file e) hits d ->
  id <> 0 -> Forall (fun r => Uncovered (fst r) id \/ exists a b, EntryOf (fst r) id (Free a b)) revs -> LastHit hits id (InUse off gen) o ->
  exists n, forall fuel f caching, (n <= fuel)%nat -> exists D, open_document true e getdata fuel = Ok D /\ fst (getobj D caching (S f) id dstate0) = Ok o.
Proof.
  intros Hb Hres HS HR HD HC Hid HN HLst. set (e1 := set_fallback e true).
  destruct (open_with_table e getdata start revs hits d Hb Hres HS HR HC) as (n & xr & FF & HO).
  destruct (contents_parse e1 getdata Hb eq_refl Hres _ _ _ _ HC [] eq_refl eq_refl id off gen o) as (m & Hm).
  { destruct HLst as (a & b & -> & _). apply in_or_app. right. left. reflexivity. }
  exists (n + m)%nat. intros fuel f caching Hfu. eexists. split; [unfold open_document; rewrite HO by lia; reflexivity|].
  apply look_caching; [|discriminate]. eapply (look_direct e1 getdata _ fuel f xr (STable (add_hits [] hits), d) []); try eassumption.
  - reflexivity.
  - clear -FF HN HD. induction FF as [|y r ys rs [H1 H2] FF IH]; [constructor|]. inversion_clear HN as [|? ? HN1 HN2]. inversion_clear HD as [|? ? A B].
    constructor; [|apply IH; assumption]. rewrite H2. cbn [get_pos].
    destruct HN1 as [HU|(a & b & HE)]; [rewrite add_sections_uncovered by exact HU|rewrite (add_sections_get _ _ _ _ A HE)]; reflexivity.
  - eapply rev_keyerror, FF.
  - cbn [fst get_pos]. rewrite (add_hits_last hits id (InUse off gen) o (None, off, gen) HLst eq_refl). reflexivity.
  - replace fuel with (m + (fuel - m))%nat by lia. apply Hm.
Qed.

(* ---- a file without a table: an object, an object stream, a newer version of the object, a stream, a trailer ---- *)
From Verif Require Import Witness.
Definition raw_data (attrs : list (obj * obj)) (raw : list Z) : res (list Z) := Ok raw.
Definition lost : list Z := bs "%PDF-1.4
1 0 obj 5 endobj
2 0 obj <</Type/ObjStm/N 1>>stream
7 0 9
endstream endobj
1 0 obj [6] endobj
4 0 obj <<>> stream
ab
endstream
endobj
trailer <</Root 1 0 R>>
".
Definition lost_hits : list hit :=
  [(1, InUse 9 0, OInt 5); (2, InUse 26 0, OStream [(ON "Type", ON "ObjStm"); (ON "N", OInt 1)] (bs "7 0 9" ++ [10])); (7, Member 2 0, OInt 9);
   (1, InUse 84 0, OArr [OInt 6]); (4, InUse 103 0, OStream [] (bs "ab" ++ [10]))].
Ltac aopen_tok g := eapply (layP _ _ g _ _ [91] SelfDelimited); [reflexivity|reflexivity|reflexivity|apply sep_ok; reflexivity|apply Sp_single; cbn; tauto|exact Logic.I|].
Ltac aclose_tok g := eapply (layP _ _ g _ _ [93] SelfDelimited); [reflexivity|reflexivity|reflexivity|apply sep_ok; reflexivity|apply Sp_single; cbn; tauto|exact Logic.I|].
Definition no_eolb (s : list Z) : bool := forallb (fun c => negb ((c =? 10) || (c =? 13))) s.
Lemma no_eol_ok s : no_eolb s = true -> no_eol s.
Proof. intros H. apply Forall_forall. intros c Hc. unfold no_eolb in H. rewrite forallb_forall in H. specialize (H c Hc). unfold eol_byte. lia. Qed.
Lemma line_ok body l rest : l = body ++ [10] -> no_eolb body = true -> Line l rest.
Proof. intros -> H. apply Line_lf. apply no_eol_ok, H. Qed.
Lemma first_line_ok body tail text : text = (body ++ [10]) ++ tail -> no_eolb body = true -> FirstLine text (body ++ [10]).
Proof. intros -> H. exists tail. split; [reflexivity|]. apply Line_lf, no_eol_ok, H. Qed.
Lemma boring_ok line : cue line = None -> forall i g, ~ Announces line i g.
Proof. intros H i g A. apply cue_iff in A. congruence. Qed.
Lemma announces_ok line i g : cue line = Some (i, g) -> Announces line i g.
Proof. apply cue_iff. Qed.
Definition firstb (p : list Z) (k : nat) (s : list Z) : bool :=
  prefixb p (skipn k s) && (k <=? length s)%nat && forallb (fun i => negb (prefixb p (skipn i s))) (seq 0 k).
Lemma prefixb_app p b : prefixb p (p ++ b) = true.
Proof. induction p as [|c p IH]; [reflexivity|]. cbn. rewrite Z.eqb_refl. exact IH. Qed.
Lemma prefixb_split p : forall s, prefixb p s = true -> exists b, s = p ++ b.
Proof. induction p as [|c p IH]; intros [|x s] H; cbn in H; [eexists; reflexivity|eexists; reflexivity|discriminate|].
  apply andb_prop in H as [H1 H2]. apply Z.eqb_eq in H1. subst x. destruct (IH s H2) as (b & ->). exists b. reflexivity. Qed.
Lemma first_ok p k s : firstb p k s = true -> FirstAt p k s.
Proof.
  unfold firstb, FirstAt. intros H. apply andb_prop in H as [H H3]. apply andb_prop in H as [H1 H2]. splits.
  - destruct (prefixb_split _ _ H1) as (b & Hb). exists b. rewrite <- Hb, firstn_skipn. reflexivity.
  - lia.
  - intros a b ->. destruct (Nat.le_gt_cases k (length a)) as [|Hlt]; [assumption|exfalso].
    rewrite forallb_forall in H3. specialize (H3 (length a)). rewrite skipn_app, skipn_all, Nat.sub_diag in H3. cbn [skipn app] in H3.
    rewrite prefixb_app in H3. discriminate H3. apply in_seq. lia.
Qed.
Lemma boundary_ok r : boundb r = true -> Boundary r.
Proof. destruct r as [|c r]; cbn [boundb]; [discriminate|]. intros H. exists c, r. split; [reflexivity|].
  apply orb_prop in H as [H|H]; [left; apply whiteb_iff; assumption|right; apply delimb_iff; assumption]. Qed.
Lemma finished body tail : forall s, s = body ++ [10] ++ tail -> ~ unfinished_line s.
Proof. intros s -> (b & Hb & [H|H]).
  - subst b. unfold no_eol in Hb. apply Forall_app in Hb as [_ Hb]. inversion_clear Hb as [|? ? A B]. apply A. left. reflexivity.
  - assert (HI : In 10 (b ++ [13])) by (rewrite <- H; apply in_or_app; right; left; reflexivity). apply in_app_or in HI as [HI|[HI|[]]]; [|discriminate].
    unfold no_eol in Hb; rewrite Forall_forall in Hb. exact (Hb 10 HI (or_introl eq_refl)). Qed.
Lemma lost_packs : Packs raw_data [(ON "Type", ON "ObjStm"); (ON "N", OInt 1)] (bs "7 0 9" ++ [10]) [(7, OInt 9)].
Proof.
  unfold Packs. splits; [reflexivity|reflexivity|]. eexists (bs "7 0 9" ++ [10]), [(7, 0)], [(_, TInt 7); (_, TInt 0); (_, TInt 9)], true. splits.
  - reflexivity.
  - reflexivity.
  - int_tok (@nil Z) (bs "7"). int_tok [32] (bs "0"). int_tok [32] (bs "9"). lay_end.
  - apply (WL_cons _ _ (OInt 7) _ [TInt 7]); [constructor|]. apply (WL_cons _ _ (OInt 0) _ [TInt 0]); [constructor|]. apply (WL_cons _ _ (OInt 9) _ [TInt 9]); constructor.
  - constructor; [discriminate|constructor].
Qed.
Lemma lost_contents : Contents raw_data 0 lost lost_hits [(ON "Root", ORef 1)].
Proof.
  change lost with ((bs "%PDF-1.4" ++ [10]) ++ bs "1 0 obj 5 " ++ bs "endobj" ++ (@nil Z ++ [10]) ++
    bs "2 0 obj <</Type/ObjStm/N 1>>" ++ (bs "stream" ++ [10] ++ (bs "7 0 9" ++ [10]) ++ bs "endstream" ++ [32] ++ bs "endobj") ++ (@nil Z ++ [10]) ++
    bs "1 0 obj [6] " ++ bs "endobj" ++ (@nil Z ++ [10]) ++ bs "4 0 obj <<>> " ++ (bs "stream" ++ [10] ++ (bs "ab" ++ [10]) ++ bs "endstream" ++ [10] ++ bs "endobj") ++ (@nil Z ++ [10]) ++
    bs "trailer <</Root 1 0 R>>" ++ [10]).
  assert (HL : forall p l rest h d, l = bs "%PDF-1.4" \/ l = [] -> Contents raw_data (p + Z.of_nat (length (l ++ [10]))) rest h d -> Contents raw_data p ((l ++ [10]) ++ rest) h d).
  { intros p l rest h d Hl HC. apply Ct_line; [apply Line_lf|destruct Hl; subst l; discriminate| |exact HC].
    - destruct Hl; subst l; apply no_eol_ok; reflexivity.
    - destruct Hl; subst l; apply boring_ok; reflexivity. }
  unfold lost_hits. apply HL; [left; reflexivity|].
  apply (Ct_object _ _ 1 0 (OInt 5)).
  { eexists [(_, TInt 5)], _, _, _, true, (bs "1 0 obj 5 endobj" ++ [10]). splits.
    - cbn [app]. int_tok (@nil Z) (bs "1"). int_tok [32] (bs "0"). kw_tok [32] (bs "obj"). int_tok [32] (bs "5"). lay_end.
    - constructor.
    - eapply first_line_ok; reflexivity.
    - apply announces_ok. reflexivity. }
  { apply boundary_ok. reflexivity. }
  apply HL; [right; reflexivity|].
  apply (Ct_packed raw_data _ 2 0 [(ON "Type", ON "ObjStm"); (ON "N", OInt 1)] (bs "7 0 9" ++ [10]) [(7, OInt 9)]).
  { eexists [(_, KW "<<"); (_, TLit (bs "Type")); (_, TLit (bs "ObjStm")); (_, TLit (bs "N")); (_, TInt 1); (_, KW ">>")], _, _, _, true, (bs "2 0 obj <</Type/ObjStm/N 1>>stream" ++ [10]). splits.
    - cbn [app]. int_tok (@nil Z) (bs "2"). int_tok [32] (bs "0"). kw_tok [32] (bs "obj"). dopen_tok [32]. name_tok (@nil Z) (bs "Type"). name_tok (@nil Z) (bs "ObjStm").
      name_tok (@nil Z) (bs "N"). int_tok [32] (bs "1"). dclose_tok (@nil Z). lay_end.
    - apply (W_dict true true [(bs "Type", ON "ObjStm"); (bs "N", OInt 1)] [TLit (bs "Type"); TLit (bs "ObjStm"); TLit (bs "N"); TInt 1]).
      + constructor; [cbn; intros [H|[]]; discriminate H|]. constructor; [intros []|constructor].
      + apply (WE_cons true true (bs "Type") (ON "ObjStm") _ [TLit (bs "ObjStm")]); [constructor|].
        apply (WE_cons true true (bs "N") (OInt 1) _ [TInt 1]); constructor.
    - eapply first_line_ok; reflexivity.
    - apply announces_ok. reflexivity. }
  { exists [10], [32]. splits; [reflexivity|left; reflexivity|apply sep_ok; reflexivity|discriminate|apply first_ok; reflexivity|].
    eapply (finished (bs " endobj")). reflexivity. }
  { apply boundary_ok. reflexivity. }
  { exact lost_packs. }
  apply HL; [right; reflexivity|].
  apply (Ct_object _ _ 1 0 (OArr [OInt 6])).
  { eexists [(_, KW "["); (_, TInt 6); (_, KW "]")], _, _, _, true, (bs "1 0 obj [6] endobj" ++ [10]). splits.
    - cbn [app]. int_tok (@nil Z) (bs "1"). int_tok [32] (bs "0"). kw_tok [32] (bs "obj"). aopen_tok [32]. int_tok (@nil Z) (bs "6"). aclose_tok (@nil Z). lay_end.
    - apply (W_arr true true [OInt 6] [TInt 6]). apply (WL_cons _ _ (OInt 6) _ [TInt 6]); constructor.
    - eapply first_line_ok; reflexivity.
    - apply announces_ok. reflexivity. }
  { apply boundary_ok. reflexivity. }
  apply HL; [right; reflexivity|].
  apply (Ct_stream raw_data _ 4 0 [] (bs "ab" ++ [10])).
  { eexists [(_, KW "<<"); (_, KW ">>")], _, _, _, true, (bs "4 0 obj <<>> stream" ++ [10]). splits.
    - cbn [app]. int_tok (@nil Z) (bs "4"). int_tok [32] (bs "0"). kw_tok [32] (bs "obj"). dopen_tok [32]. dclose_tok (@nil Z). lay_end.
    - apply (W_dict true true [] []); constructor.
    - eapply first_line_ok; reflexivity.
    - apply announces_ok. reflexivity. }
  { exists [10], [10]. splits; [reflexivity|left; reflexivity|apply sep_ok; reflexivity|discriminate|apply first_ok; reflexivity|].
    eapply (finished []). reflexivity. }
  { apply boundary_ok. reflexivity. }
  { discriminate. }
  apply HL; [right; reflexivity|].
  apply Ct_trailer. eexists [(_, KW "<<"); (_, TLit (bs "Root")); (_, TInt 1); (_, TInt 0); (_, KW "R"); (_, KW ">>")], _, (bs "trailer <</Root 1 0 R>>" ++ [10]). splits.
  - eapply (first_line_ok _ []); reflexivity.
  - exists (bs " <</Root 1 0 R>>" ++ [10]). reflexivity.
  - apply (W_dict true true [(bs "Root", ORef 1)] [TLit (bs "Root"); TInt 1; TInt 0; KW "R"]); [repeat constructor; cbn; tauto|].
    apply (WE_cons true true (bs "Root") (ORef 1) [] [TInt 1; TInt 0; KW "R"] []); repeat constructor.
  - right. exists true. kw_tok (@nil Z) (bs "trailer"). dopen_tok [32]. name_tok (@nil Z) (bs "Root"). int_tok [32] (bs "1"). int_tok [32] (bs "0").
    kw_tok [32] (bs "R"). dclose_tok (@nil Z). lay_end.
Qed.
Lemma C80_case_hyps : (forall a b, lost <> a ++ bs "startxref" ++ b) /\ Contents raw_data 0 lost lost_hits [(ON "Root", ORef 1)] /\
  Recovered raw_data lost_hits 1 (OArr [OInt 6]) /\ NoHit lost_hits 3.
Proof.
  splits; [|exact lost_contents| |].
  - intros a b H. assert (E : forallb (fun i => negb (prefixb (bs "startxref") (skipn i lost))) (seq 0 (length lost)) = true) by reflexivity.
    rewrite forallb_forall in E. specialize (E (length a)). cbv beta in E.
    replace (skipn (length a) lost) with (bs "startxref" ++ b) in E by (rewrite H, skipn_app, skipn_all, Nat.sub_diag; reflexivity).
    rewrite prefixb_app in E. discriminate E. apply in_seq. rewrite H, !app_length. cbn [length bs]. lia.
  - apply Rc_direct with 84 0. eexists [_; _; _], [_]. split; [reflexivity|]. constructor; [discriminate|constructor].
  - repeat constructor; discriminate.
Qed.
Lemma C80_case_member : Recovered raw_data lost_hits 7 (OInt 9).
Proof.
  eapply (Rc_member raw_data lost_hits 7 2 0 (OInt 9) 26 0 _ _ [(7, OInt 9)] 7).
  - eexists [_; _], [_; _]. split; [reflexivity|]. repeat constructor; discriminate.
  - discriminate.
  - eexists [_], [_; _; _]. split; [reflexivity|]. repeat constructor; discriminate.
  - exact lost_packs.
  - reflexivity.
Qed.
(* the whole thing, run *)
Definition look_lost (text : list Z) (use_fallback : bool) (i : Z) : res obj :=
  do D <- open_document use_fallback (env0 text 7 false) raw_data 90; look D 9 i.
Example C80_case : look_lost lost true 1 = Ok (OArr [OInt 6]) /\ look_lost lost true 7 = Ok (OInt 9) /\ look_lost lost true 4 = Ok (OStream [] (bs "ab" ++ [10])) /\
  look_lost lost true 3 = Err PDFObjectNotFound.
Proof. vm_compute. splits; reflexivity. Qed.

(* Refuted: objects after the first trailer (of an updated file, say) are lost *)
Definition lost2 : list Z := bs "%PDF-1.4
1 0 obj 5 endobj
trailer <<>>
2 0 obj 6 endobj
".
Theorem C80_second_part_refuted : look_lost lost2 true 1 = Ok (OInt 5) /\ look_lost lost2 true 2 = Err PDFObjectNotFound.
Proof. vm_compute. split; reflexivity. Qed.
(* Refuted: an object that does not begin a line is not found, nor one whose header is spread over lines *)
Definition lost3 : list Z := bs "%PDF-1.4
1 0 obj 5 endobj 2 0 obj 6 endobj
3 0
obj 7 endobj
".
Theorem C80_line_start_refuted : look_lost lost3 true 1 = Ok (OInt 5) /\ look_lost lost3 true 2 = Err PDFObjectNotFound /\ look_lost lost3 true 3 = Err PDFObjectNotFound.
Proof. vm_compute. splits; reflexivity. Qed.
(* Refuted: a file cut off in an object cannot be opened, although the objects before are complete *)
Definition lost4 : list Z := bs "%PDF-1.4
1 0 obj 5 endobj
2 0 obj [6 
".
Theorem C80_truncated_refuted : look_lost lost4 true 1 = Err PSEOF.
Proof. vm_compute. reflexivity. Qed.
(* Refuted: a file whose startxref leads nowhere useful *)
Definition lost5 : list Z := bs "%PDF-1.4
1 0 obj 5 endobj
startxref
9
%%EOF
".
Definition lost6 : list Z := bs "%PDF-1.4
1 0 obj 5 endobj
xref
1 x
0000000009 00000 n 
trailer <<>>
startxref
26
%%EOF
".
Theorem C80_damaged_refuted : look_lost lost5 true 1 = Err NameError /\ look_lost lost6 true 1 = Err NameError.
Proof. vm_compute. split; reflexivity. Qed.
(* Refuted: valid files (their tables and lengths are right, and they can be read with fallback=False) that are damaged by
   the scan done by default: the file cannot be opened; the data of a stream are cut *)
Definition valid1 : list Z := bs "%PDF-1.4
1 0 obj <</Length 23>>stream
(endstream
9 0 obj [ R
endstream endobj
xref
1 1
0000000009 00000 n 
trailer <<>>
startxref
78
%%EOF
".
Definition valid2 : list Z := bs "%PDF-1.4
1 0 obj <</Length 15>>stream
ab endstream cd
endstream endobj
xref
1 1
0000000009 00000 n 
trailer <<>>
startxref
71
%%EOF
".
Theorem C80_valid_file_refuted :
  look_lost valid1 true 1 = Err ValueError /\ look_lost valid1 false 1 = Ok (OStream [(ON "Length", OInt 23)] (bs "(endstream
9 0 obj [ R
")) /\
  look_lost valid2 true 1 = Ok (OStream [(ON "Length", OInt 15)] (bs "ab ")) /\ look_lost valid2 false 1 = Ok (OStream [(ON "Length", OInt 15)] (bs "ab endstream cd")).
Proof. vm_compute. splits; reflexivity. Qed.

(* a file with a table that lists one of its two objects *)
Definition tabled : list Z := bs "%PDF-1.4
1 0 obj 5 endobj
2 0 obj 6 endobj
xref
1 1
0000000009 00000 n 
trailer <</Root 1 0 R>>
startxref
43
%%EOF
".
Lemma C80_tabled_hyps : StartXRef tabled 43 /\ Revisions tabled 43 [([(1, [InUse 9 0])], [(ON "Root", ORef 1)])] /\
  Disjoint [(1, [InUse 9 0])] /\ Defines [([(1, [InUse 9 0])], [(ON "Root", ORef 1)])] 1 9 /\ Uncovered [(1, [InUse 9 0])] 2 /\
  Contents raw_data 0 tabled [(1, InUse 9 0, OInt 5); (2, InUse 26 0, OInt 6)] [(ON "Root", ORef 1)].
Proof.
  splits.
  - exists (bs "%PDF-1.4
1 0 obj 5 endobj
2 0 obj 6 endobj
xref
1 1
0000000009 00000 n 
trailer <</Root 1 0 R>>"), 10, (bs "startxref" ++ [10]), (bs "43"), (bs "43" ++ [10]), (bs "%%EOF" ++ [10]).
    splits; [reflexivity|left; reflexivity| | | |].
    + apply (textline_ok _ [] [10]); [reflexivity|constructor|constructor|discriminate].
    + apply dec_eq; [reflexivity|discriminate|reflexivity].
    + apply (textline_ok _ [] [10]); [reflexivity|constructor|constructor|discriminate].
    + intros a b H. apply (f_equal (@length Z)) in H. rewrite !app_length in H. cbn in H. lia.
  - apply Rev_last; [|reflexivity|reflexivity].
    eexists (bs "%PDF-1.4
1 0 obj 5 endobj
2 0 obj 6 endobj
"), (bs "xref" ++ [10]), (bs "1 1
0000000009 00000 n 
"), (bs "trailer <</Root 1 0 R>>
startxref"), (bs "
43
%%EOF
"), [(_, KW "<<"); (_, TLit (bs "Root")); (_, TInt 1); (_, TInt 0); (_, KW "R"); (_, KW ">>")], _, _, true.
    splits; [reflexivity|reflexivity|discriminate| | | | |].
    + apply (textline_ok _ [] [10]); [reflexivity|constructor|constructor|discriminate].
    + apply (XT_sub 1 [InUse 9 0] (bs "1") (bs "1") (bs "1 1" ++ [10]) (bs "0000000009 00000 n " ++ [10]) [] []).
      * apply dec_eq; [reflexivity|discriminate|reflexivity].
      * apply dec_eq; [reflexivity|discriminate|reflexivity].
      * apply (textline_ok _ [] [10]); [reflexivity|constructor|constructor|discriminate].
      * apply (XE_cons (InUse 9 0) [] (bs "0000000009 00000 n") (bs "0000000009 00000 n " ++ [10]) []); [| |constructor].
        -- apply (XT_n 9 0 (bs "0000000009") (bs "00000")); apply dec_eq; [reflexivity|discriminate|reflexivity|reflexivity|discriminate|reflexivity].
        -- apply (textline_ok _ [32] [10]); [reflexivity|repeat constructor|constructor|discriminate].
      * constructor.
    + exists (bs " <</Root 1 0 R>>" ++ [10]), (bs "startxref
43
%%EOF
"). split; [reflexivity|]. apply (Line_lf (bs "trailer <</Root 1 0 R>>")). apply no_eol_ok. reflexivity.
    + kw_tok (@nil Z) (bs "trailer"). dopen_tok [32]. name_tok (@nil Z) (bs "Root"). int_tok [32] (bs "1"). int_tok [32] (bs "0").
      kw_tok [32] (bs "R"). dclose_tok (@nil Z). kw_tok [10] (bs "startxref"). lay_end.
    + apply (W_dict true true [(bs "Root", ORef 1)] [TLit (bs "Root"); TInt 1; TInt 0; KW "R"]); [repeat constructor; cbn; tauto|].
      apply (WE_cons true true (bs "Root") (ORef 1) [] [TInt 1; TInt 0; KW "R"] []); repeat constructor.
  - repeat constructor.
  - exists [], [(1, [InUse 9 0])], [(ON "Root", ORef 1)], [], 0. splits; [reflexivity| |constructor].
    exists [], (1, [InUse 9 0]), [], 0%nat. splits; [reflexivity|reflexivity|reflexivity|constructor].
  - constructor; [|constructor]. unfold covers. cbn. lia.
  - assert (HL : forall p l rest h d, In l [bs "%PDF-1.4"; []; bs "xref"; bs "1 1"; bs "0000000009 00000 n "] ->
      Contents raw_data (p + Z.of_nat (length (l ++ [10]))) rest h d -> Contents raw_data p ((l ++ [10]) ++ rest) h d).
    { intros p l rest h d Hl HC. apply Ct_line; [apply Line_lf| | |exact HC].
      - destruct Hl as [H|[H|[H|[H|[H|[]]]]]]; subst l; apply no_eol_ok; reflexivity.
      - destruct Hl as [H|[H|[H|[H|[H|[]]]]]]; subst l; discriminate.
      - destruct Hl as [H|[H|[H|[H|[H|[]]]]]]; subst l; apply boring_ok; reflexivity. }
    change tabled with ((bs "%PDF-1.4" ++ [10]) ++ bs "1 0 obj 5 " ++ bs "endobj" ++ (@nil Z ++ [10]) ++ bs "2 0 obj 6 " ++ bs "endobj" ++ (@nil Z ++ [10]) ++
      (bs "xref" ++ [10]) ++ (bs "1 1" ++ [10]) ++ (bs "0000000009 00000 n " ++ [10]) ++ bs "trailer <</Root 1 0 R>>
startxref
43
%%EOF
").
    apply HL; [cbn; tauto|]. apply (Ct_object _ _ 1 0 (OInt 5)).
    { eexists [(_, TInt 5)], _, _, _, true, (bs "1 0 obj 5 endobj" ++ [10]). splits.
      - cbn [app]. int_tok (@nil Z) (bs "1"). int_tok [32] (bs "0"). kw_tok [32] (bs "obj"). int_tok [32] (bs "5"). lay_end.
      - constructor.
      - eapply first_line_ok; reflexivity.
      - apply announces_ok. reflexivity. }
    { apply boundary_ok. reflexivity. }
    apply HL; [cbn; tauto|]. apply (Ct_object _ _ 2 0 (OInt 6)).
    { eexists [(_, TInt 6)], _, _, _, true, (bs "2 0 obj 6 endobj" ++ [10]). splits.
      - cbn [app]. int_tok (@nil Z) (bs "2"). int_tok [32] (bs "0"). kw_tok [32] (bs "obj"). int_tok [32] (bs "6"). lay_end.
      - constructor.
      - eapply first_line_ok; reflexivity.
      - apply announces_ok. reflexivity. }
    { apply boundary_ok. reflexivity. }
    do 4 (apply HL; [cbn; tauto|]).
    apply Ct_trailer. eexists [(_, KW "<<"); (_, TLit (bs "Root")); (_, TInt 1); (_, TInt 0); (_, KW "R"); (_, KW ">>")], _, (bs "trailer <</Root 1 0 R>>" ++ [10]). splits.
    + eapply first_line_ok; reflexivity.
    + exists (bs " <</Root 1 0 R>>" ++ [10]). reflexivity.
    + apply (W_dict true true [(bs "Root", ORef 1)] [TLit (bs "Root"); TInt 1; TInt 0; KW "R"]); [repeat constructor; cbn; tauto|].
      apply (WE_cons true true (bs "Root") (ORef 1) [] [TInt 1; TInt 0; KW "R"] []); repeat constructor.
    + left. eexists _, true, (bs "trailer <</Root 1 0 R>>
startxref"), (bs "
43
%%EOF
"). splits; [reflexivity|discriminate|].
      kw_tok (@nil Z) (bs "trailer"). dopen_tok [32]. name_tok (@nil Z) (bs "Root"). int_tok [32] (bs "1"). int_tok [32] (bs "0").
      kw_tok [32] (bs "R"). dclose_tok (@nil Z). kw_tok [10] (bs "startxref"). lay_end.
Qed.
Example C80_tabled_case : look_lost tabled true 1 = Ok (OInt 5) /\ look_lost tabled true 2 = Ok (OInt 6) /\ look_lost tabled false 2 = Err PDFObjectNotFound.
Proof. vm_compute. splits; reflexivity. Qed.
