(* C93: the text file made from an encrypted PDF file holds the text of the document that was encrypted. *)
From Coq Require Import String.
From Verif Require Import Base Lex_Model Lex_Spec Lines_Model Lines_Spec Markup_Spec Obj Stack_Model Stack_Spec Content_Model Content_Spec Stream_Model Stream_Spec Stream_Props XRef_Model XRef_Spec XRef_Proofs
  Doc_Model Doc_Spec Doc_Proofs Doc_Props Num Geom_Model Page_Model Page_Spec Page_Proofs Page_Props Interp_Model Interp_Spec CMap_Model CMap_Spec CMap_Proofs Font_Model Font_Spec Font_Props
  RC4 Sec_Model Sec_Spec Sec_Props Open_Model Open_Spec Open_Props Fallback_Model Fallback_Spec Fallback_Proofs Fallback_Props Sections_Spec Sections_Props Convert_Model Convert_Spec TextFile_Props
  Names_Props Total_Spec Total_Props Instr_Spec Instr_Props Multi_Spec Multi_Props FontTotal_Spec FontTotal_Props Extract_Model Extract_Spec Extract_Proofs Extract_Props ExtractEnc_Spec.
From Coq Require Import ZifyBool ZifyNat.
Open Scope Z_scope.
Import ListNotations.

(* ---------- lookups in any state of the cache ---------- *)
Definition Nowhere (D : docdata) (i : Z) : Prop := i <> 0 /\ d_xrefs D <> [] /\ Forall (fun x : Z -> res pos3 => x i = Err KeyError) (d_xrefs D).
Definition Missing (D : docdata) (s : dstate) : Prop := forall i, Nowhere D i -> zget (ds_objs s) i = None.
Lemma nowhere_try D caching get n i s : Nowhere D i -> try_xrefs D caching get n i (d_xrefs D) s = (Err PDFObjectNotFound, s).
Proof. intros (_ & _ & H). induction H as [|x xs Hx _ IH]; [reflexivity|]. cbn [try_xrefs]. rewrite Hx. exact IH. Qed.
Lemma nowhere_get D caching f i s : Nowhere D i -> Missing D s -> Doc_Model.getobj D caching (S f) i s = (Err PDFObjectNotFound, s).
Proof.
  intros H Hs. pose proof (nowhere_try D caching (Doc_Model.getobj D caching f) f i s H) as T. pose proof (Hs i H) as Z0. destruct H as (Hi & Hne & _). cbn [Doc_Model.getobj].
  replace (i =? 0) with false by lia. destruct (d_xrefs D) as [|x xs] eqn:EX; [contradiction|]. rewrite Z0, T. reflexivity.
Qed.
Section missing.
  Context (D : docdata) (caching : bool) (HP : forall off i, exists r, d_parse D off i = Ret r).
  Definition mkeeps {A} (m : M A) : Prop := forall s, Missing D s -> Missing D (snd (m s)).
  Lemma mkeeps_bind {A B} (m : M A) (f : A -> M B) : mkeeps m -> (forall a, mkeeps (f a)) -> mkeeps (mbind m f).
  Proof. intros Hm Hf s Hs. unfold mbind. specialize (Hm s Hs). destruct (m s) as [[a|e] s']; [apply Hf; exact Hm|exact Hm]. Qed.
  Lemma mkeeps_follow get n : (forall i, mkeeps (get i)) -> forall id o, mkeeps (follow get n id o).
  Proof.
    intros Hg. induction n as [|n IH]; intros id o s Hs; destruct o; try exact Hs. cbn [follow].
    specialize (Hg objid s Hs). destruct (get objid s) as [[a|[]] s']; try exact Hg. apply IH. exact Hg.
  Qed.
  Lemma mkeeps_try get n i : (forall i, mkeeps (get i)) -> forall xs, mkeeps (try_xrefs D caching get n i xs).
  Proof.
    intros Hg. induction xs as [|x xs IH]; intros s Hs; [exact Hs|]. cbn [try_xrefs]. destruct (x i) as [p|[]]; try exact Hs; [|apply IH; exact Hs].
    assert (K : Missing D (snd (read_entry D caching get n i p s))).
    { destruct p as [[[sid|] index] gen]; cbn [read_entry].
      - revert s Hs. apply mkeeps_bind; [apply Hg|]. intros o. apply mkeeps_bind; [apply mkeeps_follow; exact Hg|]. intros ks s Hs. unfold getobj_objstm.
        destruct (oget _ _); [exact Hs|]. destruct (d_members D _); [|exact Hs]. destruct caching; [|exact Hs]. cbn [snd]. exact Hs.
      - unfold mbind. destruct (HP index i) as (r & ->). cbn [run_prog ret]. destruct r; exact Hs. }
    destruct (read_entry D caching get n i p s) as [[a|[]] s']; try exact K; apply IH; exact K.
  Qed.
  Lemma mkeeps_get f : forall i, mkeeps (Doc_Model.getobj D caching f i).
  Proof.
    induction f as [|f IH]; intros i s Hs; [exact Hs|]. cbn [Doc_Model.getobj]. destruct (i =? 0) eqn:Ei; [exact Hs|].
    destruct (d_xrefs D) as [|x xs] eqn:EX; [exact Hs|]. destruct (zget (ds_objs s) i) as [o|] eqn:Hz; [exact Hs|].
    rewrite <- EX. pose proof (mkeeps_try (Doc_Model.getobj D caching f) f i IH (d_xrefs D) s Hs) as K.
    destruct (try_xrefs D caching (Doc_Model.getobj D caching f) f i (d_xrefs D) s) as [[v|e] s'] eqn:ET; [|exact K].
    destruct caching; [|exact K]. cbn [snd] in *. intros j HN. cbn [ds_objs zget]. destruct (i =? j) eqn:Eij; [|apply (K j HN)].
    apply Z.eqb_eq in Eij. subst j. rewrite nowhere_try in ET by exact HN. discriminate ET.
  Qed.
End missing.

(* ---------- where the objects are ---------- *)
Section store.
  Context (decode : list (obj * obj) -> list Z -> res (list Z)) (e : env).
  Context (Hb : (0 < bufsiz e)%nat) (Hres : forall o, (forall i, o <> ORef i) -> resolve e o = o).
  Notation doc F l := (document (set_fallback e true) decode F l).
  Notation e1 := (set_fallback e true).
  Lemma laid_lemma revs hits d : Laid decode (file e) revs hits d -> exists n l, map snd l = map snd revs ++ [d] /\ l <> [] /\
    (forall F, (n <= F)%nat -> open_sections true e decode F = Ok l) /\
    (forall id g o, StandsAt (file e) revs hits id g o -> exists nw x old off m, l = nw ++ x :: old /\ Forall (fun y => get_pos (fst y) id = Err KeyError) nw /\
       get_pos (fst x) id = Ok (None, off, g) /\ forall F, (m <= F)%nat -> getobj_parse e1 F off id = Ok o) /\
    (forall id, Unlisted revs id -> NoHit hits id -> Forall (fun y => get_pos (fst y) id = Err KeyError) l).
  Proof.
    assert (G : forall xr x, Forall2 like xr revs -> Fallback_Spec.Contents decode 0 (file e) hits d -> Tells x hits -> (exists offs, x = STable offs) ->
      (forall id g o, StandsAt (file e) revs hits id g o -> exists nw y old off m, xr ++ [(x, d)] = nw ++ y :: old /\ Forall (fun y => get_pos (fst y) id = Err KeyError) nw /\
        get_pos (fst y) id = Ok (None, off, g) /\ forall F, (m <= F)%nat -> getobj_parse e1 F off id = Ok o) /\
      (forall id, Unlisted revs id -> NoHit hits id -> Forall (fun y => get_pos (fst y) id = Err KeyError) (xr ++ [(x, d)])) /\
      map snd (xr ++ [(x, d)]) = map snd revs ++ [d]).
    { intros xr x FF HC HT (offs & Ex).
      assert (HX : ([(x, d)] = [] /\ hits = []) \/ exists x0 offs, [(x, d)] = [x0] /\ fst x0 = STable offs /\ Tells (fst x0) hits)
        by (right; exists (x, d), offs; splits; [reflexivity|exact Ex|exact HT]).
      assert (HH : forall id off gen o, In (id, InUse off gen, o) hits -> exists m, forall fuel, (m <= fuel)%nat -> getobj_parse e1 fuel off id = Ok o)
        by (eapply (hits_parse e1); try eassumption; reflexivity).
      splits.
      - intros id g o HS.
        assert (K : exists off m, Points xr [(x, d)] id (None, off, g) /\ forall F, (m <= F)%nat -> getobj_parse e1 F off id = Ok o).
        { destruct HS as [off HL [Ha|(gen & HI)]|off HU HL].
          - destruct (object_at_parse e1 off id o Hb Ha) as (m & Hm). exists off, m. split; [|exact Hm]. eapply listed_points; try eassumption. reflexivity.
          - destruct (HH _ _ _ _ HI) as (m & Hm). exists off, m. split; [|exact Hm]. eapply listed_points; try eassumption. reflexivity.
          - destruct (HH id off g o) as (m & Hm); [destruct HL as (a & b & -> & _); apply in_or_app; right; left; reflexivity|].
            exists off, m. split; [|exact Hm]. eapply found_points; try eassumption. reflexivity. }
        destruct K as (off & m & (nw & y & old & El & HN & Hy) & Hm). exists nw, y, old, off, m. splits; assumption.
      - intros id HU HN. apply Forall_app. split; [eapply silent_all; eassumption|]. constructor; [apply HT, HN|constructor].
      - rewrite map_app. f_equal. clear -FF. induction FF as [|y r xs rs [E _] _ IH]; [reflexivity|]. cbn [map]. rewrite E, IH. reflexivity. }
    intros H. destruct H as [start revs hits d HS HR HD HC|hits d HN HC].
    - destruct (open_sections_lemma e decode start revs Hb Hres HS HR HD) as (_ & xr & FF & _ & EO). destruct (EO hits d HC) as (n & En).
      destruct (G xr _ FF HC (tells_hits hits)) as (G1 & G2 & G3); [eexists; reflexivity|].
      exists n. eexists. splits; [exact G3|destruct xr; discriminate|exact En|exact G1|exact G2].
    - destruct (fb_load_lemma (set_fallback e true) decode hits d Hb eq_refl Hres HC) as (n & H).
      destruct (G [] _ (Forall2_nil _) HC (tells_hits hits)) as (G1 & G2 & G3); [eexists; reflexivity|].
      exists n. eexists. splits; [exact G3|discriminate| |exact G1|exact G2]. intros F HF. unfold open_sections, read_regular. cbn [set_fallback bufsiz file]. rewrite (C63_missing _ _ Hb HN). cbn [bind].
      replace F with (n + (F - n))%nat by lia. rewrite H. reflexivity.
  Qed.
End store.

(* ---------- opening ---------- *)
Lemma stands_in file revs hits id g o : StandsAt file revs hits id g o -> In id (map (fun h : hit => fst (fst h)) hits ++ covered revs).
Proof. intros [off HL _|off _ HL]; apply in_or_app; [right; eapply listed_covered; exact HL|left; eapply lasthit_in; exact HL]. Qed.
Section opening.
  Context (md5 : list Z -> list Z) (aes : list Z -> list Z -> list Z -> res (list Z)) (caching : bool).
  Context (enc : obj) (getobj : Z -> option obj).
  Notation under := (under md5 aes).
  Let E (i : Z) : Prop := enc = ORef i.
  (* a document that reads as getobj, whatever is in the cache, except for enc *)
  Definition sealed (D : docdata) : Prop := (forall off i, exists r, d_parse D off i = Ret r) /\
    forall i, i <> 0 -> enc <> ORef i -> match getobj i with Some o => Open_Props.Reads D i o | None => Nowhere D i end.
  Definition Inv (D : docdata) (s : dstate) : Prop := Faithful D E s /\ Missing D s.
  Lemma sealed_get D f i s : sealed D -> i <> 0 -> enc <> ORef i -> Inv D s -> exists s', Doc_Model.getobj D caching (S f) i s = (outcome_of getobj i, s') /\ Inv D s'.
  Proof.
    intros [HP H] Hi HE [HF HM]. specialize (H i Hi HE). unfold outcome_of. destruct (getobj i) as [o|].
    - pose proof (reads_any D E caching f i o s H HE HF) as G. pose proof (keeps_get D E caching HP (S f) i s HF) as K1. pose proof (mkeeps_get D caching HP (S f) i s HM) as K2.
      destruct (Doc_Model.getobj D caching (S f) i s) as [r s']. cbn [fst snd] in *. subst r. exists s'. split; [reflexivity|split; assumption].
    - exists s. split; [apply nowhere_get; assumption|split; assumption].
  Qed.
  Lemma stands_sealed o v : Stands (lookup_sealed enc getobj) o v -> exists n, forall D f m s, sealed D -> (n <= m)%nat -> Inv D s ->
    exists s', resolveM (Doc_Model.getobj D caching (S f)) m o s = (Ok v, s') /\ Inv D s'.
  Proof.
    induction 1 as [o Ho|i o v (HE & Hi & Eo) HS IH|i (HE & Hi & Eo)].
    - exists 0%nat. intros D f m s _ _ Hs. exists s. split; [|exact Hs]. destruct o; destruct m; try reflexivity; exfalso; eapply Ho; reflexivity.
    - destruct IH as (n & IH). exists (S n). intros D f m s HD Hm Hs. destruct m as [|m]; [lia|].
      destruct (sealed_get D f i s HD Hi HE Hs) as (s1 & E1 & H1). destruct (IH D f m s1 HD ltac:(lia) H1) as (s2 & E2 & H2). exists s2. split; [|exact H2].
      cbn [resolveM]. rewrite E1. unfold outcome_of. rewrite <- Eo. exact E2.
    - exists 1%nat. intros D f m s HD Hm Hs. destruct m as [|m]; [lia|].
      destruct (sealed_get D f i s HD Hi HE Hs) as (s1 & E1 & H1). exists s1. split; [|exact H1]. cbn [resolveM]. rewrite E1. unfold outcome_of. rewrite <- Eo. reflexivity.
  Qed.
  Lemma dict_sealed o d : StandsDict (lookup_sealed enc getobj) o d -> exists n, forall D h f s, sealed (under D h) -> (n <= S f)%nat -> Inv (under D h) s ->
    exists s', dictM md5 aes D caching (S f) h o s = (Ok d, s') /\ Inv (under D h) s'.
  Proof.
    intros (v & HS & ->). destruct (stands_sealed o v HS) as (n & H). exists n. intros D h f s HD Hf Hs.
    destruct (H _ f (S f) s HD Hf Hs) as (s' & E1 & H'). exists s'. split; [|exact H']. unfold dictM, mbind. rewrite E1. reflexivity.
  Qed.
  Lemma info_sealed t info : InfoOf (lookup_sealed enc getobj) t info -> exists n, forall D h f s, sealed (under D h) -> (n <= S f)%nat -> Inv (under D h) s ->
    exists s', (match dget t "Info" with
                | None => ret (Ok [])
                | Some v => mbind (dictM md5 aes D caching (S f) h v) (fun d => ret (Ok ([] ++ [d])))
                end) s = (Ok info, s') /\ Inv (under D h) s'.
  Proof.
    intros [HN|v d HN Hd]; rewrite HN.
    - exists 0%nat. intros D h f s _ _ Hs. exists s. split; [reflexivity|exact Hs].
    - destruct (dict_sealed v d Hd) as (n & H). exists n. intros D h f s HD Hf Hs. destruct (H D h f s HD Hf Hs) as (s' & E1 & H').
      exists s'. split; [|exact H']. unfold mbind. rewrite E1. reflexivity.
  Qed.
  Lemma view_sealed D h f s i : sealed (under D h) -> getobj 0 = None -> Inv (under D h) s -> enc <> ORef i -> view md5 aes D caching (S f) h s i = getobj i.
  Proof.
    intros HD H0 Hs HE. unfold view. destruct (Z.eq_dec i 0) as [->|Hi].
    - rewrite H0. reflexivity.
    - destruct (sealed_get (under D h) f i s HD Hi HE Hs) as (s' & E1 & _). rewrite E1. cbn [fst]. unfold outcome_of. destruct (getobj i); reflexivity.
  Qed.

  Context (decode : list (obj * obj) -> list Z -> res (list Z)) (e : env) (clear : bool) (key : list Z) (param : list (obj * obj)).
  (* h deciphers what is encrypted under the key *)
  Definition deciphers (h : handler) : Prop := forall i g o stored, 0 <= i < 2 ^ 32 -> 0 <= g < 2 ^ 32 -> Sealed md5 clear key i g o stored -> doc_decipher md5 aes h i g stored = Ok o.
  Notation doc F l := (document (set_fallback e true) decode F l).
  Lemma sealed_doc revs hits l : (0 < bufsiz e)%nat -> l <> [] -> HasSealed md5 (file e) clear key enc param getobj revs hits ->
    (forall id g o, StandsAt (file e) revs hits id g o -> exists nw x old off m, l = nw ++ x :: old /\ Forall (fun y : section_ * list (obj * obj) => get_pos (fst y) id = Err KeyError) nw /\
       get_pos (fst x) id = Ok (None, off, g) /\ forall F, (m <= F)%nat -> getobj_parse (set_fallback e true) F off id = Ok o) ->
    (forall id, Unlisted revs id -> NoHit hits id -> Forall (fun y : section_ * list (obj * obj) => get_pos (fst y) id = Err KeyError) l) ->
    exists n, forall F, (n <= F)%nat -> (forall h, deciphers h -> sealed (under (doc F l) (Some h))) /\
      forall f, exists s, dictM md5 aes (doc F l) caching (S f) None enc dstate0 = (Ok param, s) /\ forall h, Inv (under (doc F l) (Some h)) s.
  Proof.
    intros Hb Hl (H0 & Henc & HO) HA HN.
    destruct (uniform (fun i F => i <> 0 -> enc <> ORef i -> getobj i <> None -> forall h, deciphers h -> match getobj i with Some o => Open_Props.Reads (under (doc F l) (Some h)) i o | None => True end) (map (fun h : hit => fst (fst h)) hits ++ covered revs)) as (n & U).
    { intros i _. destruct (Z.eq_dec i 0) as [Ei|Hi]; [exists O; intros F _ X; contradiction|]. specialize (HO i Hi).
      destruct (getobj i) as [o|] eqn:EG; [|exists O; intros F _ _ _ X; contradiction].
      assert (D0 : enc = ORef i \/ enc <> ORef i) by (destruct enc; try (right; discriminate); destruct (Z.eq_dec objid i) as [->|]; [left; reflexivity|right; congruence]).
      destruct D0 as [D0|D0]; [exists O; intros F _ _ X; contradiction|].
      destruct (HO D0) as (Hr & g & stored & Hg & HS & HSe). destruct (HA _ _ _ HS) as (nw & x & old & off & m & El & HNw & Hx & Hm).
      exists m. intros F HF _ _ _ h Hh. split; [exact Hi|].
      exists (map (fun x => get_pos (fst x)) nw), (get_pos (fst x)), (map (fun x => get_pos (fst x)) old), off, g, stored. splits.
      - cbn [d_xrefs Open_Model.under document]. rewrite El, map_app. reflexivity.
      - apply Forall_map. exact HNw.
      - exact Hx.
      - cbn [d_parse Open_Model.under document]. rewrite Hm by exact HF. reflexivity.
      - cbn [d_decipher Open_Model.under document option_map]. apply Hh; [lia|exact Hg|exact HSe]. }
    assert (HE : exists n, forall F, (n <= F)%nat -> forall f, exists s, dictM md5 aes (doc F l) caching (S f) None enc dstate0 = (Ok param, s) /\
      ds_objs s = [] \/ exists s, dictM md5 aes (doc F l) caching (S f) None enc dstate0 = (Ok param, s) /\ exists j, E j /\ ds_objs s = [(j, ODict param)] /\ forall h, ~ Nowhere (under (doc F l) (Some h)) j).
    { destruct Henc as [Ee|(j & g & Ee & Hj & HS)].
      - exists O. intros F _ f. rewrite Ee. exists dstate0. left. split; reflexivity.
      - destruct (HA _ _ _ HS) as (nw & x & old & off & m & El & HNw & Hx & Hm). exists m. intros F HF f.
        assert (R : Open_Props.Reads (under (doc F l) None) j (ODict param)).
        { split; [exact Hj|]. exists (map (fun x => get_pos (fst x)) nw), (get_pos (fst x)), (map (fun x => get_pos (fst x)) old), off, g, (ODict param). splits.
          - cbn [d_xrefs Open_Model.under document]. rewrite El, map_app. reflexivity.
          - apply Forall_map. exact HNw.
          - exact Hx.
          - cbn [d_parse Open_Model.under document]. rewrite Hm by exact HF. reflexivity.
          - reflexivity. }
        pose proof (reads_get _ caching f j _ dstate0 R eq_refl) as G.
        assert (GD : dictM md5 aes (doc F l) caching (S f) None enc dstate0 = (Ok param, if caching then mkDS [(j, ODict param)] [] else dstate0)).
        { rewrite Ee. unfold dictM, mbind. cbn [resolveM]. rewrite G. destruct f; reflexivity. }
        destruct caching.
        + exists dstate0. right. eexists. split; [exact GD|]. exists j. splits; [exact Ee|reflexivity|]. intros h (_ & _ & HF2). cbn [d_xrefs Open_Model.under document] in HF2.
          apply Forall_map in HF2. rewrite El in HF2. apply Forall_app in HF2 as [_ HF2]. inversion HF2 as [|? ? X]; subst. cbv beta in X. congruence.
        + eexists. left. split; [exact GD|reflexivity]. }
    destruct HE as (m & HE). exists (n + m)%nat. intros F HF. split.
    - intros h Hh. split; [intros; eexists; reflexivity|]. intros i Hi HEi. pose proof (HO i Hi HEi) as X. destruct (getobj i) as [o|] eqn:EG.
      + destruct X as (_ & g & stored & _ & HS & _). specialize (U i (stands_in _ _ _ _ _ _ HS) F ltac:(lia) Hi HEi ltac:(congruence) h Hh). rewrite EG in U. exact U.
      + split; [exact Hi|]. cbn [d_xrefs Open_Model.under document]. split; [destruct l; [contradiction|discriminate]|]. apply Forall_map. apply HN; apply X.
    - intros f. destruct (HE F ltac:(lia) f) as (s0 & [(E1 & E2)|(s & E1 & j & Ej & E2 & E3)]).
      + exists s0. split; [exact E1|]. intros h. split; [intros i o o' _ _|intros i _]; rewrite E2; [discriminate|reflexivity].
      + exists s. split; [exact E1|]. intros h. split.
        * intros i o o' _ HEi. rewrite E2. cbn [zget]. destruct (Z.eqb_spec j i) as [->|]; [contradiction|discriminate].
        * intros i HNi. rewrite E2. cbn [zget]. destruct (Z.eqb_spec j i) as [->|]; [|reflexivity]. exfalso. exact (E3 h HNi).
  Qed.
End opening.

(* ---------- the file ---------- *)
Section main.
  Context (zlib : list Z -> option (list Z)) (ccitt : list Z -> obj -> res (list Z)).
  Context (md5 sha256 : list Z -> list Z) (aes : list Z -> list Z -> list Z -> res (list Z)).
  Context (glyphs : list Z -> option (list Z)) (bases : list umap) (metrics : list Z -> option (dict * list (list Z * num)))
          (load_cmap : list Z -> option (bool * list (Z * trie))) (load_umap : list Z -> bool -> option umap).
  Notation interpret := (interpret zlib ccitt glyphs bases metrics load_cmap load_umap).
  Notation extract := (extract zlib ccitt md5 sha256 aes glyphs bases metrics load_cmap load_umap).
  Notation pages_of := (pages_of zlib ccitt md5 sha256 aes glyphs bases metrics load_cmap load_umap).
  Notation FileHasSealed := (FileHasSealed md5).
  Notation FileShowsSealed := (FileShowsSealed md5 zlib ccitt glyphs bases metrics load_cmap load_umap).
  (* the password gives a handler with these permissions that deciphers what is encrypted under the key *)
  Definition opens (clear : bool) (id key : list Z) (param : list (obj * obj)) (password : list Z) (P : Z) : Prop :=
    forall idrest get depth, (0 < depth)%nat -> exists h, open_with md5 sha256 aes get depth (OStr id :: idrest) param password = Ok h /\ h_p h = P /\ deciphers md5 aes clear key h.
  Lemma empties_scan D caching F password empties r h info s : Forall (fun x : dict => x = []) empties ->
    scan md5 sha256 aes D caching F password (empties ++ r) h info s = scan md5 sha256 aes D caching F password r h info s.
  Proof. induction 1 as [|x l -> _ IH]; [reflexivity|]. cbn [app scan]. exact IH. Qed.
  Lemma open_sealed e caching password enc getobj param id key P catalog info : (0 < bufsiz e)%nat -> (forall o, (forall i, o <> ORef i) -> resolve e o = o) ->
    DocSealed md5 (stored_data zlib ccitt) (file e) enc getobj param id key catalog info -> (forall clear, WithRC4 param clear -> opens clear id key param password P) ->
    getobj 0 = None /\ exists n1 l, forall f0, (n1 <= S f0)%nat -> open_sections true e (stored_data zlib ccitt) (S f0) = Ok l /\
      let D := document (set_fallback e true) (stored_data zlib ccitt) (S f0) l in
      exists hd s, scan md5 sha256 aes D caching (S f0) password (map snd l) None [] dstate0 = (Ok (mkOpened catalog info (Some hd)), s) /\ h_p hd = P /\
        sealed enc getobj (under md5 aes D (Some hd)) /\ Inv enc (under md5 aes D (Some hd)) s.
  Proof.
    intros Hb Hres (clear & revs & hits & d & empties & trailer & others & idrest & root & HRC & HL & HSe & Etr & Hemp & TE & TI & TR & HC & HI) HOp. specialize (HOp clear HRC). split; [exact (proj1 HSe)|].
    destruct (laid_lemma (stored_data zlib ccitt) e Hb Hres revs hits d HL) as (n & l & El & Hl & EO & HA & HN).
    destruct (sealed_doc md5 aes caching enc getobj (stored_data zlib ccitt) e clear key param revs hits l Hb Hl HSe HA HN) as (n1 & HD).
    destruct (info_sealed md5 aes caching enc getobj trailer info HI) as (n2 & HInfo). destruct (dict_sealed md5 aes caching enc getobj root catalog HC) as (n3 & HCat).
    exists (S (n + n1 + n2 + n3)), l. intros f0 HF. split; [apply EO; lia|]. destruct (HD (S f0) ltac:(lia)) as (HDs & HEnc). set (D := document (set_fallback e true) (stored_data zlib ccitt) (S f0) l) in *. cbv zeta.
    destruct (HEnc f0) as (s1 & E1 & I1). destruct (HOp idrest (view md5 aes D caching (S f0) None s1) (S f0) ltac:(lia)) as (hd & Eh & HP & Hdec).
    specialize (HDs hd Hdec). specialize (I1 hd).
    destruct (HInfo D (Some hd) f0 s1 HDs ltac:(lia) I1) as (s2 & E2 & I2). destruct (HCat D (Some hd) f0 s2 HDs ltac:(lia) I2) as (s3 & E3 & I3).
    exists hd, s3. splits; [|exact HP|exact HDs|exact I3].
    rewrite El, Etr, empties_scan by exact Hemp.
    assert (X : forall t, t = trailer -> scan md5 sha256 aes D caching (S f0) password (t :: others) None [] dstate0 = (Ok (mkOpened catalog info (Some hd)), s3)).
    { intros [|kv tr] Et; [rewrite <- Et in TE; discriminate|]. cbn [scan]. rewrite Et. unfold set_encryption. rewrite TE, TI.
      unfold mbind at 1. unfold mbind at 1. unfold listM. unfold mbind at 1. cbn [resolveM ret].
      unfold mbind at 1. rewrite E1. cbn [as_list]. rewrite Eh. cbn [bind]. unfold mbind at 1. rewrite E2. rewrite TR. unfold mbind. rewrite E3. reflexivity. }
    apply X. reflexivity.
  Qed.
  Lemma pages_of_sealed e caching check password pagenos maxpages lenient enc getobj param id key P t chosen : (0 < bufsiz e)%nat -> (forall o, (forall i, o <> ORef i) -> resolve e o = o) ->
    FileHasSealed (stored_data zlib ccitt) (file e) enc getobj param id key t -> (forall clear, WithRC4 param clear -> opens clear id key param password P) -> leaves [] t <> [] -> Chosen pagenos maxpages (leaves [] t) chosen ->
    exists n1, forall F, (n1 <= F)%nat -> exists h cp n2, (forall i, enc <> ORef i -> h i = getobj i) /\ Forall2 (PageOf h) chosen cp /\ forall f, (n2 <= f)%nat ->
      pages_of e caching check password pagenos maxpages lenient F f =
      interpret (bufsiz e) h f lenient (if check && negb (Z.testbit P 4) then gfail PDFTextExtractionNotAllowed else (cp, None)).
  Proof.
    intros Hb Hres (catalog & info & HDo & CP & CI & HW) HOp Hne HCh.
    destruct (open_sealed e caching password enc getobj param id key P catalog info Hb Hres HDo HOp) as (H0 & n & l & HO).
    exists (S n). intros F HF. destruct F as [|f0]; [lia|]. destruct (HO f0 ltac:(lia)) as (EO & hd & s3 & ES & HP & HDs & I3). set (D := document (set_fallback e true) (stored_data zlib ccitt) (S f0) l) in *.
    set (h := view md5 aes D caching (S f0) (Some hd) s3).
    assert (Hh : forall i, enc <> ORef i -> h i = getobj i) by (intros i Hi; apply (view_sealed md5 aes caching enc getobj D (Some hd) f0 s3 i HDs H0 I3 Hi)).
    destruct (HW h Hh) as (HT & HU).
    destruct (C28_pages_partial h catalog (map (fun x => section_ids (fst x)) l) t HT CP CI Hne) as (p & pages & EP & FP); [exact HU|].
    destruct (chosen_select _ _ _ _ HCh) as (EC & ECk).
    set (cp := fst (get_pages false true pagenos maxpages (pages, None))).
    assert (FC : Forall2 (PageOf h) chosen cp).
    { pose proof (forall2_select (PageOf h) pagenos maxpages _ _ 0 FP) as X. unfold cp. unfold get_pages in *. cbn [andb negb fst snd] in *.
      assert (G1 : forall A (l0 : list A), fst (let (l1, stop) := select_from pagenos maxpages 0 l0 in (l1, if stop then None else @None exn)) = fst (select_from pagenos maxpages 0 l0))
        by (intros A l0; destruct (select_from pagenos maxpages 0 l0); reflexivity).
      rewrite G1. apply (f_equal fst) in EC. rewrite G1 in EC. cbn [fst] in EC. rewrite <- EC. exact X. }
    exists h, cp, p. splits; [exact Hh|exact FC|]. intros f Hf. unfold Extract_Model.pages_of. rewrite EO. fold D. rewrite ES. cbn [op_handler op_catalog permission]. fold h.
    rewrite EP by lia. rewrite (proj2 (proj2 (C50_permissions hd))), HP. unfold get_pages, cp, get_pages. cbn [andb fst snd]. destruct (check && negb (Z.testbit P 4)); [reflexivity|].
    destruct (select_from pagenos maxpages 0 pages) as [a [|]]; reflexivity.
  Qed.
  Lemma text_of_sealed e caching check password pagenos maxpages lenient enc getobj param id key P texts : (0 < bufsiz e)%nat -> (forall o, (forall i, o <> ORef i) -> resolve e o = o) ->
    FileShowsSealed (stored_data zlib ccitt) (file e) enc getobj param id key pagenos maxpages lenient texts -> (forall clear, WithRC4 param clear -> opens clear id key param password P) ->
    Forall (Forall (Forall Markup_Spec.scalar)) texts ->
    exists n1, forall F, (n1 <= F)%nat -> exists n2, forall f, (n2 <= f)%nat ->
      if check && negb (Z.testbit P 4) then extract e caching check password pagenos maxpages lenient F f = ([], Some PDFTextExtractionNotAllowed)
      else exists bytes x, extract e caching check password pagenos maxpages lenient F f = (bytes, None) /\ utf8_decode bytes = Some x /\ DocText 0 texts x.
  Proof.
    intros Hb Hres (t & chosen & HF & HCh & Hne & HS) HOp HSc.
    assert (Hl : leaves [] t <> []) by (intros E; rewrite E in HCh; apply Hne; destruct HCh as [(_ & ->)|(_ & _ & ->)]; [reflexivity|apply firstn_nil]).
    destruct (pages_of_sealed e caching check password pagenos maxpages lenient enc getobj param id key P t chosen Hb Hres HF HOp Hl HCh) as (n1 & HP). exists n1. intros F HF1.
    destruct (HP F HF1) as (h & cp & p & Hh & FC & EX). clear HP. specialize (HS h Hh).
    destruct (pages_lemma zlib ccitt glyphs bases metrics load_cmap load_umap (bufsiz e) Hb h lenient chosen cp texts FC HS Hne) as (q & HQ).
    exists (p + q)%nat. intros f Hf. unfold Extract_Model.extract; rewrite EX by lia. destruct (check && negb (Z.testbit P 4)); [reflexivity|]. destruct (HQ f ltac:(lia)) as (ps & EI & EN & FR).
    destruct (text_lemma ps texts FR EN HSc) as (x & X1 & X2 & X3).
    exists (fst (text_file (ps, None))), x. splits; [|exact X3|exact X1].
    rewrite EI. destruct (text_file (ps, None)) as [b xx]. cbn [fst snd] in *. rewrite X2. reflexivity.
  Qed.
End main.

(* ---------- the handler ---------- *)
Section handler.
  Context (md5 sha256 : list Z -> list Z) (md5_len : forall d, length (md5 d) = 16%nat) (aes : list Z -> list Z -> list Z -> res (list Z)).
  Notation open_with := (open_with md5 sha256 aes).
  (* how a handler deciphers *)
  Definition by_rc4 (clear : bool) (h : handler) : Prop := (h_v h <> 4 /\ h_v h <> 5 /\ clear = false) \/ (h_v h = 4 /\ find_cfm (h_cfm h) (h_strf h) = Some M_rc4 /\ h_meta h = negb clear).
  Lemma by_rc4_deciphers clear h : by_rc4 clear h -> deciphers md5 aes clear (h_key h) h.
  Proof.
    intros HB i g o stored Hi Hg HS. change (2 ^ 32) with 4294967296 in *.
    assert (HU : uses_rc4 h) by (destruct HB as [(A & B & _)|(A & B & _)]; [left|right]; auto).
    assert (R : forall data, decrypt_rc4 md5 h i g (rc4 (object_key md5 (h_key h) i g []) data) = Ok data).
    { intros data. pose proof (proj1 (C48_rc4 md5 sha256 md5_len aes (fun _ => None) 1%nat ltac:(lia) h i g data None HU Hi Hg (or_intror (or_introl eq_refl)))) as X.
      unfold decrypt in X. rewrite andb_false_r in X. destruct HB as [(A & B & _)|(A & B & _)]; [replace ((h_v h =? 4) || (h_v h =? 5)) with false in X by lia; exact X|].
      rewrite A, B in X. exact X. }
    destruct HS as [attrs data Hc|attrs data Hc Hm|o stored HE].
    - cbn [doc_decipher]. replace (decrypt md5 aes h i g (rc4 (object_key md5 (h_key h) i g []) data) (Some attrs)) with (Ok data); [reflexivity|]. symmetry.
      unfold decrypt. destruct HB as [(A & B & _)|(A & B & C)].
      + replace ((h_v h =? 4) || (h_v h =? 5)) with false by lia. apply R.
      + rewrite A, B, C. cbn [Z.eqb Pos.eqb orb run_method]. rewrite R. destruct clear; cbn [negb andb]; [|reflexivity].
        destruct Hc as [Hc|Hc]; [discriminate|]. unfold Metadata in Hc. destruct (dget attrs "Type") as [[]|]; try reflexivity.
        destruct (list_eqb n (bs "Metadata")) eqn:En; [|reflexivity]. apply list_eqb_eq in En. subst. exfalso. apply Hc. reflexivity.
    - cbn [doc_decipher]. replace (decrypt md5 aes h i g data (Some attrs)) with (Ok data); [reflexivity|]. symmetry.
      unfold decrypt. destruct HB as [(A & B & C)|(A & B & C)]; [congruence|]. rewrite A, C, Hc. cbn [Z.eqb Pos.eqb orb negb andb]. rewrite Hm. cbn [ON]. rewrite list_eqb_refl. reflexivity.
    - apply (doc_decipher_ok md5 sha256 md5_len aes); assumption.
  Qed.
  Lemma cfms_entry V cf l name f n m : cfms V cf = Ok l -> Forall (crypt_filter V) cf -> NoDup (map fst cf) -> In (OName name, ODict f) cf -> dget f "CFM" = Some (OName n) -> method_of V n = Some m ->
    find_cfm l name = Some m.
  Proof.
    intros E HF HN HI Hc Hm. revert l E. induction HF as [|x cf (k & g & n' & -> & Hn & _) _ IH]; intros l E; [destruct HI|]. cbn [map fst] in HN. inversion HN as [|? ? HN1 HN2]; subst. cbn [cfms lit_name bind] in E.
    unfold need in E. rewrite Hn in E. cbn [bind lit_name] in E. destruct HI as [HI|HI].
    - injection HI as -> ->. rewrite Hn in Hc. injection Hc as ->. rewrite Hm in E.
      destruct (cfms V cf); [|discriminate]. injection E as <-. cbn [find_cfm]. rewrite list_eqb_refl. reflexivity.
    - destruct (method_of V n'); [|discriminate]. destruct (cfms V cf) as [rest|]; [|discriminate]. injection E as <-. cbn [find_cfm].
      destruct (list_eqb k name) eqn:En; [|apply (IH HN2 HI rest eq_refl)]. apply list_eqb_eq in En. subst k. exfalso. apply HN1. apply in_map_iff. eexists. split; [|exact HI]. reflexivity.
  Qed.
  Lemma by_rc4_open get depth docid param pw h V R P n meta O U clear : (0 < depth)%nat -> Supported param V R P n meta O U -> WithRC4 param clear ->
    open_with get depth docid param pw = Ok h -> h_v h = V -> by_rc4 clear h.
  Proof.
    intros Hd HS HW E HV. destruct HS as [V R P L O U n HC HV' HR|P L O U meta name HC HF].
    - assert (EV : dget param "V" = Some (OInt V)) by apply HC. destruct HW as [V' _ _|? ? ? ? X]; [left; splits; [lia|lia|reflexivity]|]. rewrite EV in X. injection X as X. lia.
    - assert (EV : dget param "V" = Some (OInt 4)) by apply HC. destruct HW as [V' HV2 X|cf nm f mt _ X1 X2 X3 X4 X5 X6 X7 X8]; [rewrite EV in X; injection X as X; lia|].
      destruct (v4_params_ok md5 sha256 md5_len aes get depth Hd docid _ _ _ _ _ _ _ _ _ (or_introl eq_refl) HC HF) as (l & HP4).
      assert (HP := HP4). destruct HF as (cf' & HCF & Hcf & HSm & HSr & _ & HM). rewrite X1 in HCF. injection HCF as <-. rewrite X4 in HSr. injection HSr as <-.
      assert (El : cfms 4 cf = Ok l).
      { unfold v4_params in HP. rewrite (base_params_ok md5 sha256 md5_len aes get depth Hd docid _ _ _ _ _ _ _ HC) in HP. cbn [bind] in HP. rewrite X1 in HP. unfold dict_value, resolved in HP. destruct depth as [|d]; [lia|]. cbn [resolve1 bind] in HP. unfold need in HP.
        rewrite X3, X4 in HP. cbn [bind lit_name h_v h_r h_p h_o h_u] in HP. rewrite list_eqb_refl in HP. cbn [negb] in HP. destruct (cfms 4 cf) as [l'|]; [|discriminate HP]. cbn [bind] in HP.
        destruct (find_cfm _ _); [|discriminate HP]. injection HP as _ <-. reflexivity. }
      right. unfold Sec_Model.open_with in E. assert (EFi : dget param "Filter" = Some (ON "Standard")) by apply HC. rewrite EFi, EV in E. cbn [ON] in E.
      assert (EI : iv get depth (OInt 4) = Ok 4) by (unfold iv, Stream_Model.int_value; destruct depth; [lia|reflexivity]). rewrite list_eqb_refl, EI in E. cbn [bind] in E. change ((4 =? 1) || (4 =? 2)) with false in E. change (4 =? 4) with true in E. cbv iota in E. rewrite HP4 in E. cbn [bind h_r] in E. change (4 =? 4) with true in E. cbv iota in E.
      unfold init_key in E. destruct (authenticate md5 _ pw) as [[k|]|]; try discriminate E. cbn [bind] in E. injection E as <-. cbn [with_key h_v h_cfm h_strf h_meta]. splits; [reflexivity| |].
      + assert (En : list_eqb (bs "Identity") nm = false) by (destruct (list_eqb (bs "Identity") nm) eqn:En; [apply list_eqb_eq in En; congruence|reflexivity]).
        change ((if list_eqb (bs "Identity") nm then Some M_identity else find_cfm l nm) = Some M_rc4). rewrite En.
        eapply (cfms_entry 4 cf l nm f (bs "V2")); try eassumption. reflexivity.
      + rewrite Bool.negb_involutive. destruct HM as [HM|[HM ->]], X8 as [X8|[X8 ->]]; congruence.
  Qed.
End handler.

(* ---------- C93 ---------- *)
Section c93.
  Context (zlib : list Z -> option (list Z)) (ccitt : list Z -> obj -> res (list Z)).
  Context (md5 sha256 : list Z -> list Z) (md5_len : forall d, length (md5 d) = 16%nat) (aes : list Z -> list Z -> list Z -> res (list Z)).
  Context (glyphs : list Z -> option (list Z)) (bases : list umap) (metrics : list Z -> option (dict * list (list Z * num)))
          (load_cmap : list Z -> option (bool * list (Z * trie))) (load_umap : list Z -> bool -> option umap).
  Notation extract := (extract zlib ccitt md5 sha256 aes glyphs bases metrics load_cmap load_umap).
  Notation pages_of := (pages_of zlib ccitt md5 sha256 aes glyphs bases metrics load_cmap load_umap).
  Notation FileHasSealed := (FileHasSealed md5 (stored_data zlib ccitt)).
  Notation FileShowsSealed := (FileShowsSealed md5 zlib ccitt glyphs bases metrics load_cmap load_umap (stored_data zlib ccitt)).
  Context (e : env) (caching : bool) (pagenos : list Z) (maxpages : Z) (lenient : bool).
  Context (Hb : (0 < bufsiz e)%nat) (Hres : forall o, (forall i, o <> ORef i) -> resolve e o = o).
  Context (enc : obj) (getobj : Z -> option obj) (param : list (obj * obj)) (id key : list Z).
  (* a file that is encrypted with the passwords owner and user, with permissions P *)
  Context (V R P : Z) (n : nat) (meta : bool) (O U owner user : list Z).
  Context (HSu : Supported param V R P n meta O U) (HPr : Protected md5 R n P id meta owner user O U key) (HPb : - 2 ^ 31 <= P < 2 ^ 31).
  Lemma opens_user : latin1_password user -> forall clear, WithRC4 param clear -> opens md5 sha256 aes clear id key param user P.
  Proof.
    intros HL clear HW idrest get depth Hd.
    destruct (C49_user_partial md5 sha256 md5_len aes get depth Hd param V R P n meta O U id (OStr id :: idrest) owner user key HSu HPr HPb eq_refl HL) as (h & Eh & Hk & HP & HV).
    exists h. splits; [exact Eh|exact HP|]. rewrite <- Hk. apply (by_rc4_deciphers md5 sha256 md5_len). eapply (by_rc4_open md5 sha256 md5_len aes); eassumption.
  Qed.
  Lemma opens_owner : latin1_password owner -> ~ U_matches md5 R id (document_key md5 R n O P id meta owner) U ->
    forall clear, WithRC4 param clear -> opens md5 sha256 aes clear id key param owner P.
  Proof.
    intros HL HN clear HW idrest get depth Hd.
    destruct (C49_owner_partial md5 sha256 md5_len aes get depth Hd param V R P n meta O U id (OStr id :: idrest) owner user key HSu HPr HPb eq_refl HL HN) as (h & Eh & Hk & HP & HV).
    exists h. splits; [exact Eh|exact HP|]. rewrite <- Hk. apply (by_rc4_deciphers md5 sha256 md5_len). eapply (by_rc4_open md5 sha256 md5_len aes); eassumption.
  Qed.
  (* C93. A document whose pages show certain texts, encrypted with RC4: with the user password, converting the file to text succeeds,
     and the output is, in UTF-8, the title of each page and its text - if extraction is allowed or not checked; *)
  Theorem C93_user_partial check texts : FileShowsSealed (file e) enc getobj param id key pagenos maxpages lenient texts -> latin1_password user ->
    check = false \/ Z.testbit P 4 = true -> Forall (Forall (Forall Markup_Spec.scalar)) texts ->
    exists n1, forall F, (n1 <= F)%nat -> exists n2, forall f, (n2 <= f)%nat -> exists bytes x,
      extract e caching check user pagenos maxpages lenient F f = (bytes, None) /\ utf8_decode bytes = Some x /\ DocText 0 texts x.
  Proof.
    intros HS HL HC HSc.
    destruct (text_of_sealed zlib ccitt md5 sha256 aes glyphs bases metrics load_cmap load_umap e caching check user pagenos maxpages lenient enc getobj param id key P texts Hb Hres HS (opens_user HL) HSc) as (n1 & H).
    exists n1. intros F HF. destruct (H F HF) as (n2 & H2). exists n2. intros f Hf. specialize (H2 f Hf).
    replace (check && negb (Z.testbit P 4)) with false in H2 by (destruct HC as [ -> | -> ]; [reflexivity|cbn; rewrite andb_false_r; reflexivity]). exact H2.
  Qed.
  (* and with the owner password, if it does not pass itself for the user password *)
  Theorem C93_owner_partial check texts : FileShowsSealed (file e) enc getobj param id key pagenos maxpages lenient texts -> latin1_password owner ->
    ~ U_matches md5 R id (document_key md5 R n O P id meta owner) U ->
    check = false \/ Z.testbit P 4 = true -> Forall (Forall (Forall Markup_Spec.scalar)) texts ->
    exists n1, forall F, (n1 <= F)%nat -> exists n2, forall f, (n2 <= f)%nat -> exists bytes x,
      extract e caching check owner pagenos maxpages lenient F f = (bytes, None) /\ utf8_decode bytes = Some x /\ DocText 0 texts x.
  Proof.
    intros HS HL HN HC HSc.
    destruct (text_of_sealed zlib ccitt md5 sha256 aes glyphs bases metrics load_cmap load_umap e caching check owner pagenos maxpages lenient enc getobj param id key P texts Hb Hres HS (opens_owner HL HN) HSc) as (n1 & H).
    exists n1. intros F HF. destruct (H F HF) as (n2 & H2). exists n2. intros f Hf. specialize (H2 f Hf).
    replace (check && negb (Z.testbit P 4)) with false in H2 by (destruct HC as [ -> | -> ]; [reflexivity|cbn; rewrite andb_false_r; reflexivity]). exact H2.
  Qed.
  (* If the permissions do not allow extraction and they are checked, nothing is written and PDFTextExtractionNotAllowed is raised, with
     the user password and with the owner password (to whom ISO 32000-1, 7.6.3.1, grants everything: see C93_owner_denied_refuted) *)
  Theorem C93_denied t chosen pw : FileHasSealed (file e) enc getobj param id key t -> leaves [] t <> [] -> Chosen pagenos maxpages (leaves [] t) chosen ->
    latin1_password pw -> pw = user \/ pw = owner /\ ~ U_matches md5 R id (document_key md5 R n O P id meta owner) U -> Z.testbit P 4 = false ->
    exists n1, forall F, (n1 <= F)%nat -> exists n2, forall f, (n2 <= f)%nat ->
      extract e caching true pw pagenos maxpages lenient F f = ([], Some PDFTextExtractionNotAllowed).
  Proof.
    intros HF Hl HCh HL HPw HP4.
    assert (HO : forall clear, WithRC4 param clear -> opens md5 sha256 aes clear id key param pw P).
    { destruct HPw as [E|[E HN]]; rewrite E in *; [apply opens_user; exact HL|apply opens_owner; assumption]. }
    destruct (pages_of_sealed zlib ccitt md5 sha256 aes glyphs bases metrics load_cmap load_umap e caching true pw pagenos maxpages lenient enc getobj param id key P t chosen Hb Hres HF HO Hl HCh) as (n1 & H).
    exists n1. intros F HF1. destruct (H F HF1) as (h & cp & p & _ & _ & EX). exists p. intros f Hf. unfold Extract_Model.extract; rewrite EX by exact Hf. rewrite HP4. reflexivity.
  Qed.
  (* With a password that is neither: nothing is written; the exception is NameError instead of PDFPasswordIncorrect *)
  Theorem C93_wrong_password_refuted check t pw : FileHasSealed (file e) enc getobj param id key t -> latin1_password pw ->
    ~ U_matches md5 R id (document_key md5 R n O P id meta pw) U ->
    ~ U_matches md5 R id (document_key md5 R n O P id meta (recovered md5 R n O pw)) U ->
    exists n1, forall F f, (n1 <= F)%nat -> extract e caching check pw pagenos maxpages lenient F f = ([], Some NameError).
  Proof.
    intros (catalog & info & (clear & revs & hits & d & empties & trailer & others & idrest & root & HRC & HLd & HSe & Etr & Hemp & TE & TI & TR & HC & HI) & CP & CI & HW) HL HN1 HN2.
    destruct (laid_lemma (stored_data zlib ccitt) e Hb Hres revs hits d HLd) as (n0 & l & El & Hl & EO & HA & HN).
    destruct (sealed_doc md5 aes caching enc getobj (stored_data zlib ccitt) e clear key param revs hits l Hb Hl HSe HA HN) as (n1 & HD).
    exists (S (n0 + n1)). intros F f HF. destruct F as [|f0]; [lia|]. destruct (HD (S f0) ltac:(lia)) as (_ & HEnc). unfold Extract_Model.extract, Extract_Model.pages_of. rewrite EO by lia.
    set (D := document (set_fallback e true) (stored_data zlib ccitt) (S f0) l) in *. destruct (HEnc f0) as (s1 & E1 & _).
    rewrite El, Etr, empties_scan by exact Hemp.
    assert (X : forall t, t = trailer -> scan md5 sha256 aes D caching (S f0) pw (t :: others) None [] dstate0 = (Err NameError, s1)).
    { intros [|kv tr] Et; [rewrite <- Et in TE; discriminate|]. cbn [scan]. rewrite Et. unfold set_encryption. rewrite TE, TI.
      unfold mbind at 1. unfold mbind at 1. unfold listM. unfold mbind at 1. cbn [resolveM ret].
      unfold mbind at 1. rewrite E1. cbn [as_list].
      rewrite (C49_wrong_refuted md5 sha256 md5_len aes _ (S f0) ltac:(lia) param V R P n meta O U id (OStr id :: idrest) pw HSu HPb eq_refl HL HN1 HN2). reflexivity. }
    rewrite (X trailer eq_refl). reflexivity.
  Qed.
  (* C77, for every layout of the file and with crypt filters: the catalog, the information dictionaries, the permissions, and, in every history
     of lookups, every object are the ones that were encrypted, and objects that are not there are not found *)
  Theorem C77_sealed_partial pw catalog info : DocSealed md5 (stored_data zlib ccitt) (file e) enc getobj param id key catalog info -> latin1_password pw ->
    pw = user \/ pw = owner /\ ~ U_matches md5 R id (document_key md5 R n O P id meta owner) U ->
    exists n1 l, forall f, (n1 <= S f)%nat -> open_sections true e (stored_data zlib ccitt) (S f) = Ok l /\
      let D := document (set_fallback e true) (stored_data zlib ccitt) (S f) l in
      exists h s, scan md5 sha256 aes D caching (S f) pw (map snd l) None [] dstate0 = (Ok (mkOpened catalog info (Some h)), s) /\ h_p h = P /\
        forall ids k i, nth_error ids k = Some i -> i <> 0 -> enc <> ORef i ->
          nth_error (lookups (under md5 aes D (Some h)) caching (S f) s ids) k = Some (match getobj i with Some o => Ok o | None => Err PDFObjectNotFound end).
  Proof.
    intros HD HL HPw.
    assert (HO : forall clear, WithRC4 param clear -> opens md5 sha256 aes clear id key param pw P).
    { destruct HPw as [E|[E HN]]; rewrite E in *; [apply opens_user; exact HL|apply opens_owner; assumption]. }
    destruct (open_sealed zlib ccitt md5 sha256 aes glyphs metrics load_cmap load_umap e caching pw enc getobj param id key P catalog info Hb Hres HD HO) as (H0 & n1 & l & HOp).
    exists n1, l. intros f Hf. destruct (HOp f Hf) as (EO & h & s & ES & HP & HS & HI). split; [exact EO|]. exists h, s. splits; [exact ES|exact HP|].
    set (D := under md5 aes (document (set_fallback e true) (stored_data zlib ccitt) (S f) l) (Some h)) in *. clear ES.
    intros ids. revert s HI. induction ids as [|j ids IH]; intros s [HI1 HI2] k i Hk Hi HE; [destruct k; discriminate|]. cbn [lookups].
    pose proof (keeps_get D (fun i => enc = ORef i) caching (proj1 HS) (S f) j s HI1) as K1. pose proof (mkeeps_get D caching (proj1 HS) (S f) j s HI2) as K2.
    destruct k as [|k].
    - injection Hk as ->. destruct (sealed_get caching enc getobj D f i s HS Hi HE (conj HI1 HI2)) as (s' & E1 & _). rewrite E1. reflexivity.
    - destruct (Doc_Model.getobj D caching (S f) j s) as [r s'] eqn:EG. cbn [nth_error snd] in *. apply (IH s' (conj K1 K2) k i Hk Hi HE).
  Qed.
End c93.
