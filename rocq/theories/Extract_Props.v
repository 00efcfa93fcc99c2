(* C87: the text file made from a PDF file holds the text the file shows. *)
From Coq Require Import String.
From Verif Require Import Base Lex_Model Lex_Spec Lines_Model Lines_Spec Markup_Spec Obj Stack_Model Stack_Spec Content_Model Content_Spec Stream_Model Stream_Spec Stream_Props XRef_Model XRef_Spec XRef_Proofs
  Doc_Model Doc_Spec Doc_Proofs Doc_Props Num Geom_Model Page_Model Page_Spec Page_Proofs Page_Props Interp_Model Interp_Spec CMap_Model CMap_Spec CMap_Proofs Font_Model Font_Spec Font_Props
  Sec_Model Open_Model Open_Spec Open_Props Fallback_Model Fallback_Spec Fallback_Proofs Fallback_Props Sections_Spec Sections_Props Convert_Model Convert_Spec TextFile_Props
  Names_Props Total_Spec Total_Props Instr_Spec Instr_Props Multi_Spec Multi_Props FontTotal_Spec FontTotal_Props Extract_Model Extract_Spec Extract_Proofs.
From Coq Require Import ZifyBool ZifyNat.
Open Scope Z_scope.
Import ListNotations.

(* ---------- the objects ---------- *)
Lemma uniform {A} (Q : A -> nat -> Prop) l : (forall x, In x l -> exists m, forall F, (m <= F)%nat -> Q x F) -> exists m, forall x, In x l -> forall F, (m <= F)%nat -> Q x F.
Proof.
  induction l as [|x l IH]; intros H; [exists O; intros ? []|]. destruct (H x (or_introl eq_refl)) as (m1 & H1).
  destruct IH as (m2 & H2); [intros y Hy; apply H; right; exact Hy|]. exists (m1 + m2)%nat. intros y [<-|Hy] F HF; [apply H1; lia|apply H2; [exact Hy|lia]].
Qed.
Definition outcome_of (getobj : Z -> option obj) (i : Z) : res obj := match getobj i with Some o => Ok o | None => Err PDFObjectNotFound end.
Lemma lasthit_in hits id en o : LastHit hits id en o -> In id (map (fun h : hit => fst (fst h)) hits).
Proof. intros (a & b & -> & _). rewrite map_app. apply in_or_app. right. left. reflexivity. Qed.
Definition covered (revs : list (list subsection * list (obj * obj))) : list Z :=
  flat_map (fun r => flat_map (fun s : subsection => map (fun k => fst s + Z.of_nat k) (seq 0 (length (snd s)))) (fst r)) revs.
Lemma entry_covered revs secs d id en : In (secs, d) revs -> EntryOf secs id en -> In id (covered revs).
Proof.
  intros HI HE. apply entry_covers in HE as (t & Ht & C). unfold covered. apply in_flat_map. exists (secs, d).
  split; [exact HI|]. cbn [fst]. apply in_flat_map. exists t. split; [exact Ht|]. unfold covers in C.
  apply in_map_iff. exists (Z.to_nat (id - fst t)). split; [lia|]. apply in_seq. lia.
Qed.
Lemma listed_covered revs id en : Listed revs id en -> In id (covered revs).
Proof. intros (nw & [secs d] & old & -> & _ & HE & _). eapply (entry_covered _ secs d); [apply in_or_app; right; left; reflexivity|exact HE]. Qed.
Lemma object_covered decode at_ revs hits id o : Object decode at_ revs hits id o -> In id (map (fun h : hit => fst (fst h)) hits ++ covered revs).
Proof.
  intros H. apply in_or_app. destruct H as [id o [id' off gen o' HL _|id' off gen o' _ HL]|id sid k attrs raw ms i o [HL|(_ & o' & HL)] _ _ _ _];
    [right|left|right|left]; (eapply listed_covered; exact HL) || (eapply lasthit_in; exact HL).
Qed.

Section store.
  Context (decode : list (obj * obj) -> list Z -> res (list Z)) (e : env) (getobj : Z -> option obj).
  Context (Hb : (0 < bufsiz e)%nat) (Hres : forall o, (forall i, o <> ORef i) -> resolve e o = o).
  Notation doc F l := (document (set_fallback e true) decode F l).
  Lemma same_doc F l D : open_sections true e decode F = Ok l -> open_document true e decode F = Ok D -> D = doc F l.
  Proof. unfold open_document. intros ->. cbn [bind]. intros E. injection E as <-. reflexivity. Qed.
  Lemma store trailers : HasObjects decode (file e) getobj trailers ->
    exists n l, map snd l = trailers /\ forall F, (n <= F)%nat -> open_sections true e decode F = Ok l /\
      forall i f, i <> 0 -> look (doc F l) (S (S f)) i = outcome_of getobj i.
  Proof.
    intros H. destruct H as [start revs hits d HS HR HD HC HO|hits d HN HC HO].
    - destruct (open_sections_lemma e decode start revs Hb Hres HS HR HD) as (_ & xr & FF & _ & EO). destruct (EO hits d HC) as (n & En).
      set (l := xr ++ [(STable (add_hits [] hits), d)]). set (e1 := set_fallback e true).
      assert (HX : ([(STable (add_hits [] hits), d)] = [] /\ hits = []) \/ exists x offs, [(STable (add_hits [] hits), d)] = [x] /\ fst x = STable offs /\ Tells (fst x) hits)
        by (right; eexists; eexists; splits; [reflexivity|reflexivity|apply tells_hits]).
      assert (HH : forall id off gen o, In (id, InUse off gen, o) hits -> exists m, forall fuel, (m <= fuel)%nat -> getobj_parse e1 fuel off id = Ok o)
        by (eapply (hits_parse e1); try eassumption; reflexivity).
      assert (HA : forall off id o, Scanned (file e) hits off id o -> exists m, forall fuel, (m <= fuel)%nat -> getobj_parse e1 fuel off id = Ok o)
        by (intros off i x [Ho|(gen & HI)]; [apply (object_at_parse e1); assumption|eapply HH; exact HI]).
      destruct (uniform (fun i F => i <> 0 -> getobj i <> None -> forall f, look (doc F l) (S (S f)) i = outcome_of getobj i) (map (fun h : hit => fst (fst h)) hits ++ covered revs)) as (m & U).
      { intros i _. destruct (Z.eq_dec i 0) as [E0|Hi]; [exists O; intros F _ X; contradiction|]. specialize (HO i Hi).
        destruct (getobj i) as [o|] eqn:EG; [|exists O; intros F _ _ X; contradiction].
        destruct (object_look e1 decode Hb revs xr hits _ FF HX (Scanned (file e) hits) HA HH i o Hi HO) as (m & K).
        exists m. intros F HF _ _ f. unfold outcome_of. rewrite EG. apply K. exact HF. }
      exists (n + m)%nat, l. split.
      { unfold l. rewrite map_app. f_equal. clear -FF. induction FF as [|x r xs rs [E _] _ IH]; [reflexivity|]. cbn [map]. rewrite E, IH. reflexivity. }
      intros F HF. split; [apply En; lia|]. intros i f Hi. pose proof (HO i Hi) as HOi. destruct (getobj i) as [o|] eqn:EG.
      + apply (U i); [|lia|exact Hi|congruence]. eapply object_covered. exact HOi.
      + unfold outcome_of. rewrite EG. destruct HOi as [HU HNo].
        apply (absent_look e1 decode revs xr hits _ FF HX i Hi); [destruct xr; discriminate|exact HU|exact HNo].
    - destruct (C80_scan e decode hits d Hb Hres HN HC) as (n & x & (T1 & T2) & EO).
      destruct (uniform (fun i F => i <> 0 -> getobj i <> None -> forall f, look (doc F [(x, d)]) (S (S f)) i = outcome_of getobj i) (map (fun h : hit => fst (fst h)) hits)) as (m & U).
      { intros i _. destruct (Z.eq_dec i 0) as [E0|Hi]; [exists O; intros F _ X; contradiction|]. specialize (HO i Hi).
        destruct (getobj i) as [o|] eqn:EG; [|exists O; intros F _ _ X; contradiction].
        destruct (C80_recovered_partial e decode hits d i o Hb Hres HN HC Hi HO) as (m & K). exists (n + m)%nat. intros F HF _ _ f.
        destruct (K F f false ltac:(lia)) as (D & E1 & E2). rewrite <- (same_doc F [(x, d)] D (EO F ltac:(lia)) E1). unfold outcome_of. rewrite EG. exact E2. }
      exists (n + m)%nat, [(x, d)]. split; [reflexivity|]. intros F HF. split; [apply EO; lia|]. intros i f Hi. pose proof (HO i Hi) as HOi.
      destruct (getobj i) as [o|] eqn:EG.
      + apply (U i); [|lia|exact Hi|congruence]. destruct HOi as [id off gen o HL|id sid k o0 off gen attrs raw ms j o HL _ _ _ _]; eapply lasthit_in; exact HL.
      + unfold outcome_of. rewrite EG. apply C23_absent; [exact Hi|discriminate|]. cbn. repeat constructor. apply T2. exact HOi.
  Qed.
End store.

(* ---------- opening ---------- *)
Section opening.
  Context (md5 sha256 : list Z -> list Z) (aes : list Z -> list Z -> list Z -> res (list Z)) (getobj : Z -> option obj) (caching : bool) (password : list Z).
  (* a document with these objects *)
  Definition holds (D : docdata) : Prop := d_decipher D = None /\ forall i f, i <> 0 -> look D (S (S f)) i = outcome_of getobj i.
  Lemma holds_get D f i s : holds D -> i <> 0 -> CInv D s -> exists s', Doc_Model.getobj D caching (S (S f)) i s = (outcome_of getobj i, s') /\ CInv D s'.
  Proof.
    intros [_ H] Hi Hs. pose proof (H i f Hi) as E. destruct (caching_sim D caching (S (S f)) i s Hs) as [A B].
    - unfold look in E. rewrite E. unfold outcome_of. destruct (getobj i); discriminate.
    - fold (look D (S (S f)) i) in A. rewrite E in A. destruct (Doc_Model.getobj D caching (S (S f)) i s) as [r' s']. cbn [fst snd] in *. subst r'. eauto.
  Qed.
  Lemma stands_holds o v : Stands (lookup getobj) o v -> exists n, forall D f m s, holds D -> (n <= f)%nat -> (n <= m)%nat -> CInv D s ->
    exists s', resolveM (Doc_Model.getobj D caching f) m o s = (Ok v, s') /\ CInv D s'.
  Proof.
    induction 1 as [o Ho|i o v (Hi & E) HS IH|i (Hi & E)].
    - exists 0%nat. intros D f m s _ _ _ Hs. exists s. split; [|exact Hs]. destruct o; destruct m; try reflexivity; exfalso; eapply Ho; reflexivity.
    - destruct IH as (n & IH). exists (S (S n)). intros D f m s HD Hf Hm Hs. destruct f as [|[|f]]; [lia|lia|]. destruct m as [|m]; [lia|].
      destruct (holds_get D f i s HD Hi Hs) as (s1 & E1 & H1). destruct (IH D (S (S f)) m s1 HD ltac:(lia) ltac:(lia) H1) as (s2 & E2 & H2). exists s2. split; [|exact H2].
      cbn [resolveM]. rewrite E1. unfold outcome_of. rewrite <- E. exact E2.
    - exists 2%nat. intros D f m s HD Hf Hm Hs. destruct f as [|[|f]]; [lia|lia|]. destruct m as [|m]; [lia|].
      destruct (holds_get D f i s HD Hi Hs) as (s1 & E1 & H1). exists s1. split; [|exact H1]. cbn [resolveM]. rewrite E1. unfold outcome_of. rewrite <- E. reflexivity.
  Qed.
  Lemma dict_holds o d : StandsDict (lookup getobj) o d -> exists n, forall D f s, holds D -> (n <= f)%nat -> CInv D s ->
    exists s', dictM md5 aes D caching f None o s = (Ok d, s') /\ CInv D s'.
  Proof.
    intros (v & HS & ->). destruct (stands_holds o v HS) as (n & H). exists n. intros D f s HD Hf Hs.
    destruct (H D f f s HD Hf Hf Hs) as (s' & E & H'). exists s'. split; [|exact H'].
    unfold dictM. rewrite under_none by (apply HD). unfold mbind. rewrite E. reflexivity.
  Qed.
  Lemma info_holds t info : InfoOf (lookup getobj) t info -> exists n, forall D f s acc, holds D -> (n <= f)%nat -> CInv D s ->
    exists s', (match dget t "Info" with
                | None => ret (Ok acc)
                | Some v => mbind (dictM md5 aes D caching f None v) (fun d => ret (Ok (acc ++ [d])))
                end) s = (Ok (acc ++ info), s') /\ CInv D s'.
  Proof.
    intros [HN|v d HN Hd]; rewrite HN.
    - exists 0%nat. intros D f s acc _ _ Hs. exists s. rewrite app_nil_r. split; [reflexivity|exact Hs].
    - destruct (dict_holds v d Hd) as (n & H). exists n. intros D f s acc HD Hf Hs. destruct (H D f s HD Hf Hs) as (s' & E & H').
      exists s'. split; [|exact H']. unfold mbind. rewrite E. reflexivity.
  Qed.
  Lemma scan_holds trailers cat info : Plain (lookup getobj) trailers cat info -> exists n, forall D f s acc, holds D -> (n <= f)%nat -> CInv D s ->
    exists s', scan md5 sha256 aes D caching f password trailers None acc s = (Ok (mkOpened cat (acc ++ info) None), s') /\ CInv D s'.
  Proof.
    induction 1 as [t r v cat info HE HR HC HI|t r cat info infos HE HR HI HP IH].
    - destruct (info_holds t info HI) as (n1 & H1). destruct (dict_holds v cat HC) as (n2 & H2). exists (n1 + n2)%nat.
      intros D f s acc HD Hf Hs. rewrite scan_unfold; [|destruct t; discriminate|exact HE]. unfold mbind at 1.
      destruct (H1 D f s acc HD ltac:(lia) Hs) as (s1 & E1 & C1). rewrite E1, HR. destruct (H2 D f s1 HD ltac:(lia) C1) as (s2 & E2 & C2).
      exists s2. split; [|exact C2]. unfold mbind. rewrite E2. reflexivity.
    - destruct IH as (n & IH). destruct t as [|kv t].
      + exists n. intros D f s acc HD Hf Hs. inversion HI as [|v d HX]; [|discriminate HX]. cbn [app Open_Model.scan]. apply IH; assumption.
      + destruct (info_holds (kv :: t) info HI) as (n1 & H1). exists (n + n1)%nat. intros D f s acc HD Hf Hs. rewrite scan_unfold; [|discriminate|exact HE]. unfold mbind at 1.
        destruct (H1 D f s acc HD ltac:(lia) Hs) as (s1 & E1 & C1). rewrite E1, HR, app_assoc. apply IH; [exact HD|lia|exact C1].
  Qed.
  Lemma view_holds D f s i : holds D -> getobj 0 = None -> CInv D s -> view md5 aes D caching (S (S f)) None s i = getobj i.
  Proof.
    intros HD H0 Hs. unfold view. rewrite under_none by (apply HD). destruct (Z.eq_dec i 0) as [->|Hi].
    - rewrite H0. reflexivity.
    - destruct (holds_get D f i s HD Hi Hs) as (s' & E & _). rewrite E. cbn [fst]. unfold outcome_of. destruct (getobj i); reflexivity.
  Qed.
End opening.

(* ---------- the pages ---------- *)
Section pages.
  Context (zlib : list Z -> option (list Z)) (ccitt : list Z -> obj -> res (list Z)).
  Context (glyphs : list Z -> option (list Z)) (bases : list umap) (metrics : list Z -> option (dict * list (list Z * num)))
          (load_cmap : list Z -> option (bool * list (Z * trie))) (load_umap : list Z -> bool -> option umap).
  Context (n : nat) (Hn : (0 < n)%nat) (h : Z -> option obj).
  Notation stream_data := (stream_data zlib ccitt).
  Notation Data := (Data zlib ccitt).
  Notation doc_font := (doc_font zlib ccitt glyphs bases metrics load_cmap load_umap n h).
  Notation content := (content zlib ccitt n h).
  Notation FontAt := (FontAt h glyphs bases metrics load_cmap load_umap Data).
  Lemma data_lemma o t d : Data o t -> (0 < d)%nat -> stream_data h d o = Ok t.
  Proof.
    intros (attrs & raw & chain & -> & HD & HE) Hd. unfold Extract_Model.stream_data, get_data, Stream_Model.decode. cbn [s_data s_raw s_attrs s_decipher bind].
    rewrite (C08_filters_partial h attrs chain HD). cbn [bind]. rewrite (encoded_lemma zlib ccitt h d chain t raw Hd HE). reflexivity.
  Qed.
  Lemma font_lemma o g : FontAt o g -> exists f, (exists m, forall d, (m <= d)%nat -> doc_font d o = Ok f) /\ reads_as g f.
  Proof.
    intros H. destruct (C86_resource h glyphs bases metrics load_cmap load_umap (stream_data h) n Data Hn) with (o := o) (g := g) as (f & m & E & R1 & R2).
    - intros a r t HD. exists 1%nat. intros d Hd. apply data_lemma; [exact HD|lia].
    - exact H.
    - exists (as_font f). split; [|split; assumption]. exists m. intros d Hd. unfold Extract_Model.doc_font. rewrite E by assumption. reflexivity.
  Qed.
  Lemma streams_lemma streams texts : Forall2 (fun o t => exists s, Leads h ONull o s /\ Data s t) streams texts ->
    exists m, forall d, (m <= d)%nat -> all_data zlib ccitt h d streams = Ok texts.
  Proof.
    induction 1 as [|o t streams texts (s & L & HD) _ (m & IH)]; [exists O; reflexivity|].
    destruct (leads_resolved _ _ _ L) as (m1 & E1). exists (S (m + m1)). intros d Hd. cbn [all_data]. unfold validated_stream. rewrite E1 by lia. cbn [bind].
    destruct HD as (attrs & raw & chain & -> & HD & HE). rewrite (data_lemma (OStream attrs raw) t d); [|exists attrs, raw, chain; auto|lia]. cbn [bind]. rewrite IH by lia. reflexivity.
  Qed.
  Lemma copen_ok ds : ds <> [] -> exists c, copen ds = Ok c.
  Proof. destruct ds as [|a r]; [contradiction|]. intros _. unfold copen, cseek. cbn. eexists. reflexivity. Qed.
  Lemma tokens_lemma streams os : Tokens zlib ccitt h streams os -> exists m, forall d, (m <= d)%nat -> content d streams = (os, None).
  Proof.
    intros H. assert (K : exists texts m, texts <> [] /\ (forall d, (m <= d)%nat -> all_data zlib ccitt h d streams = Ok texts) /\
      (forall d, (m <= d)%nat -> exists l, content_objects n d texts = (l, PSEOF) /\ map snd l = os)).
    { destruct H as (texts & Hne & HS & HP). destruct (streams_lemma _ _ HS) as (m1 & E1).
      destruct (C85_page_partial n texts os Hn) as (m2 & E2); [inversion HS; subst; congruence|exact HP|].
      exists texts, (m1 + m2)%nat. splits; [inversion HS; subst; congruence|intros d Hd; apply E1; lia|intros d Hd; apply E2; lia]. }
    destruct K as (texts & m & Hne & E1 & E2). exists m. intros d Hd. unfold Extract_Model.content. rewrite E1 by exact Hd.
    destruct (copen_ok texts Hne) as (c & Ec). rewrite Ec. destruct (E2 d Hd) as (l & El & <-). rewrite El. reflexivity.
  Qed.
  (* a page that shows ts: it is interpreted without an exception, and its items read ts *)
  Lemma page_lemma lenient lp p ts : PageOf h lp p -> PageShows zlib ccitt glyphs bases metrics load_cmap load_umap h lenient (snd lp) ts ->
    exists m, forall d i, (m <= d)%nat -> exists w hh items, 
      interpret_page zlib ccitt glyphs bases metrics load_cmap load_umap n h d lenient (i, p) = Ok (Convert_Model.mkPage i w hh (items, None)) /\ Reads items ts.
  Proof.
    intros (_ & _ & VR & (o & EM & LM) & _ & _ & (c & VC & EC)) (k & mb & r & c' & VM & NM & VR' & VC' & D).
    assert (one : forall path kk dflt v v', Page_Spec.Value h path kk dflt v -> Page_Spec.Value h path kk dflt v' -> v = v').
    { intros path kk dflt v v'. unfold Page_Spec.Value. destruct (attr path kk); [apply leads_one|congruence]. }
    pose proof (one _ _ _ _ _ VR VR') as ER. rewrite (one _ _ _ _ _ VC VC') in EC. clear one VR VC.
    assert (EB : pg_mediabox p = OArr mb) by (unfold Page_Spec.Value in VM; rewrite EM in VM; eapply leads_one; eassumption).
    assert (D' : Total_Spec.Draws h (fun o f => exists m, forall d, (m <= d)%nat -> doc_font d o = Ok f) (fun st os => exists m, forall d, (m <= d)%nat -> content d st = (os, None))
                   k lenient r (pg_contents p) ts).
    { rewrite EC. refine (draws_as h h _ _ _ _ (fun _ => eq_refl) _ _ k lenient r _ ts D); [exact font_lemma|exact tokens_lemma]. }
    destruct (C84_page_text h doc_font content _ _ (fun _ _ H => H) (fun _ _ H => H) k lenient r (pg_contents p) ts D') as (m & Hm). exists m. intros d i Hd.
    destruct NM as [NL NK]. destruct mb as [|a [|b [|c0 [|d0 [|? ?]]]]]; try discriminate NL.
    assert (NN : exists x0 y0 x1 y1, nums [a; b; c0; d0] = Some [x0; y0; x1; y1]).
    { destruct (numbers_nums 4 [a; b; c0; d0] (conj NL NK)) as (l & El & Ll). destruct l as [|x0 [|y0 [|x1 [|y1 [|? ?]]]]]; try discriminate Ll. eauto. }
    destruct NN as (x0 & y0 & x1 & y1 & EN).
    destruct (Hm d d Hd Hd (page_ctm (pg_rotate p) x0 y0 x1 y1)) as (s0 & items & s' & E1 & E2 & RD).
    do 2 eexists. exists items. split; [|exact RD]. unfold interpret_page, media_box. rewrite EB. cbn [bind]. rewrite EN. cbn [bind].
    rewrite ER, E1. cbn [bind]. unfold page_size. rewrite E2. reflexivity.
  Qed.
  Lemma pages_lemma lenient chosen pages texts : Forall2 (PageOf h) chosen pages ->
    Forall2 (fun lp ts => PageShows zlib ccitt glyphs bases metrics load_cmap load_umap h lenient (snd lp) ts) chosen texts -> chosen <> [] ->
    exists m, forall d, (m <= d)%nat -> exists ps, interpret zlib ccitt glyphs bases metrics load_cmap load_umap n h d lenient (pages, None) = (ps, None) /\
      map pg_num ps = map Z.of_nat (seq 0 (length texts)) /\ Forall2 (fun p ts => exists items, pg_items p = (items, None) /\ Reads items ts) ps texts.
  Proof.
    intros HP HS Hne.
    assert (G : exists m, forall d, (m <= d)%nat -> forall i, exists ps, gmap_list (interpret_page zlib ccitt glyphs bases metrics load_cmap load_umap n h d lenient) (number (Z.of_nat i) pages) = (ps, None) /\
      map pg_num ps = map Z.of_nat (seq i (length texts)) /\ Forall2 (fun p ts => exists items, pg_items p = (items, None) /\ Reads items ts) ps texts).
    { clear Hne. revert texts HS. induction HP as [|lp p chosen pages Hp _ IH]; intros texts HS; inversion HS as [|? ts ? texts' Hs HS']; subst.
      - exists O. intros d _ i. exists []. splits; [reflexivity|reflexivity|constructor].
      - destruct (IH _ HS') as (m1 & H1). destruct (page_lemma _ _ _ _ Hp Hs) as (m2 & H2). exists (m1 + m2)%nat. intros d Hd i.
        destruct (H1 d ltac:(lia) (S i)) as (ps & E1 & E2 & E3). destruct (H2 d (Z.of_nat i) ltac:(lia)) as (w & hh & items & E4 & R).
        exists (Convert_Model.mkPage (Z.of_nat i) w hh (items, None) :: ps). cbn [number gmap_list]. rewrite E4.
        replace (Z.of_nat i + 1) with (Z.of_nat (S i)) by lia. rewrite E1. splits; [reflexivity|cbn [map length seq pg_num]; rewrite E2; reflexivity|].
        constructor; [exists items; split; [reflexivity|exact R]|exact E3]. }
    destruct G as (m & G). exists m. intros d Hd. destruct (G d Hd 0%nat) as (ps & E1 & E2 & E3). exists ps. split; [|split; assumption].
    unfold interpret, gmap. cbn [fst snd]. change (Z.of_nat 0) with 0 in E1. rewrite E1. unfold gapp. cbn [fst snd]. rewrite app_nil_r.
    destruct ps as [|p ps]; [|reflexivity]. inversion E3; subst. inversion HS; subst. contradiction.
  Qed.
End pages.

(* ---------- the text file ---------- *)
Lemma text_lemma ps texts : Forall2 (fun p ts => exists items, pg_items p = (items, None) /\ Reads items ts) ps texts ->
  map pg_num ps = map Z.of_nat (seq 0 (length texts)) -> Forall (Forall (Forall Markup_Spec.scalar)) texts ->
  exists x, DocText 0 texts x /\ snd (text_file (ps, None)) = None /\ utf8_decode (fst (text_file (ps, None))) = Some x.
Proof.
  intros H HN HS.
  destruct (C72_text_file (ps, None)) as (text & T1 & T2 & T3).
  - cbn [fst]. apply Forall_forall. intros p Hp. apply (in_map pg_num) in Hp. rewrite HN in Hp. apply in_map_iff in Hp as (k & <- & _). lia.
  - intros p cs Hp Hr. cbn [fst] in Hp. clear HN. induction H as [|p' ts ps texts (items & E & R) _ IH]; [destruct Hp|]. inversion HS; subst.
    destruct Hp as [->|Hp]; [|apply IH; assumption]. rewrite E in Hr. cbn [fst] in Hr. rewrite (reads_unique _ _ Hr _ R). assumption.
  - exists text. rewrite T2. splits; [| |reflexivity].
    + change 0 with (Z.of_nat 0). clear T2 T3 HS. revert HN text T1. generalize 0%nat. induction H as [|p ts ps texts (items & E & R) _ IH]; intros i HN text T1.
      * inversion T1; subst. constructor.
      * cbn [map length seq] in HN. injection HN as N1 N2. inversion T1; subst; cbn [pg_items pg_num] in *; [|discriminate E]. injection E as ->.
        match goal with Hc : Reads items ?cs |- context [concat ?cs] => rewrite (reads_unique _ _ Hc _ R) end. subst. constructor; [assumption|]. replace (Z.of_nat i + 1) with (Z.of_nat (S i)) by lia. apply IH; assumption.
    + clear -H T3. revert T3. generalize (snd (text_file (ps, None))). induction H as [|p ts ps texts (items & E & R) _ IH]; intros o T3; inversion T3; subst.
      * reflexivity.
      * apply IH. assumption.
      * discriminate E.
Qed.

Lemma forall2_select {A B} (R : A -> B -> Prop) pagenos m : forall l l' i, Forall2 R l l' ->
  Forall2 R (fst (select_from pagenos m i l)) (fst (select_from pagenos m i l')).
Proof.
  intros l l' i H. revert i. induction H as [|x y l l' Hx _ IH]; intros i; [constructor|]. cbn [select_from].
  destruct (match pagenos with [] => false | _ => negb (existsb (Z.eqb i) pagenos) end); [apply IH|].
  destruct (negb (m =? 0) && (m <=? i + 1)); [repeat constructor; exact Hx|]. specialize (IH (i + 1)).
  destruct (select_from pagenos m (i + 1) l), (select_from pagenos m (i + 1) l'). constructor; [exact Hx|exact IH].
Qed.
Lemma chosen_select {A} pagenos maxpages (l l' : list A) : Chosen pagenos maxpages l l' ->
  get_pages false true pagenos maxpages (l, None) = (l', None) /\ forall c x, get_pages c true pagenos maxpages (l, x) = get_pages false true pagenos maxpages (l, x).
Proof.
  intros [(-> & ->)|(-> & Hm & ->)].
  - split; [apply C29_selection|]. intros [|] x; reflexivity.
  - split; [rewrite C29_maximum by exact Hm; destruct (_ <=? _); reflexivity|]. intros [|] x; reflexivity.
Qed.

Section main.
  Context (zlib : list Z -> option (list Z)) (ccitt : list Z -> obj -> res (list Z)).
  Context (md5 sha256 : list Z -> list Z) (aes : list Z -> list Z -> list Z -> res (list Z)).
  Context (glyphs : list Z -> option (list Z)) (bases : list umap) (metrics : list Z -> option (dict * list (list Z * num)))
          (load_cmap : list Z -> option (bool * list (Z * trie))) (load_umap : list Z -> bool -> option umap).
  Notation interpret := (interpret zlib ccitt glyphs bases metrics load_cmap load_umap).
  Notation extract := (extract zlib ccitt md5 sha256 aes glyphs bases metrics load_cmap load_umap).
  Notation pages_of := (pages_of zlib ccitt md5 sha256 aes glyphs bases metrics load_cmap load_umap).
  (* up to the pages *)
  Lemma pages_of_file e caching check password pagenos maxpages lenient getobj t chosen : (0 < bufsiz e)%nat -> (forall o, (forall i, o <> ORef i) -> resolve e o = o) ->
    FileHas getobj (stored_data zlib ccitt) (file e) t -> leaves [] t <> [] -> Chosen pagenos maxpages (leaves [] t) chosen ->
    exists n1, forall F, (n1 <= F)%nat -> exists h cp n2, (forall i, getobj i = h i) /\ Forall2 (PageOf h) chosen cp /\ forall f, (n2 <= f)%nat ->
      pages_of e caching check password pagenos maxpages lenient F f = interpret (bufsiz e) h f lenient (cp, None).
  Proof.
    intros Hb Hres (trailers & catalog & info & H0 & HO & HP & HC & HI & HT & HU) Hne HCh.
    destruct (store (stored_data zlib ccitt) e getobj Hb Hres trailers HO) as (n & l & El & St).
    destruct (scan_holds md5 sha256 aes getobj caching password trailers catalog info HP) as (m & Sc). exists (S (S (n + m))). intros F HF.
    destruct (St F ltac:(lia)) as (EO & Look). set (D := document (set_fallback e true) (stored_data zlib ccitt) F l) in *.
    assert (HD : holds getobj D) by (split; [reflexivity|exact Look]).
    destruct (Sc D F dstate0 [] HD ltac:(lia) (CInv0 D)) as (s & ES & CS).
    set (h := view md5 aes D caching F None s).
    assert (Hh : forall i, getobj i = h i).
    { intros i. unfold h. destruct F as [|[|F']]; [lia|lia|]. symmetry. apply (view_holds md5 aes getobj caching D F' s i HD H0 CS). }
    destruct (C28_pages_partial h catalog (map (fun x => section_ids (fst x)) l) t) as (p & pages & EP & FP).
    { eapply stored_same; eassumption. }
    { exact HC. }
    { exact HI. }
    { exact Hne. }
    { eapply Forall_impl; [|exact HU]. intros lp [U1 U2]. split; [exact U1|]. eapply usable_same; eassumption. }
    destruct (chosen_select _ _ _ _ HCh) as (EC & ECk).
    set (cp := fst (get_pages false true pagenos maxpages (pages, None))).
    assert (FC : Forall2 (PageOf h) chosen cp).
    { pose proof (forall2_select (PageOf h) pagenos maxpages _ _ 0 FP) as X. unfold cp. unfold get_pages in *. cbn [andb negb fst snd] in *.
      assert (E1 : forall A (l0 : list A), fst (let (l1, stop) := select_from pagenos maxpages 0 l0 in (l1, if stop then None else @None exn)) = fst (select_from pagenos maxpages 0 l0))
        by (intros A l0; destruct (select_from pagenos maxpages 0 l0); reflexivity).
      rewrite E1. apply (f_equal fst) in EC. rewrite E1 in EC. cbn [fst] in EC. rewrite <- EC. exact X. }
    assert (EG : forall c, get_pages c true pagenos maxpages (pages, None) = (cp, None)).
    { intros c. unfold cp, get_pages. rewrite andb_false_r. cbn [fst snd]. destruct (select_from pagenos maxpages 0 pages) as [a [|]]; reflexivity. }
    exists h, cp, p. splits; [exact Hh|exact FC|]. intros f Hf. unfold Extract_Model.pages_of. rewrite EO. fold D. rewrite El, ES. cbn [app op_handler op_catalog permission]. fold h.
    rewrite EP by lia. rewrite EG. reflexivity.
  Qed.
  (* C87. A file, not encrypted, that is a document whose pages show certain texts: with or without caching, with or without the check
     for permission, whatever the password given, converting it to text succeeds, and the output is, in UTF-8, the title of each
     page and its text. *)
  Theorem C87_text_file_partial e caching check password pagenos maxpages lenient getobj texts : (0 < bufsiz e)%nat -> (forall o, (forall i, o <> ORef i) -> resolve e o = o) ->
    FileShows zlib ccitt glyphs bases metrics load_cmap load_umap getobj (stored_data zlib ccitt) (file e) pagenos maxpages lenient texts ->
    Forall (Forall (Forall Markup_Spec.scalar)) texts ->
    exists n1, forall F, (n1 <= F)%nat -> exists n2, forall f, (n2 <= f)%nat -> exists bytes x,
      extract e caching check password pagenos maxpages lenient F f = (bytes, None) /\
      utf8_decode bytes = Some x /\ DocText 0 texts x.
  Proof.
    intros Hb Hres (t & chosen & HF & HCh & Hne & HS) HSc.
    assert (Hl : leaves [] t <> []) by (intros E; rewrite E in HCh; apply Hne; destruct HCh as [(_ & ->)|(_ & _ & ->)]; [reflexivity|apply firstn_nil]).
    destruct (pages_of_file e caching check password pagenos maxpages lenient getobj t chosen Hb Hres HF Hl HCh) as (n1 & HP). exists n1. intros F HF1.
    destruct (HP F HF1) as (h & cp & p & Hh & FC & EX). clear HP.
    assert (HS' : Forall2 (fun lp ts => PageShows zlib ccitt glyphs bases metrics load_cmap load_umap h lenient (snd lp) ts) chosen texts).
    { clear -HS Hh. induction HS as [|lp ts ls tss Hs _ IH]; constructor; [|exact IH]. destruct Hs as (k & mb & r & c & V1 & N & V2 & V3 & DR).
      exists k, mb, r, c. splits; try (eapply pvalue_same; eassumption); [exact N|].
      refine (draws_as getobj h _ _ _ _ Hh _ _ k lenient r _ ts DR).
      - intros o f HF. exists f. split; [eapply fontat_same; eassumption|]. split; [auto|reflexivity].
      - intros st os (tx & Hn2 & F2 & HPt). exists tx. splits; [exact Hn2| |exact HPt]. clear -F2 Hh. induction F2 as [|o t st tx (sx & L & HDt) _ IH]; constructor; [|exact IH].
        exists sx. split; [eapply leads_same; eassumption|exact HDt]. }
    destruct (pages_lemma zlib ccitt glyphs bases metrics load_cmap load_umap (bufsiz e) Hb h lenient chosen cp texts FC HS' Hne) as (q & HQ).
    exists (p + q)%nat. intros f Hf. destruct (HQ f ltac:(lia)) as (ps & EI & EN & FR).
    destruct (text_lemma ps texts FR EN HSc) as (x & X1 & X2 & X3).
    exists (fst (text_file (ps, None))), x. splits; [|exact X3|exact X1].
    unfold Extract_Model.extract. rewrite EX by lia. rewrite EI. destruct (text_file (ps, None)) as [b xx]. cbn [fst snd] in *. rewrite X2. reflexivity.
  Qed.
  (* A selection of pages that the document does not have: nothing is written, and EmptyDocumentError is raised *)
  Theorem C87_none_chosen e caching check password pagenos maxpages lenient getobj t : (0 < bufsiz e)%nat -> (forall o, (forall i, o <> ORef i) -> resolve e o = o) ->
    FileHas getobj (stored_data zlib ccitt) (file e) t -> leaves [] t <> [] -> Chosen pagenos maxpages (leaves [] t) [] ->
    exists n1, forall F, (n1 <= F)%nat -> exists n2, forall f, (n2 <= f)%nat ->
      extract e caching check password pagenos maxpages lenient F f = ([], Some EmptyDocumentError).
  Proof.
    intros Hb Hres HF Hl HCh. destruct (pages_of_file e caching check password pagenos maxpages lenient getobj t [] Hb Hres HF Hl HCh) as (n1 & HP).
    exists n1. intros F HF1. destruct (HP F HF1) as (h & cp & p & _ & FC & EX). exists p. intros f Hf. unfold Extract_Model.extract. rewrite EX by exact Hf. inversion FC. reflexivity.
  Qed.
End main.
