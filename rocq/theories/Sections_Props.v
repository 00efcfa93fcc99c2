(* C88: files with cross-reference streams, hybrid files, and objects in object streams. *)
From Coq Require Import String.
From Verif Require Import Base Lex_Model Lex_Chunk Lex_Spec Lex_Proofs Lines_Model Lines_Spec Lines_Proofs Obj Stack_Model Stack_Spec Stack_Proofs
  Stack_Props StreamObj_Proofs XRef_Model XRef_Spec XRef_Proofs Doc_Model Doc_Spec Doc_Proofs Doc_Props Fallback_Model Fallback_Spec Fallback_Proofs Fallback_Props Sections_Spec.
From Coq Require Import ZifyBool ZifyNat.
Open Scope Z_scope.
Import ListNotations.

(* ---------- one section ---------- *)
Lemma header_at e before text rest i g q1 q2 q3 ts x :
  (0 < bufsiz e)%nat -> file e = before ++ text ++ rest -> (forall r, rest <> 62 :: r) ->
  LayoutP x (Z.of_nat (length before)) (header i g q1 q2 q3 ++ ts) text rest ->
  exists p, nexttoken (seek e (Z.of_nat (length before))) = (Ok (q1, TInt i), p).
Proof.
  intros Hb Hf Hr HL. destruct (seek_at e before (text ++ rest) _ Hb Hf eq_refl) as [N T].
  destruct (layoutP_lemma _ _ _ _ _ HL Hr lex0 eq_refl) as [(ts' & l' & E1 & E2 & E3) _]. rewrite E3 in T.
  inversion E1 as [|[a1 b1] ? ? h1 [H1 H1'] F1']; subst. cbn [snd fst] in *. subst b1. destruct H1' as [->|H1']; [|discriminate].
  unfold pre in T. cbn [app] in T. destruct (nexttoken_tokens _ _ _ _ N T) as (p1 & A1 & T1 & N1). exists p1. exact A1.
Qed.

Lemma xstream_at e getdata start secs d : (0 < bufsiz e)%nat -> fallback e = false -> (forall o, (forall i, o <> ORef i) -> resolve e o = o) ->
  XStreamAt getdata (file e) start secs d ->
  exists n w1 w2 w3, Forall (fun w => In w [0; 1; 2; 3; 4; 8]%nat) [w1; w2; w3] /\ Forall (fun s => Forall (entry_ok w1 w2 w3) (snd s)) secs /\
    forall f, (n <= f)%nat -> load_section e getdata f start = Ok (SStream (xs_of w1 w2 w3 secs), d).
Proof.
  intros Hb Hfb Hres (id & data & w1 & w2 & w3 & HS & HA & HW & HE & HD).
  destruct HS as (before & text & nl & g & g2 & rest & gen & ts & q1 & q2 & q3 & v & Hf & -> & HL & HWr & Hnl & Hv & Hlen & Hg & Hg2 & Hg2n & Hrest & HU).
  set (T := g ++ bs "endstream" ++ g2 ++ bs "endobj" ++ rest) in *.
  assert (HC : exists p, nexttoken (seek e (Z.of_nat (length before))) = (Ok (q1, TInt id), p)).
  { eapply (header_at e before text (bs "stream" ++ nl ++ data ++ T) id gen q1 q2 q3 ts false); [exact Hb|exact Hf|discriminate|exact HL]. }
  destruct HC as (p0 & HC).
  (* the text from the first token on *)
  inversion HL as [|? g0 ? sp k ts0 text0 ? Hg0 Hsp Hfo HL0 E1 E2 E3 E4]; subst.
  assert (Hf' : file e = (before ++ g0) ++ (sp ++ text0) ++ bs "stream" ++ nl ++ data ++ T) by (rewrite Hf, <- !app_assoc; reflexivity).
  assert (HL' : LayoutP false (Z.of_nat (length (before ++ g0))) (header id gen (Z.of_nat (length before) + Z.of_nat (length g0)) q2 q3 ++ ts) (sp ++ text0) (bs "stream" ++ nl ++ data ++ T)).
  { rewrite app_length, Nat2Z.inj_add. pose proof (LP_tok false (Z.of_nat (length before) + Z.of_nat (length g0)) [] (TInt id) sp k ((q2, TInt gen) :: (q3, KW "obj") :: ts) text0 (bs "stream" ++ nl ++ data ++ T) Sep_nil Hsp Hfo) as X.
    cbn [length app] in X. rewrite Z.add_0_r in X. apply X. exact HL0. }
  destruct (header_tokens e (before ++ g0) (sp ++ text0) (bs "stream" ++ nl ++ data ++ T) id gen _ q2 q3 ts false Hb Hf' ltac:(discriminate) HL')
    as (p1 & p2 & p3 & t1 & t2 & t3 & ts' & l' & A1 & A2 & A3 & N & F & Hl & Tk).
  destruct (spell_lemma _ _ _ stream_spell false l' (Z.of_nat (length ((before ++ g0) ++ sp ++ text0))) (nl ++ data ++ T)) as (l2 & Hl2 & E4);
    [destruct Hnl as [->| ->]; cbn [follows app]; eexists; eexists; (split; [reflexivity|left; unfold white; lia])|assumption|].
  rewrite E4 in Tk. unfold pre in Tk. cbn [pre fst snd app] in Tk.
  assert (Hf2 : file e = ((before ++ g0) ++ sp ++ text0) ++ bs "stream" ++ nl ++ data ++ T) by (rewrite Hf', <- !app_assoc; reflexivity).
  rewrite <- (tok_eq_snd _ _ F) in HWr.
  destruct (stream_from e _ ts' _ _ ((before ++ g0) ++ sp ++ text0) d nl data T (length g) g2 rest Hb Hnl Hf2 N Tk HWr) as (n & p & s & H); try assumption.
  { apply Hres. discriminate. }
  { rewrite Hfb. exists v. split; [assumption|]. unfold direct_length in Hlen. destruct v; try discriminate. injection Hlen as ->. apply Hres. discriminate. }
  { apply first_after_white; [assumption|]. exists 101, (bs "ndstream"). split; [reflexivity|unfold white; lia]. }
  { unfold T. rewrite skipn_before by reflexivity. intros U. apply HU. apply (unfinished_suffix (bs "endstream")). exact U. }
  { unfold T. rewrite skipn_before; reflexivity. }
  exists n, w1, w2, w3. splits; [exact HW|exact HE|]. intros f Hfn. unfold load_section. replace (Z.of_nat (length before) <? 0) with false by lia. rewrite HC.
  unfold load_stream. rewrite app_length, Nat2Z.inj_add in A1. rewrite A1, A2, A3. replace f with (n + (f - n))%nat by lia. rewrite H, Hfb. cbn [bind snd].
  rewrite HD, (xs_load_lemma _ _ _ _ _ HA). reflexivity.
Qed.

(* a section of the program that says what a section of the file says *)
Definition like (x : section_ * list (obj * obj)) (r : revision) : Prop :=
  snd x = snd r /\ (forall id en, EntryOf (fst r) id en -> get_pos (fst x) id = match place_of en with Some p => Ok p | None => Err KeyError end) /\
  (forall id, Uncovered (fst r) id -> get_pos (fst x) id = Err KeyError).
Lemma xtable_entries secs text rest : XTable secs text rest -> forall id en, EntryOf secs id en -> exists a b, en = InUse a b \/ en = Free a b.
Proof.
  assert (G : forall es t r, XTEntries es t r -> forall en, In en es -> exists a b, en = InUse a b \/ en = Free a b).
  { induction 1 as [|e es t0 line text0 rest0 H _ _ IH]; intros en [].
    - subst e. destruct H; do 2 eexists; [left|right]; reflexivity.
    - apply IH. assumption. }
  intros H id en (pre & s & post & k & E & _ & Hk & _). apply nth_error_In in Hk. assert (Hs : In s secs) by (rewrite E; apply in_or_app; right; left; reflexivity).
  clear E. induction H as [|line secs texts rest _ _ IH|first es a b line text secs texts rest _ _ _ HE _ IH]; [destruct Hs|apply IH, Hs|].
  destruct Hs as [<-|Hs]; [cbn [snd] in Hk; eapply G; eassumption|apply IH, Hs].
Qed.
Lemma section_at e getdata start secs d : (0 < bufsiz e)%nat -> fallback e = false -> (forall o, (forall i, o <> ORef i) -> resolve e o = o) ->
  SectionAt getdata (file e) start secs d -> Disjoint secs ->
  exists n x, like (x, d) (secs, d) /\ forall f, (n <= f)%nat -> load_section e getdata f start = Ok (x, d).
Proof.
  intros Hb Hfb Hres [HT|HX] HD.
  - destruct (table_at e getdata _ _ _ Hb Hres HT) as (_ & n & E). exists n. eexists. split; [|exact E]. split; [reflexivity|]. cbn [fst]. split.
    + intros id en HE. cbn [get_pos]. rewrite (add_sections_get _ _ _ _ HD HE).
      destruct HT as (before & xl & table & ttext & rest & ts & q1 & q & exact & _ & _ & _ & _ & HT & _).
      destruct (xtable_entries _ _ _ HT id en HE) as (a & b & [-> | ->]); reflexivity.
    + intros id HU. cbn [get_pos]. rewrite add_sections_uncovered by exact HU. reflexivity.
  - destruct (xstream_at e getdata _ _ _ Hb Hfb Hres HX) as (n & w1 & w2 & w3 & HW & HE & E). exists n. eexists. split; [|exact E]. split; [reflexivity|]. cbn [fst].
    inversion HW as [|? ? W1 HW1]; subst. inversion HW1 as [|? ? W2 HW2]; subst. inversion HW2 as [|? ? W3 _]; subst. split.
    + intros id en HEn. cbn [get_pos]. apply xs_get_pos_lemma; try assumption.
      destruct HEn as (pre & s & post & k & -> & _ & Hk & _). apply nth_error_In in Hk. apply Forall_app in HE as [_ HE]. inversion HE as [|? ? Hs _]; subst.
      rewrite Forall_forall in Hs. apply Hs, Hk.
    + intros id HU. cbn [get_pos]. unfold xs_get_pos. cbn [xs_of xs_ranges]. rewrite xs_index_none by exact HU. reflexivity.
Qed.

(* ---------- the chain ---------- *)
Lemma sections_lemma e getdata : (0 < bufsiz e)%nat -> fallback e = false -> (forall o, (forall i, o <> ORef i) -> resolve e o = o) ->
  (forall start revs, Sections getdata (file e) start revs -> Forall (fun r => Disjoint (fst r)) revs ->
     exists n xrefs, Forall2 like xrefs revs /\ forall F k acc, (n <= F)%nat -> (n <= k)%nat ->
       read_xref_from (fun p => do (x, tr) <- load_section e getdata F p; Ok ((x, tr), tr)) int_direct k start acc = Ok (acc ++ xrefs)) /\
  (forall o revs, LinkedTo getdata (file e) o revs -> Forall (fun r => Disjoint (fst r)) revs ->
     exists n xrefs, Forall2 like xrefs revs /\ forall F k acc, (n <= F)%nat -> (n <= k)%nat ->
       match o with
       | Some v => do pos <- int_direct v; read_xref_from (fun p => do (x, tr) <- load_section e getdata F p; Ok ((x, tr), tr)) int_direct k pos acc
       | None => Ok acc
       end = Ok (acc ++ xrefs)).
Proof.
  intros Hb Hfb Hres. apply Sections_ind2.
  - intros start secs d l1 l2 HS _ IH1 _ IH2 HD. inversion_clear HD as [|? ? HD0 HD']. apply Forall_app in HD' as [HD1 HD2].
    destruct (section_at e getdata _ _ _ Hb Hfb Hres HS HD0) as (n & x & Lk & E). destruct (IH1 HD1) as (n1 & xr1 & F1 & E1). destruct (IH2 HD2) as (n2 & xr2 & F2 & E2).
    exists (S (n + n1 + n2)), ((x, d) :: xr1 ++ xr2). split; [constructor; [exact Lk|apply Forall2_app; assumption]|].
    intros F k acc HF Hk. destruct k as [|k]; [lia|]. cbn [read_xref_from]. rewrite E by lia. cbn [bind].
    specialize (E1 F k (acc ++ [(x, d)]) ltac:(lia) ltac:(lia)). specialize (E2 F k ((acc ++ [(x, d)]) ++ xr1) ltac:(lia) ltac:(lia)).
    destruct (dget d "XRefStm") as [v|]; rewrite E1; cbn [bind]; rewrite E2; f_equal; rewrite <- !app_assoc; reflexivity.
  - intros _. exists O, []. split; [constructor|]. intros. rewrite app_nil_r. reflexivity.
  - intros pos l _ IH HD. destruct (IH HD) as (n & xr & F & E). exists n, xr. split; [exact F|]. intros F' k acc HF Hk. cbn [int_direct bind]. apply E; assumption.
Qed.

(* ---------- lookups in sections that say what the file says ---------- *)
Lemma entry_or_not secs id : Uncovered secs id \/ exists en, EntryOf secs id en.
Proof.
  induction secs as [|s secs IH]; [left; constructor|].
  destruct (Z_le_dec (fst s) id) as [H1|H1]; [destruct (Z_lt_dec id (fst s + Z.of_nat (length (snd s)))) as [H2|H2]|].
  - right. destruct (nth_error (snd s) (Z.to_nat (id - fst s))) as [en|] eqn:E.
    + exists en, [], s, secs, (Z.to_nat (id - fst s)). splits; [reflexivity|lia|exact E|constructor].
    + apply nth_error_None in E. lia.
  - destruct IH as [IH|(en & pre & t & post & k & -> & E1 & E2 & E3)].
    + left. constructor; [unfold covers; lia|exact IH].
    + right. exists en, (s :: pre), t, post, k. splits; [reflexivity|exact E1|exact E2|]. constructor; [unfold covers; lia|exact E3].
  - destruct IH as [IH|(en & pre & t & post & k & -> & E1 & E2 & E3)].
    + left. constructor; [unfold covers; lia|exact IH].
    + right. exists en, (s :: pre), t, post, k. splits; [reflexivity|exact E1|exact E2|]. constructor; [unfold covers; lia|exact E3].
Qed.
Lemma like_keyerror x r id ex : like x r -> get_pos (fst x) id = Err ex -> ex = KeyError.
Proof.
  intros (_ & H1 & H2) E. destruct (entry_or_not (fst r) id) as [U|(en & HE)]; [rewrite (H2 _ U) in E; congruence|].
  rewrite (H1 _ _ HE) in E. destruct (place_of en); congruence.
Qed.
Lemma like_silent x r id : like x r -> Silent id r -> get_pos (fst x) id = Err KeyError.
Proof. intros (_ & H1 & H2) [U|(en & HE & Hp)]; [apply H2, U|]. rewrite (H1 _ _ HE), Hp. reflexivity. Qed.

Lemma likes_keyerror xr revs id : Forall2 like xr revs -> Forall (fun y : section_ * list (obj * obj) => forall ex, get_pos (fst y) id = Err ex -> ex = KeyError) xr.
Proof. induction 1 as [|x r xs rs H _ IH]; [constructor|]. constructor; [|exact IH]. intros ex. eapply like_keyerror. exact H. Qed.

Section look.
  Context (e : env) (getdata : list (obj * obj) -> list Z -> res (list Z)) (Hb : (0 < bufsiz e)%nat).
  Context (revs : list revision) (xr : list (section_ * list (obj * obj))) (hits : list hit) (extra : list (section_ * list (obj * obj))).
  Context (FF : Forall2 like xr revs).
  (* the section made by the search, if any *)
  Context (HX : (extra = [] /\ hits = []) \/ exists x offs, extra = [x] /\ fst x = STable offs /\ Tells (fst x) hits).
  Context (at_ : Z -> Z -> obj -> Prop) (Hat : forall off id o, at_ off id o -> exists m, forall fuel, (m <= fuel)%nat -> getobj_parse e fuel off id = Ok o).
  Context (Hhits : forall id off gen o, In (id, InUse off gen, o) hits -> exists m, forall fuel, (m <= fuel)%nat -> getobj_parse e fuel off id = Ok o).
  Let l := xr ++ extra.
  Lemma all_keyerror id : Forall (fun y : section_ * list (obj * obj) => forall ex, get_pos (fst y) id = Err ex -> ex = KeyError) l.
  Proof.
    apply Forall_app. split.
    - exact (likes_keyerror _ _ id FF).
    - destruct HX as [[E _]|(x & offs & E & Ex & _)]; rewrite E; [constructor|]. constructor; [|constructor]. rewrite Ex. cbn [get_pos]. intros ex. destruct (zget offs id); congruence.
  Qed.
  (* where the program looks for an object *)
  Definition Points (id : Z) (p : pos3) : Prop := exists nw x old, l = nw ++ x :: old /\ Forall (fun y => get_pos (fst y) id = Err KeyError) nw /\ get_pos (fst x) id = Ok p.
  Lemma silent_all id newer xn : Forall2 like xn newer -> Forall (Silent id) newer -> Forall (fun y : section_ * list (obj * obj) => get_pos (fst y) id = Err KeyError) xn.
  Proof. intros F. induction F as [|x r xs rs H _ IH]; intros HS; [constructor|]. inversion_clear HS. constructor; [eapply like_silent; eassumption|apply IH; assumption]. Qed.
  Lemma listed_points id en p : Listed revs id en -> place_of en = Some p -> Points id p.
  Proof.
    intros (newer & r & older & E & HS & HE & _) Hp. clear Hat Hhits. subst revs. apply Forall2_app_inv_r in FF as (xn & xo & F1 & F2 & Ex).
    inversion F2 as [|x ? xo' ? Lk F3]; subst. exists xn, x, (xo' ++ extra). splits.
    - unfold l. rewrite Ex, <- app_assoc. reflexivity.
    - eapply silent_all; eassumption.
    - destruct Lk as (_ & H1 & _). rewrite (H1 _ _ HE), Hp. reflexivity.
  Qed.
  Lemma found_points id en o p : Unlisted revs id -> LastHit hits id en o -> place_of en = Some p -> Points id p.
  Proof.
    intros HU HL Hp. destruct HX as [[_ E]|(x & offs & E & _ & T1 & _)]; [rewrite E in HL; destruct HL as (a & b & Hab & _); destruct a; discriminate|].
    exists xr, x, []. splits; [unfold l; rewrite E; reflexivity|eapply silent_all; eassumption|]. eapply T1; eassumption.
  Qed.
  Lemma whole_look id o : id <> 0 -> Whole at_ revs hits id o -> exists m, forall fuel f, (m <= fuel)%nat -> look (document e getdata fuel l) (S f) id = Ok o.
  Proof.
    intros Hid H. assert (G : exists off gen m, Points id (None, off, gen) /\ forall fuel, (m <= fuel)%nat -> getobj_parse e fuel off id = Ok o).
    { destruct H as [id off gen o HL Ha|id off gen o HU HL].
      - destruct (Hat _ _ _ Ha) as (m & Hm). exists off, gen, m. split; [|exact Hm]. eapply listed_points; [exact HL|reflexivity].
      - destruct (Hhits id off gen o) as (m & Hm); [destruct HL as (a & b & -> & _); apply in_or_app; right; left; reflexivity|].
        exists off, gen, m. split; [|exact Hm]. eapply found_points; [exact HU|exact HL|reflexivity]. }
    destruct G as (off & gen & m & (nw & x & old & El & HN & Hx) & Hm). exists m. intros fuel f Hf.
    eapply look_direct; [exact Hid|exact El|exact HN|apply all_keyerror|exact Hx|apply Hm, Hf].
  Qed.
  Lemma object_look id o : id <> 0 -> Object getdata at_ revs hits id o -> exists m, forall fuel f, (m <= fuel)%nat -> look (document e getdata fuel l) (S (S f)) id = Ok o.
  Proof.
    intros Hid H. destruct H as [id o HW|id sid k attrs raw ms i o HP Hsid HW (HT & HN & data & pairs & ts & ex & Hd & Hp & HL & HWr & Ho) Hk].
    - destruct (whole_look id o Hid HW) as (m & Hm). exists m. intros fuel f Hf. apply Hm, Hf.
    - destruct (whole_look sid _ Hsid HW) as (m & Hm).
      assert (P : Points id (Some sid, Z.of_nat k, 0)).
      { destruct HP as [HP|(HU & o' & HP)]; [eapply listed_points|eapply found_points]; try eassumption; reflexivity. }
      destruct P as (nw & x & old & El & HNw & Hx).
      destruct (C26_lookup e getdata l sid k id attrs raw data pairs (map snd ms) ts ex o 0) as (m2 & HM); try assumption.
      + rewrite El, map_app. cbn [map]. clear -HNw Hx. induction HNw as [|y nw Hy _ IH]; cbn [map app].
        * apply Newest_here with (Some sid, Z.of_nat k, 0); [|reflexivity]. unfold place. rewrite Hx. reflexivity.
        * apply Newest_absent; [unfold place; rewrite Hy; reflexivity|exact IH].
      + apply all_keyerror.
      + rewrite map_length. exact HN.
      + rewrite map_length. apply (f_equal (@length _)) in Hp. rewrite !map_length in Hp. exact Hp.
      + apply Forall_map. exact Ho.
      + rewrite nth_error_map, Hk. reflexivity.
      + exists (m + m2)%nat. intros fuel f Hf. apply HM; [lia|]. apply Hm. lia.
  Qed.
  Lemma absent_look id : id <> 0 -> l <> [] -> Unlisted revs id -> NoHit hits id -> forall fuel f, look (document e getdata fuel l) (S f) id = Err PDFObjectNotFound.
  Proof.
    intros Hid Hne HU HN fuel f. apply C23_absent; [exact Hid| |].
    - cbn. destruct l; [contradiction|discriminate].
    - cbn. apply Forall_map. unfold l. apply Forall_app. split; [eapply silent_all; eassumption|].
      destruct HX as [[E _]|(x & offs & E & _ & _ & T2)]; rewrite E; [constructor|]. constructor; [apply T2, HN|constructor].
  Qed.
End look.

(* ---------- opening ---------- *)
Lemma open_sections_lemma e getdata start revs : (0 < bufsiz e)%nat -> (forall o, (forall i, o <> ORef i) -> resolve e o = o) ->
  StartXRef (file e) start -> Sections getdata (file e) start revs -> Forall (fun r => Disjoint (fst r)) revs ->
  exists n xr, Forall2 like xr revs /\ (forall fuel, (n <= fuel)%nat -> open_sections false e getdata fuel = Ok xr) /\
    forall hits d, Contents getdata 0 (file e) hits d -> exists m, forall fuel, (m <= fuel)%nat -> open_sections true e getdata fuel = Ok (xr ++ [(STable (add_hits [] hits), d)]).
Proof.
  intros Hb Hres HS HR HD.
  destruct (proj1 (sections_lemma (set_fallback e false) getdata Hb eq_refl Hres) start revs HR HD) as (n & xr & FF & E).
  assert (R : forall fuel, (n <= fuel)%nat -> read_regular (set_fallback e false) getdata fuel = Ok xr).
  { intros fuel Hf. unfold read_regular.
    replace (find_xref (bufsiz (set_fallback e false)) (file (set_fallback e false))) with (Ok start) by (symmetry; exact (C63_startxref_partial _ _ _ Hb HS)).
    rewrite (read_xrefs_ok _ _ _ _ _ xr) by (rewrite E by lia; reflexivity). reflexivity. }
  exists n, xr. splits; [exact FF| |].
  - intros fuel Hf. unfold open_sections. rewrite R by exact Hf. reflexivity.
  - intros hits d HC. destruct (fb_load_lemma (set_fallback e true) getdata hits d Hb eq_refl Hres HC) as (m & H). exists (n + m)%nat. intros fuel Hf.
    unfold open_sections. rewrite R by lia. cbn [bind]. replace fuel with (m + (fuel - m))%nat by lia. rewrite H. reflexivity.
Qed.
Lemma tells_hits hits : Tells (STable (add_hits [] hits)) hits.
Proof.
  split.
  - intros id en o p HLst Hp. cbn [get_pos]. rewrite (add_hits_last hits id en o p HLst Hp). reflexivity.
  - intros id HN. cbn [get_pos]. rewrite add_hits_other by exact HN. reflexivity.
Qed.
Lemma object_at_parse e off id o : (0 < bufsiz e)%nat -> ObjectAt (file e) off id o -> exists m, forall fuel, (m <= fuel)%nat -> getobj_parse e fuel off id = Ok o.
Proof.
  intros Hb (before & text & rest & gen & ts & q1 & q2 & q3 & q & exact & Hf & -> & Hr & HL & HW).
  destruct (parse_object_lemma e before text rest id gen o ts q1 q2 q3 q exact Hb Hf Hr HL HW) as (m & HP). exists m. intros fuel Hfu.
  replace fuel with (m + (fuel - m))%nat by lia. apply HP.
Qed.
Lemma hits_parse e getdata hits d : (0 < bufsiz e)%nat -> fallback e = true -> (forall o, (forall i, o <> ORef i) -> resolve e o = o) -> Contents getdata 0 (file e) hits d ->
  forall id off gen o, In (id, InUse off gen, o) hits -> exists m, forall fuel, (m <= fuel)%nat -> getobj_parse e fuel off id = Ok o.
Proof.
  intros Hb Hfb Hres HC id off gen o HI. destruct (contents_parse e getdata Hb Hfb Hres _ _ _ _ HC [] eq_refl eq_refl id off gen o HI) as (m & Hm).
  exists m. intros fuel Hf. replace fuel with (m + (fuel - m))%nat by lia. apply Hm.
Qed.
Lemma stream_at_parse e off id d data : (0 < bufsiz e)%nat -> fallback e = false -> (forall o, (forall i, o <> ORef i) -> resolve e o = o) ->
  StreamAt direct_length (file e) off id d data -> exists m, forall fuel, (m <= fuel)%nat -> getobj_parse e fuel off id = Ok (OStream d data).
Proof.
  intros Hb Hfb Hres (before & text & nl & g & g2 & rest & gen & ts & q1 & q2 & q3 & v & Hf & -> & HL & HW & Hnl & Hv & Hlen & Hg & Hg2 & Hg2n & Hrest & HU).
  destruct (parse_stream_lemma e before text nl data (g ++ bs "endstream" ++ g2 ++ bs "endobj" ++ rest) (length g) g2 rest id gen d ts q1 q2 q3) as (n2 & HP); try assumption.
  { apply Hres. discriminate. }
  { rewrite Hfb. exists v. split; [assumption|]. unfold direct_length in Hlen. destruct v; try discriminate. injection Hlen as ->. apply Hres. discriminate. }
  { apply first_after_white; [assumption|]. exists 101, (bs "ndstream"). split; [reflexivity|unfold white; lia]. }
  { rewrite skipn_before by reflexivity. intros U. apply HU. apply (unfinished_suffix (bs "endstream")). exact U. }
  { rewrite skipn_before; reflexivity. }
  rewrite Hfb in HP. exists n2. intros fuel Hfu. replace fuel with (n2 + (fuel - n2))%nat by lia. apply HP.
Qed.

(* Opening gives the sections of the file, in the order in which they are linked, with their trailers *)
Theorem C88_sections e getdata start revs : (0 < bufsiz e)%nat -> (forall o, (forall i, o <> ORef i) -> resolve e o = o) ->
  StartXRef (file e) start -> Sections getdata (file e) start revs -> Forall (fun r => Disjoint (fst r)) revs ->
  exists n xrefs, (forall fuel, (n <= fuel)%nat -> open_sections false e getdata fuel = Ok xrefs) /\
    Forall2 (fun x r => snd x = snd r /\ (forall id en, EntryOf (fst r) id en -> get_pos (fst x) id = match place_of en with Some p => Ok p | None => Err KeyError end) /\
             (forall id, Uncovered (fst r) id -> get_pos (fst x) id = Err KeyError)) xrefs revs.
Proof.
  intros Hb Hres HS HR HD. destruct (open_sections_lemma e getdata start revs Hb Hres HS HR HD) as (n & xr & FF & E & _). exists n, xr. split; [exact E|exact FF].
Qed.
(* With fallback=False: every object is found, by itself or in its object stream, the data of streams exact *)
Theorem C88_lookup_exact e getdata start revs id o : (0 < bufsiz e)%nat -> (forall o, (forall i, o <> ORef i) -> resolve e o = o) ->
  StartXRef (file e) start -> Sections getdata (file e) start revs -> Forall (fun r => Disjoint (fst r)) revs ->
  id <> 0 -> Object getdata (Exact (file e)) revs [] id o ->
  exists n, forall fuel f caching, (n <= fuel)%nat -> exists D, open_document false e getdata fuel = Ok D /\ fst (getobj D caching (S (S f)) id dstate0) = Ok o.
Proof.
  intros Hb Hres HS HR HD Hid HO. destruct (open_sections_lemma e getdata start revs Hb Hres HS HR HD) as (n & xr & FF & E & _).
  destruct (object_look (set_fallback e false) getdata Hb revs xr [] [] FF (or_introl (conj eq_refl eq_refl)) (Exact (file e))) with (id := id) (o := o) as (m & Hm); [| |exact Hid|exact HO|].
  - intros off i x [Ho|(d & data & -> & Hs)]; [apply (object_at_parse (set_fallback e false)); assumption|apply (stream_at_parse (set_fallback e false)); try assumption; reflexivity].
  - intros i off gen x [].
  - exists (n + m)%nat. intros fuel f caching Hf. eexists. split; [unfold open_document; rewrite E by lia; reflexivity|].
    apply look_caching; [|discriminate]. rewrite app_nil_r in Hm. apply Hm. lia.
Qed.
(* As documents are opened by default, with the search through the file *)
Theorem C88_lookup_partial e getdata start revs hits d id o : (0 < bufsiz e)%nat -> (forall o, (forall i, o <> ORef i) -> resolve e o = o) ->
  StartXRef (file e) start -> Sections getdata (file e) start revs -> Forall (fun r => Disjoint (fst r)) revs -> Contents getdata 0 (file e) hits d ->
  id <> 0 -> Object getdata (Scanned (file e) hits) revs hits id o ->
  exists n, forall fuel f caching, (n <= fuel)%nat -> exists D, open_document true e getdata fuel = Ok D /\ fst (getobj D caching (S (S f)) id dstate0) = Ok o.
Proof.
  intros Hb Hres HS HR HD HC Hid HO. destruct (open_sections_lemma e getdata start revs Hb Hres HS HR HD) as (_ & xr & FF & _ & E).
  destruct (E hits d HC) as (n & En). set (e1 := set_fallback e true).
  destruct (object_look e1 getdata Hb revs xr hits [(STable (add_hits [] hits), d)] FF) with (at_ := Scanned (file e) hits) (id := id) (o := o) as (m & Hm).
  - right. eexists. eexists. splits; [reflexivity|reflexivity|apply tells_hits].
  - intros off i x [Ho|(gen & HI)]; [apply (object_at_parse e1); assumption|eapply (hits_parse e1); try eassumption; reflexivity].
  - eapply (hits_parse e1); try eassumption; reflexivity.
  - exact Hid.
  - exact HO.
  - exists (n + m)%nat. intros fuel f caching Hf. eexists. split; [unfold open_document; rewrite En by lia; reflexivity|].
    apply look_caching; [|discriminate]. apply Hm. lia.
Qed.
Theorem C88_absent e getdata start revs hits d id : (0 < bufsiz e)%nat -> (forall o, (forall i, o <> ORef i) -> resolve e o = o) ->
  StartXRef (file e) start -> Sections getdata (file e) start revs -> Forall (fun r => Disjoint (fst r)) revs -> Contents getdata 0 (file e) hits d ->
  id <> 0 -> Unlisted revs id -> NoHit hits id ->
  exists n, forall fuel f caching, (n <= fuel)%nat -> exists D, open_document true e getdata fuel = Ok D /\ fst (getobj D caching (S f) id dstate0) = Err PDFObjectNotFound.
Proof.
  intros Hb Hres HS HR HD HC Hid HU HN. destruct (open_sections_lemma e getdata start revs Hb Hres HS HR HD) as (_ & xr & FF & _ & E).
  destruct (E hits d HC) as (n & En). exists n. intros fuel f caching Hf. eexists. split; [unfold open_document; rewrite En by lia; reflexivity|].
  apply look_caching; [|discriminate].
  eapply (absent_look (set_fallback e true) getdata revs xr hits [(STable (add_hits [] hits), d)] FF); try assumption.
  - right. eexists. eexists. splits; [reflexivity|reflexivity|apply tells_hits].
  - destruct xr; discriminate.
Qed.
