(* C76 (catalog, information, permissions of a document), C77 (encrypted documents). *)
From Coq Require Import String.
From Verif Require Import Base Lex_Model Lex_Chunk Lex_Spec Lex_Proofs Lines_Model Lines_Spec Lines_Proofs Obj Stack_Model Stack_Spec Stack_Proofs Stack_Props Stream_Model XRef_Model XRef_Spec XRef_Proofs Doc_Model Doc_Spec Doc_Proofs Doc_Props Num Page_Model RC4 Sec_Model Sec_Spec Sec_Props Open_Model Open_Spec Witness.
From Coq Require Import ZifyBool ZifyNat.
Open Scope Z_scope.

Section c76.
  Context (md5 sha256 : list Z -> list Z) (aes : list Z -> list Z -> list Z -> res (list Z)).
  Notation scan := (scan md5 sha256 aes).
  Notation under := (under md5 aes).
  Notation dictM := (dictM md5 aes).

  Lemma under_none D : d_decipher D = None -> under D None = D.
  Proof. destruct D as [x p m d]. cbn. intros ->. reflexivity. Qed.

  Section plain.
    Context (D : docdata) (HD : d_decipher D = None) (caching : bool) (password : list Z).
    Definition found (i : Z) (r : res obj) : Prop := exists f, look D f i = r.

    Lemma stands_lemma o v : Stands found o v -> exists n, forall f m s, (n <= f)%nat -> (n <= m)%nat -> CInv D s ->
      exists s', resolveM (getobj D caching f) m o s = (Ok v, s') /\ CInv D s'.
    Proof.
      assert (G : forall i r F, look D F i = r -> r <> Err OutOfFuel -> forall f s, (F <= f)%nat -> CInv D s ->
        exists s', getobj D caching f i s = (r, s') /\ CInv D s').
      { intros i r F Hl Hr f s Hf Hs. pose proof (look_mono D F f i r Hf Hl Hr) as E. destruct (caching_sim D caching f i s Hs) as [A B].
        - unfold look in E. rewrite E. exact Hr.
        - fold (look D f i) in A. rewrite E in A. destruct (getobj D caching f i s) as [r' s']. cbn [fst snd] in *. subst r'. eauto. }
      induction 1 as [o Ho|i o v (F & Hl) HS IH|i (F & Hl)].
      - exists 0%nat. intros f m s _ _ Hs. exists s. split; [|exact Hs]. destruct o; destruct m; try reflexivity; exfalso; eapply Ho; reflexivity.
      - destruct IH as (n & IH). exists (S (n + F)). intros f m s Hf Hm Hs. destruct m as [|m]; [lia|].
        destruct (G i (Ok o) F Hl ltac:(discriminate) f s ltac:(lia) Hs) as (s1 & E1 & H1).
        destruct (IH f m s1 ltac:(lia) ltac:(lia) H1) as (s2 & E2 & H2). exists s2. split; [|exact H2]. cbn [resolveM]. rewrite E1. exact E2.
      - exists (S F). intros f m s Hf Hm Hs. destruct m as [|m]; [lia|].
        destruct (G i (Err PDFObjectNotFound) F Hl ltac:(discriminate) f s ltac:(lia) Hs) as (s1 & E1 & H1). exists s1. split; [|exact H1].
        cbn [resolveM]. rewrite E1. reflexivity.
    Qed.
    Lemma dict_lemma o d : StandsDict found o d -> exists n, forall f s, (n <= f)%nat -> CInv D s ->
      exists s', dictM D caching f None o s = (Ok d, s') /\ CInv D s'.
    Proof.
      intros (v & HS & ->). destruct (stands_lemma o v HS) as (n & H). exists n. intros f s Hf Hs.
      destruct (H f f s Hf Hf Hs) as (s' & E & H'). exists s'. split; [|exact H'].
      unfold Open_Model.dictM. rewrite under_none by exact HD. unfold mbind. rewrite E. reflexivity.
    Qed.
    Lemma info_lemma t info : InfoOf found t info -> exists n, forall f s acc, (n <= f)%nat -> CInv D s ->
      exists s', (match dget t "Info" with
                  | None => ret (Ok acc)
                  | Some v => mbind (dictM D caching f None v) (fun d => ret (Ok (acc ++ [d])))
                  end) s = (Ok (acc ++ info), s') /\ CInv D s'.
    Proof.
      intros [HN|v d HN Hd]; rewrite HN.
      - exists 0%nat. intros f s acc _ Hs. exists s. rewrite app_nil_r. split; [reflexivity|exact Hs].
      - destruct (dict_lemma v d Hd) as (n & H). exists n. intros f s acc Hf Hs. destruct (H f s Hf Hs) as (s' & E & H').
        exists s'. split; [|exact H']. unfold mbind. rewrite E. reflexivity.
    Qed.
    Lemma scan_unfold f t r h acc s : t <> [] -> dget t "Encrypt" = None -> scan D caching f password (t :: r) h acc s =
      mbind (match dget t "Info" with
             | None => ret (Ok acc)
             | Some v => mbind (dictM D caching f h v) (fun d => ret (Ok (acc ++ [d])))
             end) (fun info1 => match dget t "Root" with
                                | Some v => mbind (dictM D caching f h v) (fun d => ret (Ok (mkOpened d info1 h)))
                                | None => scan D caching f password r h info1
                                end) s.
    Proof. intros Ht HE. destruct t as [|kv t]; [contradiction|]. cbn [Open_Model.scan]. unfold set_encryption. rewrite HE. reflexivity. Qed.

    (* C76. A document without encryption: its catalog and its information dictionaries, with or without caching *)
    Theorem C76_plain : forall trailers cat info, Plain found trailers cat info ->
      exists n, forall f, (n <= f)%nat -> fst (scan D caching f password trailers None [] dstate0) = Ok (mkOpened cat info None).
    Proof.
      assert (G : forall trailers cat info, Plain found trailers cat info -> exists n, forall f s acc, (n <= f)%nat -> CInv D s ->
        fst (scan D caching f password trailers None acc s) = Ok (mkOpened cat (acc ++ info) None)).
      { induction 1 as [t r v cat info HE HR HC HI|t r cat info infos HE HR HI HP IH].
        - destruct (info_lemma t info HI) as (n1 & H1). destruct (dict_lemma v cat HC) as (n2 & H2). exists (n1 + n2)%nat.
          intros f s acc Hf Hs. rewrite scan_unfold; [|destruct t; discriminate|exact HE]. unfold mbind at 1.
          destruct (H1 f s acc ltac:(lia) Hs) as (s1 & E1 & C1). rewrite E1, HR. destruct (H2 f s1 ltac:(lia) C1) as (s2 & E2 & C2).
          unfold mbind. rewrite E2. reflexivity.
        - destruct IH as (n & IH). destruct t as [|kv t].
          + exists n. intros f s acc Hf Hs. inversion HI as [|v d HX]; [|discriminate HX]. cbn [app Open_Model.scan]. apply IH; assumption.
          + destruct (info_lemma (kv :: t) info HI) as (n1 & H1). exists (n + n1)%nat. intros f s acc Hf Hs. rewrite scan_unfold; [|discriminate|exact HE]. unfold mbind at 1.
            destruct (H1 f s acc ltac:(lia) Hs) as (s1 & E1 & C1). rewrite E1, HR, app_assoc. apply IH; [lia|exact C1]. }
      intros trailers cat info H. destruct (G _ _ _ H) as (n & Hn). exists n. intros f Hf. apply (Hn f dstate0 []); [exact Hf|apply CInv0].
    Qed.
    (* without a Root in any trailer the file is refused *)
    Theorem C76_rootless : forall trailers, Rootless found trailers ->
      exists n, forall f, (n <= f)%nat -> fst (scan D caching f password trailers None [] dstate0) = Err PDFSyntaxError.
    Proof.
      assert (G : forall trailers, Rootless found trailers -> exists n, forall f s acc, (n <= f)%nat -> CInv D s ->
        fst (scan D caching f password trailers None acc s) = Err PDFSyntaxError).
      { induction 1 as [|t r info HE HR HI HP IH]; [exists 0%nat; reflexivity|]. destruct IH as (n & IH). destruct t as [|kv t].
        + exists n. intros f s acc Hf Hs. cbn [Open_Model.scan]. apply IH; assumption.
        + destruct (info_lemma (kv :: t) info HI) as (n1 & H1). exists (n + n1)%nat. intros f s acc Hf Hs. rewrite scan_unfold; [|discriminate|exact HE]. unfold mbind at 1.
          destruct (H1 f s acc ltac:(lia) Hs) as (s1 & E1 & C1). rewrite E1, HR. apply IH; [lia|exact C1]. }
      intros trailers H. destruct (G _ H) as (n & Hn). exists n. intros f Hf. apply Hn; [exact Hf|apply CInv0].
    Qed.
  End plain.
End c76.

(* ---------- lookups of objects that stand directly in the file, in any state of the cache ---------- *)
(* object i is read as o: the newest section that has it gives an offset, there stands an object, which deciphers to o *)
Definition Reads (D : docdata) (i : Z) (o : obj) : Prop :=
  i <> 0 /\ exists newer x older off g stored, d_xrefs D = newer ++ x :: older /\ Forall (fun y => y i = Err KeyError) newer /\
    x i = Ok (None, off, g) /\ d_parse D off i = Ret (Ok stored) /\
    match d_decipher D with Some dec => dec i g stored | None => Ok stored end = Ok o.
(* the cache holds nothing else for the objects outside E *)
Definition Faithful (D : docdata) (E : Z -> Prop) (s : dstate) : Prop :=
  forall i o o', Reads D i o -> ~ E i -> zget (ds_objs s) i = Some o' -> o' = o.

Lemma reads_try D caching get n i o s : Reads D i o -> try_xrefs D caching get n i (d_xrefs D) s = (Ok o, s).
Proof.
  intros (Hi & newer & x & older & off & g & stored & -> & HN & Hx & HP & HE). induction HN as [|y newer Hy HN IH]; cbn [app try_xrefs].
  - rewrite Hx. unfold read_entry, mbind. rewrite HP. cbn [run_prog ret]. rewrite HE. reflexivity.
  - rewrite Hy. exact IH.
Qed.
Lemma reads_get D caching f i o s : Reads D i o -> zget (ds_objs s) i = None ->
  getobj D caching (S f) i s = (Ok o, if caching then mkDS ((i, o) :: ds_objs s) (ds_parsed s) else s).
Proof.
  intros HR Hz. pose proof (reads_try D caching (getobj D caching f) f i o s HR) as HT. destruct HR as (Hi & newer & x & older & off & g & stored & Ex & _).
  cbn [getobj]. replace (i =? 0) with false by lia. destruct (d_xrefs D) as [|y ys] eqn:EX; [destruct newer; discriminate|].
  rewrite Hz, HT. reflexivity.
Qed.
Lemma reads_any D (E : Z -> Prop) caching f i o s : Reads D i o -> ~ E i -> Faithful D E s -> fst (getobj D caching (S f) i s) = Ok o.
Proof.
  intros HR HE HF. destruct (zget (ds_objs s) i) as [o'|] eqn:Hz.
  - rewrite (HF i o o' HR HE Hz) in Hz. destruct HR as (Hi & newer & x & older & off & g & stored & Ex & _).
    cbn [getobj]. replace (i =? 0) with false by lia. destruct (d_xrefs D) as [|y ys] eqn:EX; [destruct newer; discriminate|]. rewrite Hz. reflexivity.
  - rewrite (reads_get D caching f i o s HR Hz). reflexivity.
Qed.

Section keep.
  Context (D : docdata) (E : Z -> Prop) (caching : bool) (HP : forall off i, exists r, d_parse D off i = Ret r).
  Definition keeps {A} (m : M A) : Prop := forall s, Faithful D E s -> Faithful D E (snd (m s)).
  Lemma keeps_bind {A B} (m : M A) (f : A -> M B) : keeps m -> (forall a, keeps (f a)) -> keeps (mbind m f).
  Proof. intros Hm Hf s Hs. unfold mbind. specialize (Hm s Hs). destruct (m s) as [[a|e] s']; [apply Hf; exact Hm|exact Hm]. Qed.
  Lemma keeps_follow get n : (forall i, keeps (get i)) -> forall id o, keeps (follow get n id o).
  Proof.
    intros Hg. induction n as [|n IH]; intros id o s Hs; destruct o; try exact Hs. cbn [follow].
    specialize (Hg objid s Hs). destruct (get objid s) as [[a|[]] s']; try exact Hg. apply IH. exact Hg.
  Qed.
  Lemma keeps_try get n i : (forall i, keeps (get i)) -> forall xs, keeps (try_xrefs D caching get n i xs).
  Proof.
    intros Hg. induction xs as [|x xs IH]; intros s Hs; [exact Hs|]. cbn [try_xrefs]. destruct (x i) as [p|[]]; try exact Hs; [|apply IH; exact Hs].
    assert (K : Faithful D E (snd (read_entry D caching get n i p s))).
    { destruct p as [[[sid|] index] gen]; cbn [read_entry].
      - revert s Hs. apply keeps_bind; [apply Hg|]. intros o. apply keeps_bind; [apply keeps_follow; exact Hg|]. intros ks s Hs. unfold getobj_objstm.
        destruct (oget _ _); [exact Hs|]. destruct (d_members D _); [|exact Hs]. destruct caching; [|exact Hs]. cbn [snd]. exact Hs.
      - unfold mbind. destruct (HP index i) as (r & ->). cbn [run_prog ret]. destruct r; exact Hs. }
    destruct (read_entry D caching get n i p s) as [[a|[]] s']; try exact K; apply IH; exact K.
  Qed.
  Lemma keeps_get f : forall i, keeps (getobj D caching f i).
  Proof.
    induction f as [|f IH]; intros i s Hs; [exact Hs|]. cbn [getobj]. destruct (i =? 0) eqn:Ei; [exact Hs|].
    destruct (d_xrefs D) as [|x xs] eqn:EX; [exact Hs|]. destruct (zget (ds_objs s) i) as [o|] eqn:Hz; [exact Hs|].
    rewrite <- EX. pose proof (keeps_try (getobj D caching f) f i IH (d_xrefs D) s Hs) as K.
    destruct (try_xrefs D caching (getobj D caching f) f i (d_xrefs D) s) as [[v|e] s'] eqn:ET; [|exact K].
    destruct caching; [|exact K]. cbn [snd] in *. intros j o o' HR HE. cbn [ds_objs zget]. destruct (i =? j) eqn:Eij; [|apply (K j o o' HR HE)].
    apply Z.eqb_eq in Eij. subst j. intros X. injection X as <-.
    rewrite (reads_try D true (getobj D true f) f i o s HR) in ET. injection ET as -> _. reflexivity.
  Qed.
  (* C77. In every history of lookups the object is found as it reads *)
  Theorem C77_history_partial f : forall ids s, Faithful D E s -> forall k i o, Reads D i o -> ~ E i -> nth_error ids k = Some i ->
    nth_error (lookups D caching (S f) s ids) k = Some (Ok o).
  Proof.
    induction ids as [|j ids IH]; intros s Hs k i o HR HE Hk; [destruct k; discriminate|]. cbn [lookups].
    pose proof (keeps_get (S f) j s Hs) as K. destruct k as [|k].
    - cbn [nth_error] in Hk. injection Hk as ->. pose proof (reads_any D E caching f i o s HR HE Hs) as G.
      destruct (getobj D caching (S f) i s) as [r s']. cbn [fst] in G. subst r. reflexivity.
    - cbn [nth_error] in Hk. destruct (getobj D caching (S f) j s) as [r s']. cbn [nth_error]. eapply IH; eassumption.
  Qed.
End keep.

(* ---------- C77 ---------- *)
Lemma revisions_get_gen (revs : list (list subsection * list (obj * obj))) (xrefs : list (section_ * list (obj * obj))) id off gen :
  Forall2 rev_section xrefs revs -> Forall (fun r => Disjoint (fst r)) revs -> DefinesGen revs id off gen ->
  exists newer x older, xrefs = newer ++ x :: older /\ Forall (fun y => get_pos (fst y) id = Err KeyError) newer /\
    get_pos (fst x) id = Ok (None, off, gen).
Proof.
  intros FF HD (nw & secs & d & old & -> & HE & HN).
  apply Forall2_app_inv_r in FF as (xn & xo & F1 & F2 & ->). inversion F2 as [|x ? xo' ? [Hx1 Hx2] F3]; subst.
  apply Forall_app in HD as [HD1 HD2]. inversion_clear HD2 as [|? ? HD3 HD4]. cbn [fst snd] in *.
  exists xn, x, xo'. splits; [reflexivity| |].
  - clear -F1 HN HD1. induction F1 as [|y r ys rs [H1 H2] F1 IH]; [constructor|]. inversion_clear HN as [|? ? HN1 HN2]. inversion_clear HD1 as [|? ? A B].
    constructor; [|apply IH; assumption]. rewrite H2. cbn [get_pos].
    destruct HN1 as [HU|(a & b & HE)]; [rewrite add_sections_uncovered by exact HU|rewrite (add_sections_get _ _ _ _ A HE)]; reflexivity.
  - rewrite Hx2. cbn [get_pos]. rewrite (add_sections_get _ _ _ _ HD3 HE). reflexivity.
Qed.

Section c77.
  Context (md5 sha256 : list Z -> list Z) (md5_len : forall d, length (md5 d) = 16%nat).
  Context (aes : list Z -> list Z -> list Z -> res (list Z)).
  Notation under := (under md5 aes).

  Lemma decipher_ok (enc : list Z -> list Z) (dec : list Z -> res (list Z)) : (forall s, dec (enc s) = Ok s) ->
    forall plain stored, Encrypted enc plain stored -> decipher_obj dec stored = Ok plain.
  Proof.
    intros Hd. apply (obj_ind2 (fun plain => forall stored, Encrypted enc plain stored -> decipher_obj dec stored = Ok plain)).
    - intros []; try exact Logic.I; intros stored HE; inversion HE; subst; try reflexivity. cbn [decipher_obj]. rewrite Hd. reflexivity.
    - intros l Hl stored HE. inversion HE as [|? l' HF| | | | | | |]; subst. cbn [decipher_obj]. clear HE.
      match goal with |- (do l0 <- ?g l'; _) = _ => assert (G : g l' = Ok l) end; [|rewrite G; reflexivity].
      induction HF as [|x y l l' Hx HF IH]; [reflexivity|]. inversion Hl as [|? ? H1 H2]; subst. rewrite (H1 _ Hx). cbn [bind]. rewrite (IH H2). reflexivity.
    - intros d Hl stored HE. inversion HE as [| |? d' HF| | | | | |]; subst. cbn [decipher_obj]. clear HE.
      match goal with |- (do l0 <- ?g d'; _) = _ => assert (G : g d' = Ok d) end; [|rewrite G; reflexivity].
      induction HF as [|x y l l' Hx HF IH]; [reflexivity|]. inversion Hl as [|? ? H1 H2]; subst. destruct Hx as [E1 E2]. destruct x as [k v], y as [k' v']. cbn [fst snd] in *.
      rewrite (proj2 H1 _ E2). cbn [bind]. rewrite (IH H2). subst k'. reflexivity.
    - intros d r _ stored HE. inversion HE.
  Qed.
  Lemma doc_decipher_ok h i g plain stored : uses_rc4 h -> 0 <= i < 2 ^ 32 -> 0 <= g < 2 ^ 32 ->
    Encrypted (rc4 (object_key md5 (h_key h) i g [])) plain stored -> doc_decipher md5 aes h i g stored = Ok plain.
  Proof.
    intros HU Hi Hg HE. change (2 ^ 32) with 4294967296 in *.
    assert (X : decipher_obj (fun s => decrypt md5 aes h i g s None) stored = Ok plain).
    { apply (decipher_ok (rc4 (object_key md5 (h_key h) i g []))); [|exact HE]. intros s. apply (C48_rc4 md5 sha256 md5_len aes (fun _ => None) 1%nat ltac:(lia) h i g s None HU Hi Hg). right. left. reflexivity. }
    destruct HE; exact X.
  Qed.
  (* the data of a stream are encrypted with the key of the stream object *)
  Theorem C77_stream_data : forall h i g attrs data, h_v h = 1 \/ h_v h = 2 -> 0 <= i < 2 ^ 32 -> 0 <= g < 2 ^ 32 ->
    doc_decipher md5 aes h i g (OStream attrs (rc4 (object_key md5 (h_key h) i g []) data)) = Ok (OStream attrs data).
  Proof.
    intros h i g attrs data HV Hi Hg. change (2 ^ 32) with 4294967296 in *. unfold doc_decipher.
    rewrite (proj1 (C48_rc4 md5 sha256 md5_len aes (fun _ => None) 1%nat ltac:(lia) h i g data (Some attrs) ltac:(left; lia) Hi Hg ltac:(right; right; lia))). reflexivity.
  Qed.
  (* Refuted: the strings in the dictionary of a stream, which are encrypted as well, are left as they are *)
  Theorem C77_stream_dictionary_refuted : forall h i g attrs raw o, doc_decipher md5 aes h i g (OStream attrs raw) = Ok o ->
    exists data, o = OStream attrs data.
  Proof. intros h i g attrs raw o. cbn. destruct (decrypt _ _ _ _ _ _ _); cbn [bind]; [|discriminate]. intros H. injection H as <-. eauto. Qed.

  (* the objects of a file, read through a handler *)
  Lemma file_reads e getdata revs xr h id off g stored o : (0 < bufsiz e)%nat ->
    Forall2 rev_section xr revs -> Forall (fun r => Disjoint (fst r)) revs -> id <> 0 ->
    DefinesGen revs id off g -> ObjectAt (file e) off id stored ->
    match h with Some h => doc_decipher md5 aes h id g stored | None => Ok stored end = Ok o ->
    exists n, forall fuel, (n <= fuel)%nat -> Reads (under (document e getdata fuel xr) h) id o.
  Proof.
    intros Hb FF HD Hid Hdef (before & text & rest & gen & ts & q1 & q2 & q3 & q & exact & Hf & -> & Hr & HL & HW) Hdec.
    destruct (parse_object_lemma e before text rest id gen stored ts q1 q2 q3 q exact Hb Hf Hr HL HW) as (n2 & HP).
    destruct (revisions_get_gen revs xr id _ g FF HD Hdef) as (nw & x & old & -> & HN & Hx).
    exists n2. intros fuel Hfu. split; [exact Hid|].
    exists (map (fun x => get_pos (fst x)) nw), (get_pos (fst x)), (map (fun x => get_pos (fst x)) old), (Z.of_nat (length before)), g, stored. splits.
    - cbn [d_xrefs Open_Model.under document]. rewrite map_app. reflexivity.
    - apply Forall_map. exact HN.
    - exact Hx.
    - cbn [d_parse Open_Model.under document]. replace fuel with (n2 + (fuel - n2))%nat by lia. rewrite HP. reflexivity.
    - cbn [d_decipher Open_Model.under document]. destruct h; cbn [option_map]; exact Hdec.
  Qed.

  (* A file protected with RC4 (V 1 or 2): opening it with a password that the security handler accepts (C49) *)
  Section document.
    Context (e : env) (getdata : list (obj * obj) -> list Z -> res (list Z)) (start : Z) (secs : list subsection) (d : dict)
      (older : list (list subsection * list (obj * obj))).
    Notation revs := ((secs, d) :: older).
    Context (Hb : (0 < bufsiz e)%nat) (Hres : forall o, (forall i, o <> ORef i) -> resolve e o = o)
      (HS : StartXRef (file e) start) (HR : Revisions (file e) start revs) (HD : Forall (fun r => Disjoint (fst r)) revs).
    Context (enc : obj) (param : dict) (id : list Z) (idrest : list obj) (V P : Z) (key : list Z).
    Context (Henc : dget d "Encrypt" = Some enc) (Hparam : EncryptEntry (file e) revs enc param)
      (Hid : dget d "ID" = Some (OArr (OStr id :: idrest))).
    (* any objects of the file, other than the encryption dictionary *)
    Context (objs : list (Z * obj)) (Hobjs : Forall (fun io => StoredEncrypted md5 (file e) revs key (fst io) (snd io)) objs)
      (Hnot : forall i o, In (i, o) objs -> enc <> ORef i).
    Context (root : Z) (cat : dict) (info : list dict) (Hroot : dget d "Root" = Some (ORef root)) (Hcat : In (root, ODict cat) objs)
      (Hinfo : dget d "Info" = None /\ info = [] \/ exists k i, dget d "Info" = Some (ORef k) /\ In (k, ODict i) objs /\ info = [i]).

    Lemma open_document password (HV : V = 1 \/ V = 2) :
      (forall get depth, (0 < depth)%nat -> exists h, open_with md5 sha256 aes get depth (OStr id :: idrest) param password = Ok h /\ h_key h = key /\ h_p h = P /\ h_v h = V) ->
      exists n, forall fuel f caching, (n <= fuel)%nat -> exists xrefs h s, read_sections e getdata fuel = Ok xrefs /\
        let D := document e getdata fuel xrefs in
        scan md5 sha256 aes D caching (S f) password (map snd xrefs) None [] dstate0 = (Ok (mkOpened cat info (Some h)), s) /\
        h_p h = P /\
        forall ids k i o, In (i, o) objs -> nth_error ids k = Some i ->
          nth_error (lookups (under D (Some h)) caching (S f) s ids) k = Some (Ok o).
    Proof.
      intros Hopen. destruct (revisions_lemma e getdata start revs Hb Hres HR) as (n0 & xr & FF & E0).
      assert (Hdoc : exists xs, map snd xr = d :: xs).
      { inversion FF as [|x ? xr' ? [Hx _] F']; subst. cbn [map]. rewrite Hx. eexists. reflexivity. }
      destruct Hdoc as (xs & Exs).
      (* the handler depends on the lookups made while it is set up, but its key does not *)
      set (E := fun i => enc = ORef i).
      assert (HEnc : exists n, forall fuel f caching, (n <= fuel)%nat -> exists s, 
        dictM md5 aes (document e getdata fuel xr) caching (S f) None enc dstate0 = (Ok param, s) /\
        (forall i, zget (ds_objs s) i <> None -> E i)).
      { destruct Hparam as [param|j off g param Hj Hdef HA].
        - exists 0%nat. intros fuel f caching _. exists dstate0. split; [reflexivity|]. intros i X. exfalso. apply X. reflexivity.
        - destruct (file_reads e getdata revs xr None j off g (ODict param) (ODict param) Hb FF HD Hj Hdef HA eq_refl) as (m & Hm).
          exists m. intros fuel f caching Hf. pose proof (reads_get _ caching f j _ dstate0 (Hm fuel Hf) eq_refl) as G. eexists. split.
          + unfold dictM, mbind. cbn [resolveM]. rewrite G. destruct f; reflexivity.
          + intros i. destruct caching; cbn; [|congruence]. destruct (j =? i) eqn:Eji; [apply Z.eqb_eq in Eji; subst; reflexivity|congruence]. }
      destruct HEnc as (n1 & HEnc).
      assert (HAll : exists n, forall fuel, (n <= fuel)%nat -> forall h, h_key h = key -> h_v h = V -> forall i o, In (i, o) objs -> Reads (under (document e getdata fuel xr) (Some h)) i o).
      { assert (HU : forall h, h_v h = V -> uses_rc4 h) by (intros h Hh; left; lia).
        clear Hroot Hcat Hinfo. pose proof Hobjs as HO0. clear Hobjs. revert Hnot. induction HO0 as [|[i o] l (Hi & off & g & stored & Hg & Hdef & HA & HE) HO IH]; intros Hnot; [exists 0%nat; intros ? ? ? ? ? ? ? []|].
        cbn [fst snd] in *. destruct IH as (n & IH); [intros i' o' X; apply (Hnot i' o'); right; exact X|].
        destruct HA as (before & text & rest & gen & ts & q1 & q2 & q3 & q & exact & Hf & -> & Hr & HL & HW).
        destruct (parse_object_lemma e before text rest i gen stored ts q1 q2 q3 q exact Hb Hf Hr HL HW) as (n2 & HP).
        destruct (revisions_get_gen revs xr i _ g FF HD Hdef) as (nw & x & old & -> & HN & Hx).
        exists (n + n2)%nat. intros fuel Hfu h Hk Hv i' o' [X|X]; [|apply IH; [lia|exact Hk|exact Hv|exact X]]. injection X as <- <-.
        split; [lia|]. exists (map (fun x => get_pos (fst x)) nw), (get_pos (fst x)), (map (fun x => get_pos (fst x)) old), (Z.of_nat (length before)), g, stored. splits.
        - cbn [d_xrefs Open_Model.under document]. rewrite map_app. reflexivity.
        - apply Forall_map. exact HN.
        - exact Hx.
        - cbn [d_parse Open_Model.under document]. replace fuel with (n2 + (fuel - n2))%nat by lia. rewrite HP. reflexivity.
        - cbn [d_decipher Open_Model.under document option_map]. apply doc_decipher_ok; [apply HU; exact Hv|lia|exact Hg|rewrite Hk; exact HE]. }
      destruct HAll as (n2 & HAll). exists (n0 + n1 + n2)%nat. intros fuel f caching Hfu.
      destruct (HEnc fuel f caching ltac:(lia)) as (s1 & E1 & Hs1).
      set (D := document e getdata fuel xr) in *.
      destruct (Hopen (view md5 aes D caching (S f) None s1) (S f) ltac:(lia)) as (h & Eh & Hk & HP & Hv).
      assert (F1 : Faithful (under D (Some h)) E s1) by (intros i o o' _ HE Hz; exfalso; apply HE, Hs1; congruence).
      assert (HPr : forall off i, exists r, d_parse (under D (Some h)) off i = Ret r) by (intros; eexists; reflexivity).
      pose proof (HAll fuel ltac:(lia) h Hk Hv) as HRd. fold D in HRd.
      (* reading a dictionary through the handler *)
      assert (Rd : forall i o s, In (i, ODict o) objs -> Faithful (under D (Some h)) E s -> exists s', dictM md5 aes D caching (S f) (Some h) (ORef i) s = (Ok o, s') /\ Faithful (under D (Some h)) E s').
      { intros i o s Hin Hs. pose proof (reads_any _ E caching f i _ s (HRd _ _ Hin) (Hnot _ _ Hin) Hs) as G.
        pose proof (keeps_get (under D (Some h)) E caching HPr (S f) i s Hs) as K.
        destruct (getobj (under D (Some h)) caching (S f) i s) as [r s'] eqn:EG. cbn [fst snd] in G, K. subst r. exists s'. split; [|exact K].
        unfold dictM, mbind. cbn [resolveM]. rewrite EG. destruct f; reflexivity. }
      assert (HI : exists s2, (match dget d "Info" with None => ret (Ok []) | Some v => mbind (dictM md5 aes D caching (S f) (Some h) v) (fun x => ret (Ok ([] ++ [x]))) end) s1 = (Ok info, s2) /\
         Faithful (under D (Some h)) E s2).
      { destruct Hinfo as [(-> & ->)|(k & i & -> & Hin & ->)]; [exists s1; split; [reflexivity|exact F1]|].
        destruct (Rd k i s1 Hin F1) as (s2 & E2 & F2). exists s2. split; [|exact F2]. unfold mbind. rewrite E2. reflexivity. }
      destruct HI as (s2 & E2 & F2). destruct (Rd root cat s2 Hcat F2) as (s3 & E3 & F3).
      exists xr, h, s3. split; [unfold read_sections; rewrite (C63_startxref_partial _ _ _ Hb HS); cbn [bind]; rewrite E0 by lia; reflexivity|].
      cbn zeta. fold D. split; [|split; [exact HP|]].
      - rewrite Exs. assert (HC : forall t, t = d -> scan md5 sha256 aes D caching (S f) password (t :: xs) None [] dstate0 = (Ok (mkOpened cat info (Some h)), s3)).
        { intros [|kv t] Et; [rewrite <- Et in Henc; discriminate|]. cbn [scan]. rewrite Et. unfold set_encryption. rewrite Henc, Hid.
          unfold mbind at 1. unfold mbind at 1. unfold listM. unfold mbind at 1. cbn [resolveM ret].
          unfold mbind at 1. rewrite E1. cbn [as_list]. rewrite Eh. cbn [bind]. unfold mbind at 1. rewrite E2. rewrite Hroot. unfold mbind. rewrite E3. reflexivity. }
        apply HC. reflexivity.
      - intros ids k i o Hin Hk'. apply (C77_history_partial (under D (Some h)) E caching HPr f ids s3 F3 k i o (HRd _ _ Hin) (Hnot _ _ Hin) Hk').
    Qed.
    (* C77. The user password opens the file: the catalog, the information dictionary, the permissions, and, in every
       history of lookups, every object are the ones that were encrypted *)
    Theorem C77_user : forall R n meta O U owner user, V = 1 \/ V = 2 -> Supported param V R P n meta O U ->
      Protected md5 R n P id meta owner user O U key -> - 2 ^ 31 <= P < 2 ^ 31 -> latin1_password user ->
      exists n, forall fuel f caching, (n <= fuel)%nat -> exists xrefs h s, read_sections e getdata fuel = Ok xrefs /\
        let D := document e getdata fuel xrefs in
        scan md5 sha256 aes D caching (S f) user (map snd xrefs) None [] dstate0 = (Ok (mkOpened cat info (Some h)), s) /\
        h_p h = P /\
        forall ids k i o, In (i, o) objs -> nth_error ids k = Some i ->
          nth_error (lookups (under D (Some h)) caching (S f) s ids) k = Some (Ok o).
    Proof.
      intros R n meta O U owner user HV HSu HP HPr HL. apply open_document; [exact HV|]. intros get depth Hd.
      apply (C49_user_partial md5 sha256 md5_len aes get depth Hd param V R P n meta O U id _ owner user key HSu HP HPr eq_refl HL).
    Qed.
    (* and so does the owner password, if it does not pass itself for the user password *)
    Theorem C77_owner : forall R n meta O U owner user, V = 1 \/ V = 2 -> Supported param V R P n meta O U ->
      Protected md5 R n P id meta owner user O U key -> - 2 ^ 31 <= P < 2 ^ 31 -> latin1_password owner ->
      ~ U_matches md5 R id (document_key md5 R n O P id meta owner) U ->
      exists n, forall fuel f caching, (n <= fuel)%nat -> exists xrefs h s, read_sections e getdata fuel = Ok xrefs /\
        let D := document e getdata fuel xrefs in
        scan md5 sha256 aes D caching (S f) owner (map snd xrefs) None [] dstate0 = (Ok (mkOpened cat info (Some h)), s) /\
        h_p h = P /\
        forall ids k i o, In (i, o) objs -> nth_error ids k = Some i ->
          nth_error (lookups (under D (Some h)) caching (S f) s ids) k = Some (Ok o).
    Proof.
      intros R n meta O U owner user HV HSu HP HPr HL HN. apply open_document; [exact HV|]. intros get depth Hd.
      apply (C49_owner_partial md5 sha256 md5_len aes get depth Hd param V R P n meta O U id _ owner user key HSu HP HPr eq_refl HL HN).
    Qed.
  End document.
End c77.

(* C76. The permissions of a document: all of them without encryption, else bits 3, 4 and 5 (counted from 1) of P *)
Theorem C76_permissions : forall cat info h,
  (forall p, permission (mkOpened cat info None) p = true) /\
  permission (mkOpened cat info (Some h)) is_printable = Z.testbit (h_p h) 2 /\
  permission (mkOpened cat info (Some h)) is_modifiable = Z.testbit (h_p h) 3 /\
  permission (mkOpened cat info (Some h)) is_extractable = Z.testbit (h_p h) 4.
Proof. intros cat info h. split; [reflexivity|]. apply (C50_permissions h). Qed.

(* ---------- cases ---------- *)
Definition file4 : list Z := bs "%PDF-1.4
1 0 obj <</A 7>> endobj
2 0 obj <</Title(x)>> endobj
xref
1 2
0000000009 00000 n 
0000000033 00000 n 
trailer <</Root 1 0 R /Info 2 0 R>>
startxref
62
%%EOF
xref
0 0
trailer <</Info <</B 1>> /Prev 62>>
startxref
169
%%EOF
".
Definition opened_of md5 (text pw : list Z) : res opened :=
  let e := env0 text 7 true in
  do xr <- read_sections e (fun _ _ => Err PDFNotImplementedError) 90;
  fst (scan md5 (fun _ => []) (fun _ _ _ => Err PDFNotImplementedError) (document e (fun _ _ => Err PDFNotImplementedError) 90 xr) true 9 pw (map snd xr) None [] dstate0).
(* the newest trailer has no Root: its Info comes first, the catalog is that of the older trailer *)
Example C76_case : opened_of (fun _ => []) file4 [] =
  Ok (mkOpened [(ON "A", OInt 7)] [[(ON "B", OInt 1)]; [(ON "Title", OStr (bs "x"))]] None).
Proof. vm_compute. reflexivity. Qed.
Example C76_plain_case : forall found : Z -> res obj -> Prop, found 1 (Ok (ODict [(ON "A", OInt 7)])) -> found 2 (Ok (ODict [(ON "Title", OStr (bs "x"))])) ->
  Plain found [[(ON "Info", ODict [(ON "B", OInt 1)]); (ON "Prev", OInt 62)]; [(ON "Root", ORef 1); (ON "Info", ORef 2)]]
    [(ON "A", OInt 7)] [[(ON "B", OInt 1)]; [(ON "Title", OStr (bs "x"))]].
Proof.
  intros found H1 H2. apply (Plain_next found _ _ _ [[(ON "B", OInt 1)]] [[(ON "Title", OStr (bs "x"))]]); [reflexivity|reflexivity| |].
  - eapply Info_some; [reflexivity|]. eexists. split; [apply St_direct; discriminate|reflexivity].
  - eapply Plain_root; [reflexivity|reflexivity| |].
    + eexists. split; [eapply St_ref; [exact H1|apply St_direct; discriminate]|reflexivity].
    + eapply Info_some; [reflexivity|]. eexists. split; [eapply St_ref; [exact H2|apply St_direct; discriminate]|reflexivity].
Qed.

(* an encrypted file; a simple function stands for MD5 *)
Definition md5_0 (d : list Z) : list Z := map (fun i => Z.land (fold_left (fun v c => (v * 31 + c + i) mod 65521) d i) 255) (map Z.of_nat (seq 1 16)).
Lemma md5_0_len d : length (md5_0 d) = 16%nat.
Proof. unfold md5_0. rewrite !map_length, seq_length. reflexivity. Qed.
Definition hexd (d : Z) : Z := if d <? 10 then 48 + d else 87 + d.
Definition hex (l : list Z) : list Z := flat_map (fun c => [hexd (c / 16); hexd (c mod 16)]) l.
Definition id5 : list Z := bs "some-id-16-bytes".
Definition owner5 : list Z := bs "owner".
Definition user5 : list Z := bs "user".
Definition O5 : list Z := O_entry md5_0 3 16 owner5 user5.
Definition key5 : list Z := document_key md5_0 3 16 O5 (-44) id5 false user5.
Definition U5 : list Z := U_entry md5_0 3 id5 key5 ++ repeat 0 16.
Definition file5 : list Z := bs "%PDF-1.4
1 0 obj <</A [<" ++ hex (rc4 (object_key md5_0 key5 1 0 []) (bs "abc")) ++ bs "> 7] >> endobj
xref
1 1
0000000009 00000 n 
trailer <</Root 1 0 R /ID [<" ++ hex id5 ++ bs ">] /Encrypt <</Filter /Standard /V 2 /R 3 /Length 128 /P -44 /O <" ++ hex O5 ++ bs "> /U <" ++ hex U5 ++ bs "> >> >>
startxref
45
%%EOF
".
Definition brief (r : res opened) := match r with Ok o => Ok (op_catalog o, permission o is_printable, permission o is_modifiable, permission o is_extractable) | Err e => Err e end.
Example C77_case : brief (opened_of md5_0 file5 user5) = Ok ([(ON "A", OArr [OStr (bs "abc"); OInt 7])], true, false, true) /\
  brief (opened_of md5_0 file5 owner5) = Ok ([(ON "A", OArr [OStr (bs "abc"); OInt 7])], true, false, true) /\
  brief (opened_of md5_0 file5 (bs "guess")) = Err NameError.
Proof. vm_compute. repeat split. Qed.
Definition param5 : dict := [(ON "Filter", ON "Standard"); (ON "V", OInt 2); (ON "R", OInt 3); (ON "Length", OInt 128); (ON "P", OInt (-44));
  (ON "O", OStr O5); (ON "U", OStr U5)].
Example C77_hypotheses : Supported param5 2 3 (-44) 16 false O5 U5 /\ Protected md5_0 3 16 (-44) id5 false owner5 user5 O5 U5 key5 /\
  Encrypted (rc4 (object_key md5_0 key5 1 0 [])) (ODict [(ON "A", OArr [OStr (bs "abc"); OInt 7])])
    (ODict [(ON "A", OArr [OStr (rc4 (object_key md5_0 key5 1 0 []) (bs "abc")); OInt 7])]).
Proof.
  split; [|split].
  - apply (Sup_old param5 2 3 (-44) 128); [|lia|right; split; [reflexivity|split; [lia|reflexivity]]].
    unfold Common. repeat split; try reflexivity. left. reflexivity.
  - split; [reflexivity|]. split; [reflexivity|]. unfold U_matches. change (3 <=? 3) with true. exists (repeat 0 16). reflexivity.
  - apply Enc_dict. constructor; [|constructor]. split; [reflexivity|]. apply Enc_array. constructor; [apply Enc_string|]. constructor; [apply Enc_int|constructor].
Qed.
