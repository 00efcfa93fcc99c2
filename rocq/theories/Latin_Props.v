(* Property C100: the built-in encodings of fonts are the standard ones. *)
From Coq Require Import String.
From Verif Require Import Base Lex_Spec Obj Stack_Spec Stream_Spec Num Interp_Model CMap_Model CMap_Spec CMap_Proofs CMap_Props Font_Model Font_Spec Font_Props Total_Spec Font_Witness FontTotal_Spec FontTotal_Props
  Latin_Model Latin_Spec.
Open Scope Z_scope.

(* the glyph list has the names of the table, with the characters the Adobe Glyph List gives them (it has thousands more) *)
Definition HasLatin (glyphs : list Z -> option (list Z)) : Prop := forall n t, In (n, t) latin_glyphs -> glyphs (bs n) = Some t.

Lemma same_names glyphs l : (forall e, In e l -> let '(n, _, _, _, _) := e in glyphs n = latin_glyph n) ->
  forall sel m, build_encoding glyphs sel m l = build_encoding latin_glyph sel m l.
Proof.
  induction l as [|e l IH]; intros H sel m; [reflexivity|]. cbn [build_encoding]. pose proof (H e (or_introl eq_refl)) as He.
  destruct e as [[[[n a] b] c] d]. unfold name2unicode. rewrite He.
  destruct (match latin_glyph n with Some t => Ok t | None => _ end) as [t|]; [|reflexivity]. cbn [bind]. apply IH. intros e' He'. apply H. right. exact He'.
Qed.
Definition named (e : list Z * option Z * option Z * option Z * option Z) : bool :=
  let '(n, _, _, _, _) := e in existsb (fun g => list_eqb n (bs (fst g))) latin_glyphs.
Lemma all_named : forallb named latin_table = true.
Proof. vm_compute. reflexivity. Qed.
Lemma find_some {A} (p : A -> bool) l : existsb p l = true -> exists e, List.find p l = Some e /\ In e l /\ p e = true.
Proof.
  induction l as [|x l IH]; [discriminate|]. cbn [existsb List.find]. destruct (p x) eqn:E; intros H.
  - exists x. splits; [reflexivity|left; reflexivity|exact E].
  - destruct (IH H) as (e & F & I & P). exists e. splits; [exact F|right; exact I|exact P].
Qed.
Lemma latin_names glyphs : HasLatin glyphs -> forall e, In e latin_table -> let '(n, _, _, _, _) := e in glyphs n = latin_glyph n.
Proof.
  intros H e He. pose proof (proj1 (forallb_forall _ _) all_named e He) as E. destruct e as [[[[n a] b] c] d]. cbn [named] in E.
  unfold latin_glyph. destruct (find_some _ _ E) as ((n', t) & F & I & P). unfold latin_glyph. rewrite F. cbn [fst snd] in *. apply list_eqb_eq in P. subst n. apply H, I.
Qed.

(* the tables that the class builds *)
Definition tables : list umap := Eval vm_compute in match encodings latin_glyph latin_table with Ok l => l | Err _ => [] end.
Lemma tables_built glyphs : HasLatin glyphs -> encodings glyphs latin_table = Ok tables.
Proof.
  intros H. unfold encodings. rewrite !(same_names glyphs latin_table (latin_names _ H)). vm_compute. reflexivity.
Qed.
Lemma iget_none {A} (m : list (Z * A)) c : forallb (fun e => (0 <=? fst e) && (fst e <? 256)) m = true -> c < 0 \/ 256 <= c -> iget m c = None.
Proof.
  induction m as [|(k, v) m IH]; intros H Hc; [reflexivity|]. cbn [forallb fst] in H. apply andb_true_iff in H. destruct H as [H1 H2].
  cbn [iget]. destruct (Z.eqb_spec k c) as [->|]; [lia|]. apply IH; assumption.
Qed.
Definition zlen {A} (l : list A) : Z := Z.of_nat (length l).
(* the character of a code, computed *)
Fixpoint char_of (l : list (Z * list Z)) (c : Z) : option Z :=
  match l with
  | [] => None
  | (a, x) :: r => if (a <=? c) && (c <? a + zlen x) then nth_error x (Z.to_nat (c - a)) else char_of r c
  end.
Fixpoint apart (low : Z) (l : list (Z * list Z)) : bool :=
  match l with [] => true | (a, x) :: r => (low <=? a) && apart (a + zlen x) r end.
Lemma char_below l : forall low c, apart low l = true -> c < low -> forall a x k, In (a, x) l -> c = a + Z.of_nat k -> False.
Proof.
  induction l as [|(a', x') l IH]; intros low c H Hc a x k; [intros []|]. cbn [apart] in H. apply andb_true_iff in H. destruct H as [H1 H2].
  intros [E|I] Ek; [injection E as -> ->; lia|]. eapply (IH (a' + zlen x')); [exact H2| |exact I|exact Ek]. unfold zlen. lia.
Qed.
Lemma char_spec l : forall low c, apart low l = true -> forall ch, char_of l c = Some ch <-> exists a x k, In (a, x) l /\ c = a + Z.of_nat k /\ nth_error x k = Some ch.
Proof.
  induction l as [|(a, x) l IH]; intros low c H ch; cbn [char_of].
  - split; [discriminate|]. intros (? & ? & ? & [] & _).
  - cbn [apart] in H. apply andb_true_iff in H. destruct H as [H1 H2]. specialize (IH _ c H2 ch).
    destruct ((a <=? c) && (c <? a + zlen x)) eqn:E.
    + split.
      * intros Hn. exists a, x, (Z.to_nat (c - a)). splits; [left; reflexivity|lia|exact Hn].
      * intros (a' & x' & k & [Ei|I] & Ek & Hn).
        -- injection Ei as -> ->. replace (Z.to_nat (c - a')) with k by lia. exact Hn.
        -- exfalso. eapply (char_below l (a + zlen x) c H2); [lia|exact I|exact Ek].
    + rewrite IH. split.
      * intros (a' & x' & k & I & Ek & Hn). exists a', x', k. splits; [right; exact I|exact Ek|exact Hn].
      * intros (a' & x' & k & [Ei|I] & Ek & Hn); [|exists a', x', k; splits; assumption]. injection Ei as -> ->.
        assert (k < length x')%nat by (apply nth_error_Some; congruence). unfold zlen in E. lia.
Qed.
Lemma runs_apart e : apart 0 (runs e) = true.
Proof. destruct e; vm_compute; reflexivity. Qed.
Definition same_char (a : option (list Z)) (b : option Z) : bool :=
  match a, b with Some [x], Some y => x =? y | None, None => true | _, _ => false end.
Definition agree (e : encoding) (c : Z) : bool := same_char (iget (nth (base_addr (match e with Standard => bs "StandardEncoding" | MacRoman => bs "MacRomanEncoding" | WinAnsi => bs "WinAnsiEncoding" | PDFDoc => bs "PDFDocEncoding" end)) tables []) c) (char_of (runs e) c).
Definition codes256 : list Z := map Z.of_nat (List.seq 0 256).
Lemma agree_all e : forallb (fun c => agree e c || (match e with WinAnsi => c =? 173 | _ => false end)) codes256 = true.
Proof. destruct e; vm_compute; reflexivity. Qed.
Lemma table_range i : forallb (fun e => (0 <=? fst e) && (fst e <? 256)) (nth i tables []) = true.
Proof. do 4 (destruct i as [|i]; [vm_compute; reflexivity|]). destruct i; reflexivity. Qed.
Lemma runs_range e : forallb (fun r => (0 <=? fst r) && (fst r + zlen (snd r) <=? 256)) (runs e) = true.
Proof. destruct e; vm_compute; reflexivity. Qed.
Lemma char_none l : forall c, forallb (fun r => (0 <=? fst r) && (fst r + zlen (snd r) <=? 256)) l = true -> c < 0 \/ 256 <= c -> char_of l c = None.
Proof.
  induction l as [|(a, x) l IH]; intros c H Hc; [reflexivity|]. cbn [forallb fst snd] in H. apply andb_true_iff in H. destruct H as [H1 H2]. cbn [char_of].
  replace ((a <=? c) && (c <? a + zlen x)) with false by (unfold zlen in *; lia). apply IH; assumption.
Qed.
Lemma agrees n e c : Called n e -> e <> WinAnsi \/ c <> 173 -> same_char (iget (nth (base_addr n) tables []) c) (char_of (runs e) c) = true.
Proof.
  intros Hn He. assert (E : agree e c = same_char (iget (nth (base_addr n) tables []) c) (char_of (runs e) c)) by (destruct Hn; reflexivity). rewrite <- E. clear E.
  destruct (Z_lt_ge_dec c 0) as [Hc|Hc]; [|destruct (Z_lt_ge_dec c 256) as [Hc2|Hc2]].
  - unfold agree. rewrite iget_none by (first [apply table_range|lia]). rewrite char_none by (first [apply runs_range|lia]). reflexivity.
  - assert (I : In c codes256). { unfold codes256. apply in_map_iff. exists (Z.to_nat c). split; [lia|]. apply in_seq. lia. }
    pose proof (proj1 (forallb_forall _ _) (agree_all e) c I) as H. cbn beta in H. apply orb_true_iff in H. destruct H as [H|H]; [exact H|]. destruct e; try discriminate. apply Z.eqb_eq in H. destruct He as [He|He]; congruence.
  - unfold agree. rewrite iget_none by (first [apply table_range|lia]). rewrite char_none by (first [apply runs_range|lia]). reflexivity.
Qed.

(* C100. The encodings built into the library are those of the standard: every code has exactly the character the standard gives it,
   and codes without a character have none.  One code differs: 173 in WinAnsiEncoding (below). *)
Theorem C100_tables_partial glyphs n e : HasLatin glyphs -> Called n e -> exists bases, encodings glyphs latin_table = Ok bases /\
  forall c t, e <> WinAnsi \/ c <> 173 -> base bases n c = Some t <-> exists ch, t = [ch] /\ Assigned e c ch.
Proof.
  intros Hg Hn. exists tables. split; [apply tables_built, Hg|]. intros c t He. pose proof (agrees n e c Hn He) as H. unfold base, Assigned.
  split.
  - intros E. rewrite E in H. destruct t as [|x [|]]; try discriminate. destruct (char_of (runs e) c) as [y|] eqn:C; [|discriminate]. apply Z.eqb_eq in H. subst y.
    exists x. split; [reflexivity|]. apply (char_spec _ 0 c (runs_apart e)), C.
  - intros (ch & -> & A). apply (char_spec _ 0 c (runs_apart e)) in A. rewrite A in H. destruct (iget _ c) as [[|x [|]]|]; try discriminate. apply Z.eqb_eq in H. subst. reflexivity.
Qed.
(* code 173 of WinAnsiEncoding is a hyphen; the library says it is a space *)
Theorem C100_hyphen_refuted glyphs : HasLatin glyphs -> exists bases, encodings glyphs latin_table = Ok bases /\
  base bases (bs "WinAnsiEncoding") 173 = Some [32] /\ Assigned WinAnsi 173 45.
Proof.
  intros Hg. exists tables. splits; [apply tables_built, Hg|reflexivity|]. apply (char_spec _ 0 173 (runs_apart WinAnsi)). reflexivity.
Qed.
(* MacExpertEncoding, the fourth encoding a font may name, is not known: it is read as StandardEncoding *)
Theorem C100_expert_refuted bases c : base bases (bs "MacExpertEncoding") c = base bases (bs "StandardEncoding") c.
Proof. reflexivity. Qed.

(* the same for fonts: in a simple font (or a Type 3 font) without ToUnicode whose Encoding is one of the four names, every byte is a
   code, and the text of a code is the character the standard gives it *)
Theorem C100_font_partial getobj glyphs metrics load_cmap load_umap (get_data : nat -> obj -> res (list Z)) bufsiz (data : obj -> list Z -> Prop) bases :
  (0 < bufsiz)%nat -> (forall a r t, data (OStream a r) t -> Ev (fun d => get_data d (OStream a r) = Ok t)) ->
  HasLatin glyphs -> encodings glyphs latin_table = Ok bases ->
  forall spec codes texts n e, FontReads getobj glyphs bases metrics load_cmap load_umap data spec codes texts ->
    simple_type spec \/ dget spec "Subtype" = Some (ON "Type3") -> dget spec "ToUnicode" = None ->
    dget spec "Encoding" = Some (OName n) -> Called n e ->
  exists f m, (forall d fuel, (m <= d)%nat -> (m <= fuel)%nat -> make_font getobj d glyphs bases metrics load_cmap load_umap (get_data d) bufsiz fuel spec = Ok f) /\
    (forall s, decode f s = Ok s) /\
    forall c t, e <> WinAnsi \/ c <> 173 -> to_unichr f c = Some t <-> exists ch, t = [ch] /\ Assigned e c ch.
Proof.
  intros Hb Hd Hg HB spec codes texts n e HF HT HU HE Hn. destruct (C100_tables_partial glyphs n e Hg Hn) as (b & Eb & HA). rewrite HB in Eb. injection Eb as <-.
  assert (HL : codes = one_byte /\ forall c, texts c = base bases n c).
  { assert (EO : forall e', EncodingOf getobj glyphs bases spec e' -> forall c, e' c = base bases n c).
    { intros e' [n' HV|o d n' diff l H1 H2 H3 H4 H5 H6] c.
      - inversion HV as [H0 H1|o v H0 H1]; subst; [congruence|]. rewrite HE in H0. injection H0 as <-. inversion H1; subst. reflexivity.
      - rewrite HE in H1. injection H1 as <-. inversion H2. }
    assert (UO : forall asg, UnicodeOf getobj data spec asg -> asg = []) by (intros asg [H|o a r text exact ts asg' H]; [reflexivity|congruence]).
    assert (CO : forall d e', CodesOf getobj glyphs bases data spec d e' -> forall c, e' c = base bases n c).
    { intros d e' [e'' _ H|ff a r l1 k text exact ts asg l H]; [exact (EO _ H)|congruence]. }
    pose proof HF as HF2.
    inversion HF2 as [? n0 d cw asg e0 H1 H2 H3 H4 H5 H6 E1 E2 E3|? n0 d asg e0 H1 H2 H3 H4 H5 H6 H7 H8 H9 E1 E2 E3|? d bb mm asg e0 H1 H2 H3 H4 H5 H6 H7 H8 H9 H10 H11 E1 E2 E3
      |? n0 v ? c d ? H1|? x l sub sub' ? ? H1]; subst.
    - rewrite (UO _ H5). split; [reflexivity|]. intros c. cbn [last_for]. apply (CO _ _ H6).
    - rewrite (UO _ H8). split; [reflexivity|]. intros c. cbn [last_for]. apply (CO _ _ H9).
    - rewrite (UO _ H10). split; [reflexivity|]. intros c. cbn [last_for]. apply (EO _ H11).
    - exfalso. destruct H1 as (k & Hk & Ek). destruct HT as [HT|HT].
      + destruct HT as [HT|(k0 & HT & Hn0)]; [congruence|]. rewrite HT in Ek. unfold ON in Ek. injection Ek as ->. apply Hn0. apply in_map. destruct Hk as [<-|[<-|[]]]; cbn; tauto.
      + destruct Hk as [<-|[<-|[]]]; rewrite HT in Ek; discriminate.
    - exfalso. destruct HT as [HT|HT]; [|rewrite HT in H1; discriminate]. destruct HT as [HT|(k0 & HT & Hn0)]; [congruence|]. rewrite HT in H1. unfold ON in H1. injection H1 as ->. apply Hn0. left. reflexivity. }
  destruct HL as [-> HL]. destruct (C86_font _ _ _ _ _ _ _ _ _ Hb Hd _ _ _ HF) as (f & m & F & R1 & R2). exists f, m. splits; [exact F|intros s; apply R1; reflexivity|].
  intros c t Hc. rewrite R2, HL. apply HA, Hc.
Qed.

(* the hypotheses are met: the names are in the glyph list, and a TrueType font in WinAnsiEncoding reads the bytes of 'Euro' and 'e acute' *)
Definition win_font : list (obj * obj) := [nm "Subtype" (ON "TrueType"); nm "BaseFont" (ON "Arial"); nm "Encoding" (ON "WinAnsiEncoding")].
Example C100_hypotheses : HasLatin latin_glyph /\ (exists bases, encodings latin_glyph latin_table = Ok bases /\
  exists texts, FontReads fdoc latin_glyph bases (fun _ => None) (fun _ => None) (fun _ _ => None) fdata win_font one_byte texts /\
    simple_type win_font /\ dget win_font "ToUnicode" = None /\ dget win_font "Encoding" = Some (OName (bs "WinAnsiEncoding")) /\
    texts 128 = Some [8364] /\ texts 233 = Some [233] /\ texts 129 = None) /\
  Called (bs "WinAnsiEncoding") WinAnsi /\ Assigned WinAnsi 128 8364 /\ Assigned MacRoman 128 196 /\ Assigned Standard 174 64257 /\ Assigned PDFDoc 160 8364.
Proof.
  assert (HG : HasLatin latin_glyph).
  { assert (H : forallb (fun e => match latin_glyph (bs (fst e)) with Some t => list_eqb t (snd e) | None => false end) latin_glyphs = true) by (vm_compute; reflexivity).
    intros n t I. pose proof (proj1 (forallb_forall _ _) H _ I) as E. cbn [fst snd] in E. destruct (latin_glyph (bs n)); [|discriminate]. apply list_eqb_eq in E. subst. reflexivity. }
  split; [exact HG|]. split; [|splits; [constructor|..]; eapply char_spec; first [apply (runs_apart WinAnsi)|apply (runs_apart MacRoman)|apply (runs_apart Standard)|apply (runs_apart PDFDoc)|reflexivity]].
  exists tables. split; [apply tables_built, HG|]. eexists. splits; [eapply FR_simple with (n := bs "Arial") (d := [])|..].
  - right. exists (bs "TrueType"). split; [reflexivity|]. intros H. cbn [map In] in H. destruct H as [H|[H|[H|[H|[]]]]]; discriminate H.
  - left. reflexivity.
  - reflexivity.
  - apply V_absent. reflexivity.
  - apply sound_nil.
  - intros o H. discriminate H.
  - intros o H. discriminate H.
  - apply UO_none. reflexivity.
  - apply CO_entry; [right; reflexivity|]. apply EN_name. eapply V_present; [reflexivity|]. apply Leads_stop; discriminate.
  - right. exists (bs "TrueType"). split; [reflexivity|]. intros H. cbn [map In] in H. destruct H as [H|[H|[H|[H|[]]]]]; discriminate H.
  - reflexivity.
  - reflexivity.
  - reflexivity.
  - reflexivity.
  - reflexivity.
Qed.
