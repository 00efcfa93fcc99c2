(* C97. Composite fonts with an embedded TrueType program. *)
From Coq Require Import String.
From Verif Require Import Base Obj Stream_Spec Num Geom_Model Page_Model Interp_Model CMap_Model CMap_Proofs CMap_Props TrueType_Model TrueType_Spec TrueType_Proofs Font_Model Font_Spec Font_Proofs Font_Props Font_Witness
  Total_Spec FontTotal_Spec FontTotal_Props.
From Coq Require Import ZifyBool ZifyNat.
Open Scope Z_scope.

Lemma value_str getobj n d k s0 s x : Value getobj d k (OStr s0) (OStr s) -> resolved getobj n (get_or d k (OStr s0)) = Ok x -> x = OStr s.
Proof.
  intros H E. apply value_get_or in H as [[R H]|H]; [rewrite R in E|eapply resolved_leads; eassumption].
  injection H as ->. unfold resolved in E. destruct n; cbn in E; [discriminate|]. congruence.
Qed.

Section fonts.
  Context (getobj : Z -> option obj) (glyphs : list Z -> option (list Z)) (bases : list umap)
          (metrics : list Z -> option (dict * list (list Z * num)))
          (load_cmap : list Z -> option (bool * list (Z * trie))) (load_umap : list Z -> bool -> option umap).

  (* C97, refuted. A CID font whose glyphs are those of an embedded TrueType program, with no other account of its characters: the map
     of the program gives the character of each glyph.  No character of any such font is given, whatever the program. *)
  Theorem C97_program_refuted : forall depth (get_data : obj -> res (list Z)) bufsiz fuel spec f c, subtype spec CID ->
    make_font getobj depth glyphs bases metrics load_cmap load_umap get_data bufsiz fuel spec = Ok f -> dget spec "ToUnicode" = None ->
    Collection getobj spec c -> c = bs "Adobe-Identity" \/ c = bs "Adobe-UCS" ->
    forall d ff a r program, Value getobj spec "FontDescriptor" (ODict []) (ODict d) -> dget d "FontFile2" = Some ff ->
    Leads getobj ONull ff (OStream a r) -> get_data (OStream a r) = Ok program ->
    forall char glyph, Glyph program char glyph -> to_unichr f glyph = None.
  Proof.
    intros depth get_data bufsiz fuel spec f c HS HF HT (info & rg & od & I1 & I2 & I3 & Ec) HC d ff a r program _ _ _ _ char g _. rewrite make_cid in HF by assumption.
    unfold Font_Model.cid_font in HF. rewrite HT in HF. steps.
    apply (value_dict _ _ _ _ _ _ _ I1) in E. subst a0. apply (value_str _ _ _ _ _ _ _ I2) in E0. apply (value_str _ _ _ _ _ _ _ I3) in E1. subst a1 a2.
    cbn [latin1] in E2, E3. injection E2 as <-. injection E3 as <-. change (bs "-") with [45] in Ec. rewrite <- Ec in E7.
    replace (list_eqb c (bs "Adobe-Identity") || list_eqb c (bs "Adobe-UCS")) with true in E7 by (destruct HC as [-> | ->]; reflexivity).
    rewrite program_none in E7. injection E7 as <-.
    assert (G : pf_umap f = None /\ pf_enc f = None).
    { destruct (cmap_vertical _); steps.
      - destruct (get_or spec "DW2" _); try discriminate. destruct l as [|x [|y [|z l]]]; try discriminate. unfold base_font in HF. steps. subst f. split; reflexivity.
      - unfold base_font in HF. steps. subst f. split; reflexivity. }
    destruct G as [G1 G2]. unfold to_unichr. rewrite G1, G2. reflexivity.
  Qed.
  (* What holds: whatever the program says, it does not keep the font from being read. *)
  Theorem C97_program_harmless (get_data : nat -> obj -> res (list Z)) bufsiz (data : obj -> list Z -> Prop) : (0 < bufsiz)%nat ->
    (forall a r t, data (OStream a r) t -> exists n, forall d, (n <= d)%nat -> get_data d (OStream a r) = Ok t) ->
    forall spec n v codes c d texts a r program, subtype spec CID -> dget spec "Encoding" = Some (OName n) -> CMapOf load_cmap n v codes -> Collection getobj spec c ->
      Value getobj spec "FontDescriptor" (ODict []) (ODict d) -> Sound getobj d -> dget d "FontFile2" = Some (OStream a r) -> data (OStream a r) program ->
      (v = false -> exists w decl, Value getobj spec "W" (OArr []) (OArr w) /\ Entries WEntry w decl) ->
      (v = true -> (exists w decl, Value getobj spec "W2" (OArr []) (OArr w) /\ Entries W2Entry w decl) /\
                   (forall o, dget spec "DW2" = Some o -> exists a b, o = OArr [a; b])) ->
      CidTexts getobj load_umap data spec v c texts ->
    exists f n, (forall d fuel, (n <= d)%nat -> (n <= fuel)%nat -> make_font getobj d glyphs bases metrics load_cmap load_umap (get_data d) bufsiz fuel spec = Ok f) /\
      (forall s cids, codes s cids -> decode f s = Ok cids) /\ (forall c, to_unichr f c = texts c).
  Proof.
    intros Hb Hd spec n v codes c d texts a r program H1 H2 H3 H4 H5 H6 H7 H8 H9 H10 H11.
    eapply C86_font; [exact Hb|exact Hd|]. eapply FR_cid; try eassumption.
    intros ff E. rewrite H7 in E. injection E as <-. exists a, r, program. split; [apply Leads_stop; discriminate|exact H8].
  Qed.
End fonts.

(* ---------- a case: a program with a map of format 0 (A is glyph 1) and one of format 4 (B is glyph 2, C is glyph 7) ---------- *)
Definition program : list Z :=
  [0; 1; 0; 0; 0; 1; 0; 0; 0; 0; 0; 0] ++ bs "cmap" ++ [0; 0; 0; 0; 0; 0; 0; 28; 0; 0; 1; 64] ++
  [0; 0; 0; 2; 0; 1; 0; 0; 0; 0; 0; 20; 0; 3; 0; 1; 0; 0; 1; 26] ++
  [0; 0; 1; 6; 0; 0] ++ repeat 0 65 ++ [1] ++ repeat 0 190 ++
  [0; 4; 0; 34; 0; 0; 0; 4; 0; 0; 0; 0; 0; 0; 0; 66; 0; 67; 0; 0; 0; 66; 0; 67; 255; 192; 0; 0; 0; 0; 0; 2; 0; 7].
Definition tt_spec : dict := [nm "Subtype" (ON "CIDFontType2"); nm "Encoding" (ON "Identity-H");
  nm "CIDSystemInfo" (ODict [nm "Registry" (OStr (bs "Adobe")); nm "Ordering" (OStr (bs "Identity"))]);
  nm "FontDescriptor" (ODict [nm "FontFile2" (OStream [] program)])].
Definition raw_data (o : obj) : res (list Z) := match o with OStream _ r => Ok r | _ => Err TypeError end.
Example C97_hypotheses : Glyph program 65 1 /\ Glyph program 66 2 /\ Glyph program 67 7 /\ subtype tt_spec CID /\
  Collection fdoc tt_spec (bs "Adobe-Identity") /\ Value fdoc tt_spec "FontDescriptor" (ODict []) (ODict [nm "FontFile2" (OStream [] program)]) /\
  (exists f, make_font fdoc 5 two_glyphs fbases helv (fun _ => None) (fun _ _ => None) raw_data 4096 5 tt_spec = Ok f /\ to_unichr f 1 = None) /\
  FontReads fdoc two_glyphs fbases helv (fun _ => None) (fun _ _ => None) fdata tt_spec two_bytes (fun _ => None).
Proof.
  assert (T : TableAt program "cmap" 28) by (exists 0; splits; try reflexivity; vm_compute; congruence).
  assert (S0 : SubtableAt program 48) by (exists 28, 0; split; [exact T|]; splits; try reflexivity; vm_compute; congruence).
  assert (S4 : SubtableAt program 310) by (exists 28, 1; split; [exact T|]; splits; try reflexivity; vm_compute; congruence).
  splits.
  - exists 48. split; [exact S0|]. left. splits; try reflexivity; try lia.
  - exists 310. split; [exact S4|]. right. split; [reflexivity|]. exists 2, 0. split; [reflexivity|]. split; [lia|]. cbv zeta. split; [vm_compute; split; congruence|]. left. split; reflexivity.
  - exists 310. split; [exact S4|]. right. split; [reflexivity|]. exists 2, 1. split; [reflexivity|]. split; [lia|]. cbv zeta. split; [vm_compute; split; congruence|]. right. split; [vm_compute; congruence|reflexivity].
  - exists "CIDFontType2"%string. split; [right; left; reflexivity|reflexivity].
  - exists [nm "Registry" (OStr (bs "Adobe")); nm "Ordering" (OStr (bs "Identity"))], (bs "Adobe"), (bs "Identity").
    splits; try (eapply V_present; [reflexivity|]; apply Leads_stop; discriminate). reflexivity.
  - eapply V_present; [reflexivity|]. apply Leads_stop; discriminate.
  - eexists. split; [vm_compute; reflexivity|reflexivity].
  - eapply FR_cid with (n := bs "Identity-H") (v := false) (c := bs "Adobe-Identity") (d := [nm "FontFile2" (OStream [] program)]).
    + exists "CIDFontType2"%string. split; [right; left; reflexivity|reflexivity].
    + reflexivity.
    + apply CM_h.
    + exists [nm "Registry" (OStr (bs "Adobe")); nm "Ordering" (OStr (bs "Identity"))], (bs "Adobe"), (bs "Identity").
      splits; try (eapply V_present; [reflexivity|]; apply Leads_stop; discriminate). reflexivity.
    + eapply V_present; [reflexivity|]. apply Leads_stop; discriminate.
    + repeat constructor; intros o H; discriminate H.
    + intros ff H. injection H as <-. exists [], program, program. split; [apply Leads_stop; discriminate|exists []; reflexivity].
    + intros _. exists [], []. split; [apply V_absent; reflexivity|constructor].
    + discriminate.
    + apply CT_none; [reflexivity|left; reflexivity].
Qed.
