(* C24 (cross-reference streams) and C62 (cross-reference tables). *)
From Coq Require Import String.
From Verif Require Import Base PNG_Model PNG_Spec PNG_Proofs Lex_Model Lex_Chunk Lex_Spec Lex_Proofs Lines_Model Lines_Spec Lines_Proofs Obj Stack_Model Stack_Spec Stack_Proofs XRef_Model XRef_Spec XRef_Proofs Doc_Model Doc_Spec Witness.
From Coq Require Import ZifyBool ZifyNat.

(* ---------- C24 ---------- *)
(* For field widths 0, 1, 2, 3, 4 and 8 and any Index: the section that is loaded answers, for every object number it
   covers, with the place written for it, and with KeyError for free and reserved entries and numbers not covered *)
Theorem C24_get_pos_partial attrs w1 w2 w3 l : XRefAttrs attrs w1 w2 w3 l ->
  Forall (fun w => In w [0; 1; 2; 3; 4; 8]%nat) [w1; w2; w3] ->
  exists x, xs_load attrs (Ok (write_sections w1 w2 w3 l)) = Ok x /\
   (forall id e, EntryOf l id e -> entry_ok w1 w2 w3 e ->
      xs_get_pos x id = match place_of e with Some p => Ok p | None => Err KeyError end) /\
   (forall id, Uncovered l id -> xs_get_pos x id = Err KeyError).
Proof.
  intros HA HF. inversion HF as [|? ? H1 HF1]; subst. inversion HF1 as [|? ? H2 HF2]; subst. inversion HF2 as [|? ? H3 _]; subst.
  exists (xs_of w1 w2 w3 l). split; [apply xs_load_lemma; assumption|]. split.
  - intros id e HE He. apply xs_get_pos_lemma; assumption.
  - intros id HU. unfold xs_get_pos, xs_of. cbn [xs_ranges]. rewrite xs_index_none by exact HU. reflexivity.
Qed.
(* For one subsection the listed object numbers are exactly those with an entry in use *)
Theorem C24_objids_partial attrs w1 w2 w3 first es : XRefAttrs attrs w1 w2 w3 [(first, es)] ->
  In w1 [0; 1; 2; 3; 4; 8]%nat -> Forall (entry_ok w1 w2 w3) es ->
  exists x, xs_load attrs (Ok (write_sections w1 w2 w3 [(first, es)])) = Ok x /\ exists ids, xs_get_objids x = (ids, None) /\
    forall id, In id ids <-> exists e p, EntryOf [(first, es)] id e /\ place_of e = Some p.
Proof.
  intros HA Hw Ho. exists (xs_of w1 w2 w3 [(first, es)]). split; [apply xs_load_lemma; assumption|].
  destruct (xs_ids_lemma w1 w2 w3 first es Hw Ho es []) as [H|H]; [|contradiction]. cbn [app length] in H.
  eexists. split.
  { unfold xs_get_objids. cbn [xs_of xs_ranges map fst snd xs_ids]. rewrite Nat2Z.id, H. reflexivity. }
  assert (G : forall k e j, In (k, e) (combine (seq j (length es)) es) <-> (j <= k)%nat /\ nth_error es (k - j) = Some e).
  { intros k e. clear. induction es as [|x es IH]; intros j.
    - cbn. split; [contradiction|]. intros [_ H]. destruct (k - j)%nat; discriminate.
    - cbn [length seq combine In]. rewrite (IH (S j)). split.
      + intros [E|[A B]]; [injection E as -> ->; rewrite Nat.sub_diag; split; [lia|reflexivity]|].
        split; [lia|]. replace (k - j)%nat with (S (k - S j)) by lia. exact B.
      + intros [A B]. destruct (Nat.eq_dec j k) as [->|Hn]; [left; rewrite Nat.sub_diag in B; cbn in B; congruence|right].
        replace (k - j)%nat with (S (k - S j)) in B by lia. split; [lia|exact B]. }
  intros id. rewrite app_nil_r, in_flat_map. split.
  - intros ([k e] & Hin & Hid). cbn [fst snd] in Hid. destruct (place_of e) as [p|] eqn:Ep; [|destruct Hid]. destruct Hid as [<-|[]].
    apply G in Hin as [_ Hin]. rewrite Nat.sub_0_r in Hin.
    exists e, p. split; [|assumption]. exists [], (first, es), [], k. splits; [reflexivity|reflexivity|exact Hin|constructor].
  - intros (e & p & (pre & s & post & k & E & -> & Hk & _) & Hp).
    destruct pre as [|t [|t2 pre]]; try discriminate E. injection E as <- <-. cbn [fst snd] in *.
    exists (k, e). split; [apply G; rewrite Nat.sub_0_r; split; [lia|exact Hk]|]. cbn [fst snd]. rewrite Hp. left. reflexivity.
Qed.
(* Refuted: with two subsections the listing reads the entries of the first one again: object 8 is in use but free
   object 7 is listed instead *)
Theorem C24_objids_two_subsections_refuted :
  let l := [(1, [InUse 15 0]); (7, [Free 0 0; InUse 20 0])] in
  xs_get_objids (xs_of 1 2 1 l) = ([1; 7], None) /\ EntryOf l 7 (Free 0 0) /\ EntryOf l 8 (InUse 20 0).
Proof.
  cbn zeta. split; [vm_compute; reflexivity|]. split.
  - exists [(1, [InUse 15 0])], (7, [Free 0 0; InUse 20 0]), [], 0%nat. splits; [reflexivity|reflexivity|reflexivity|].
    constructor; [unfold covers; cbn; lia|constructor].
  - exists [(1, [InUse 15 0])], (7, [Free 0 0; InUse 20 0]), [], 1%nat. splits; [reflexivity|reflexivity|reflexivity|].
    constructor; [unfold covers; cbn; lia|constructor].
Qed.
(* Refuted: field widths 5, 6, 7 (valid: offsets of files over 4 GB need 5) raise TypeError *)
Theorem C24_width5_refuted : xs_get_pos (xs_of 1 5 1 [(3, [InUse 15 0])]) 3 = Err TypeError.
Proof. vm_compute. reflexivity. Qed.
(* the general case of it: any field of width 5, 6 or 7 *)
Theorem C24_wide_general_refuted w v d : In w [5; 6; 7]%nat -> nunpack (be_encode w v) d = Err TypeError.
Proof. intros [<-|[<-|[<-|[]]]]; reflexivity. Qed.
Example C24_case : XRefAttrs [(ON "Type", ON "XRef"); (ON "Size", OInt 9); (ON "Index", OArr [OInt 1; OInt 1; OInt 7; OInt 3]); (ON "W", OArr [OInt 1; OInt 2; OInt 0])] 1 2 0
    [(1, [InUse 15 0]); (7, [Free 3 0; InUse 513 0; Reserved 9 1 0])] /\
  xs_get_pos (xs_of 1 2 0 [(1, [InUse 15 0]); (7, [Free 3 0; InUse 513 0; Reserved 9 1 0])]) 8 = Ok (None, 513, 0).
Proof. split; [|vm_compute; reflexivity]. split; [reflexivity|split; [reflexivity|]]. exists 9. split; [reflexivity|left; reflexivity]. Qed.

(* ---------- C62 ---------- *)
(* The text of a cross-reference table, in whatever chunks it arrives (st: a reader positioned at it): what is loaded
   answers for each object number as written, and the position of the trailer is reported *)
Theorem C62_table st pos secs text trailer tail : 
  lview st (text ++ trailer ++ tail) pos -> XTable secs text (trailer ++ tail) -> Disjoint secs ->
  Line trailer tail -> (exists s, trailer = bs "trailer" ++ s) ->
  exists n offs, (forall f, xt_load (n + f) st [] = Ok (offs, pos + Z.of_nat (length text))) /\
   (forall id e, EntryOf secs id e -> zget offs id = match e with InUse off gen => Some (None, off, gen) | _ => None end) /\
   (forall id, Uncovered secs id -> zget offs id = None).
Proof.
  intros V HT HD HL (s & Hs).
  destruct (xt_load_lemma secs text (trailer ++ tail) HT tail trailer st [] pos eq_refl HL) as (n & En); [subst trailer; reflexivity|exact V|].
  exists n, (add_sections [] secs). splits.
  - exact En.
  - intros id e He. rewrite (add_sections_get _ _ _ _ HD He). destruct e; reflexivity.
  - intros id HU. rewrite add_sections_uncovered by exact HU. reflexivity.
Qed.
(* Refuted: what cannot be read as a table raises NameError, since PDFNoValidXRef is not imported in PDFXRef.py; the
   constructor catches PDFNoValidXRef only, so the recovery scan that should follow is never reached *)
Theorem C62_damaged_subsection_refuted : forall f cs, concat cs = bs "0 x1 junk
trailer
" -> nonempty cs -> xt_load (2 + f) (0, [], cs) [] = Err NameError.
Proof.
  intros f cs Hc Hn. destruct (lnext_lemma (0, [], cs) (bs "0 x1 junk" ++ [10]) (bs "trailer" ++ [10]) 0) as (st' & E & _).
  - split; [reflexivity|]. split; [cbn [app]; rewrite Hc; reflexivity|assumption].
  - constructor. repeat constructor; cbn; unfold eol_byte; lia.
  - cbn [Nat.add xt_load]. rewrite E. reflexivity.
Qed.
Theorem C62_missing_trailer_refuted pos f : xt_load (S f) (pos, [], []) [] = Err NameError.
Proof. reflexivity. Qed.
Lemma C62_case_hyps : XTable [(0, [Free 0 65535; InUse 17 0]); (5, [InUse 81 2])] (bs "0 2
0000000000 65535 f 
0000000017 00000 n 
  
5 1
0000000081 00002 n 
") (bs "trailer" ++ [10]).
Proof.
  apply (XT_sub 0 [Free 0 65535; InUse 17 0] (bs "0") (bs "2") (bs "0 2" ++ [10]) (bs "0000000000 65535 f 
0000000017 00000 n 
") [(5, [InUse 81 2])] (bs "  
5 1
0000000081 00002 n 
")).
  - apply dec_eq; [reflexivity|discriminate|reflexivity].
  - apply dec_eq; [reflexivity|discriminate|reflexivity].
  - apply (textline_ok _ [] [10]); [reflexivity|constructor|constructor|discriminate].
  - apply (XE_cons _ _ (bs "0000000000 65535 f") (bs "0000000000 65535 f " ++ [10]) (bs "0000000017 00000 n " ++ [10])).
    + apply (XT_f 0 65535 (bs "0000000000") (bs "65535")); apply dec_eq; [reflexivity|discriminate|reflexivity|reflexivity|discriminate|reflexivity].
    + apply (textline_ok _ [32] [10]); [reflexivity|repeat constructor|constructor|discriminate].
    + apply (XE_cons _ _ (bs "0000000017 00000 n") (bs "0000000017 00000 n " ++ [10]) []).
      * apply (XT_n 17 0 (bs "0000000017") (bs "00000")); apply dec_eq; [reflexivity|discriminate|reflexivity|reflexivity|discriminate|reflexivity].
      * apply (textline_ok _ [32] [10]); [reflexivity|repeat constructor|constructor|discriminate].
      * constructor.
  - apply (XT_blank (bs "  " ++ [10])); [apply (textline_ok _ [32; 32] [10]); [reflexivity|repeat constructor|constructor|discriminate]|].
    apply (XT_sub 5 [InUse 81 2] (bs "5") (bs "1") (bs "5 1" ++ [10]) (bs "0000000081 00002 n " ++ [10]) [] []).
    + apply dec_eq; [reflexivity|discriminate|reflexivity].
    + apply dec_eq; [reflexivity|discriminate|reflexivity].
    + apply (textline_ok _ [] [10]); [reflexivity|constructor|constructor|discriminate].
    + apply (XE_cons _ _ (bs "0000000081 00002 n") (bs "0000000081 00002 n " ++ [10]) []).
      * apply (XT_n 81 2 (bs "0000000081") (bs "00002")); apply dec_eq; [reflexivity|discriminate|reflexivity|reflexivity|discriminate|reflexivity].
      * apply (textline_ok _ [32] [10]); [reflexivity|repeat constructor|constructor|discriminate].
      * constructor.
    + constructor.
Qed.
