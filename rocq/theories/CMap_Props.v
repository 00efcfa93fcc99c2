(* Properties C44-C47, C67, C70: character maps, encodings, glyph names, font program headers. *)
From Coq Require Import String.
From Verif Require Import Base Lex_Model Lex_Spec Lex_Proofs Obj Stack_Model Stack_Spec Stack_Proofs CMap_Model CMap_Spec CMap_Proofs Enc_Proofs Witness.
From Coq Require Import ZifyBool ZifyNat.

(* C45. For every prefix-free code map, entering its codes one by one succeeds, and decoding any text with the result is exactly
   cutting it into codes: Seg is a function of the text. *)
Theorem C45_segmentation : forall m, prefix_free m ->
  exists d, add_codes [] m = Ok d /\ forall text cids, Seg m text cids <-> cmap_decode d d text = cids.
Proof.
  intros m Hm. destruct (rep_adds m [] [] rep_nil Hm) as (d & E & HR). exists d. split; [exact E|].
  intros text cids. split.
  - intros HS. symmetry. apply (seg_decode d m HR (proj1 Hm) text cids HS).
  - intros <-. apply (decode_seg d m HR text [] d). reflexivity.
Qed.
(* in particular the concatenation of codes decodes to their values, in order *)
Theorem C45_concatenation : forall m seq, prefix_free m -> (forall c v, In (c, v) seq -> In (c, v) m) ->
  exists d, add_codes [] m = Ok d /\ cmap_decode d d (concat (map fst seq)) = map snd seq.
Proof.
  intros m l Hm Hl. destruct (C45_segmentation m Hm) as (d & E & HS). exists d. split; [exact E|]. apply HS.
  induction l as [|[c v] l IH]; cbn [map concat fst snd].
  - apply Seg_end. left. reflexivity.
  - apply Seg_code; [apply Hl; left; reflexivity|]. apply IH. intros c' v' Hi. apply Hl. right. exact Hi.
Qed.
(* and the order in which the codes are entered does not matter *)
Theorem C45_order : forall m m', prefix_free m -> (forall x, In x m <-> In x m') ->
  exists d d', add_codes [] m = Ok d /\ add_codes [] m' = Ok d' /\ forall text, cmap_decode d d text = cmap_decode d' d' text.
Proof.
  intros m m' Hm Hi.
  assert (Hm' : prefix_free m').
  { destruct Hm as [H1 H2]. split; [intros c v H; apply (H1 c v), Hi; exact H|].
    intros c v c' v' H H'. apply (H2 c v c' v'); apply Hi; assumption. }
  destruct (C45_segmentation m Hm) as (d & E & HS). destruct (C45_segmentation m' Hm') as (d' & E' & HS').
  exists d, d'. splits; [exact E|exact E'|]. intros text. apply HS. 
  assert (HT : forall t o, Seg m' t o -> Seg m t o).
  { assert (HB : forall p, p = [] \/ Begins m' p -> p = [] \/ Begins m p).
    { intros p [->|(c & v & H & H')]; [left; reflexivity|right]. exists c, v. split; [apply Hi; exact H|exact H']. }
    induction 1 as [p Hp|c v rest out Hc HS0 IH|p i rest out Hp Hbad HS0 IH].
    - apply Seg_end. apply HB. exact Hp.
    - apply Seg_code; [apply Hi; exact Hc|exact IH].
    - apply Seg_bad; [apply HB; exact Hp| |exact IH]. intros c v H. apply Hbad with v. apply Hi. exact H. }
  apply HT. apply HS'. reflexivity.
Qed.
(* a mixed one- and two-byte map: 80 a2 00 is a two-byte code, an unmapped byte and a broken two-byte code *)
Example C45_example :
  let m := [([1], 11); ([2], 12); ([129; 64], 300); ([129; 65], 301)] in
  prefix_free m /\ exists d, add_codes [] m = Ok d /\
  cmap_decode d d [1; 129; 65; 2; 129; 64; 77; 129; 9; 1; 129] = [11; 301; 12; 300; 11].
Proof.
  split.
  - split.
    + intros c v H. cbn in H. repeat destruct H as [H|H]; try (injection H as <- <-; discriminate). destruct H.
    + intros c v c' v' H H' [r Hr]. cbn in H, H'.
      repeat destruct H as [H|H]; repeat destruct H' as [H'|H']; try contradiction; injection H as <- <-; injection H' as <- <-;
        try discriminate Hr; split; reflexivity.
  - eexists. split; [reflexivity|]. reflexivity.
Qed.
(* without prefix-freeness the code fails: a code that is the beginning of another makes entering the other impossible *)
Example C45_overlap : add_codes [] [([1], 11); ([1; 2], 12)] = Err TypeError.
Proof. reflexivity. Qed.

(* C47. The identity map reads two bytes per character. *)
Theorem C47_identity : forall cids, Forall (fun c => 0 <= c < 65536) cids -> identity_decode (flat_map (be 2) cids) = Ok cids.
Proof.
  intros cids H.
  assert (L : length (flat_map (be 2) cids) = (2 * length cids)%nat).
  { clear H. induction cids as [|c cids IH]; [reflexivity|]. cbn [flat_map]. rewrite app_length, be_length, IH. cbn [length]. lia. }
  assert (E : pairs16 (flat_map (be 2) cids) = cids).
  { clear L. induction H as [|c cids Hc Hcs IH]; [reflexivity|]. cbn [flat_map]. rewrite pairs16_app by reflexivity.
    rewrite pairs_be2 by exact Hc. rewrite IH. reflexivity. }
  unfold identity_decode. rewrite L.
  replace (2 * length cids / 2)%nat with (length cids) by (rewrite Nat.mul_comm, Nat.div_mul; lia).
  destruct cids as [|c cids]; [reflexivity|]. cbn [length]. rewrite Nat.eqb_refl, E. reflexivity.
Qed.
(* every string of even length is such an encoding, so it is decoded; an odd one is not (a lone last byte is dropped only if it
   is the whole string) *)
Theorem C47_even : forall s, bytes s -> Nat.even (length s) = true ->
  exists cids, identity_decode s = Ok cids /\ flat_map (be 2) cids = s /\ length s = (2 * length cids)%nat.
Proof.
  intros s Hs He.
  assert (H : exists cids, flat_map (be 2) cids = s /\ Forall (fun c => 0 <= c < 65536) cids /\ length s = (2 * length cids)%nat).
  { revert Hs He. assert (G : forall n s, (length s <= n)%nat -> bytes s -> Nat.even (length s) = true ->
      exists cids, flat_map (be 2) cids = s /\ Forall (fun c => 0 <= c < 65536) cids /\ length s = (2 * length cids)%nat).
    { induction n as [|n IH]; intros [|x [|y r]] Hn Hb He; try discriminate; cbn [length] in Hn; try lia;
        try (exists []; splits; [reflexivity|constructor|reflexivity]).
      inversion_clear Hb as [|? ? Hx Hb']. inversion_clear Hb' as [|? ? Hy Hb2]. unfold is_byte in Hx, Hy.
      destruct (IH r ltac:(lia) Hb2 He) as (cids & E & F & L). exists (x * 256 + y :: cids). splits.
      - cbn [flat_map]. rewrite E. cbn [be app]. f_equal; [|f_equal]; Z.div_mod_to_equations; lia.
      - constructor; [lia|exact F].
      - cbn [length]. lia. }
    apply (G (length s)). lia. }
  destruct H as (cids & E & F & L). exists cids. splits; [|exact E|exact L]. rewrite <- E. apply C47_identity. exact F.
Qed.
Theorem C47_odd : forall s, Nat.even (length s) = false ->
  identity_decode s = match s with [_] => Ok [] | _ => Err StructError end.
Proof.
  intros s He. unfold identity_decode. destruct s as [|x [|y r]]; [discriminate|reflexivity|].
  assert (H : length (x :: y :: r) <> (2 * (length (x :: y :: r) / 2))%nat).
  { intros H. rewrite H in He. rewrite Nat.even_mul in He. discriminate. }
  assert (H2 : (length (x :: y :: r) / 2 <> 0)%nat).
  { cbn [length]. intros H0. apply Nat.div_small_iff in H0; lia. }
  destruct (length (x :: y :: r) / 2)%nat as [|n]; [congruence|]. rewrite (proj2 (Nat.eqb_neq _ _) H). reflexivity.
Qed.
Example C47_example : identity_decode [0; 65; 18; 52] = Ok [65; 4660] /\ identity_decode [0; 65; 18] = Err StructError /\ identity_decode [7] = Ok [].
Proof. splits; reflexivity. Qed.

(* C46. Reading a ToUnicode program, laid out in any way and read with buffers of any size, gives each code the text assigned to
   it last, and no text to the other codes. *)
Theorem C46_tounicode_partial : forall glyphs bufsiz exact ts text asg, (0 < bufsiz)%nat ->
  Layout exact 0 ts text -> Program [] (map snd ts) asg ->
  exists m, cmap_run glyphs bufsiz text = Ok m /\ forall code, iget m code = last_for asg code.
Proof.
  intros glyphs bufsiz exact ts text asg Hb HL HP. destruct (data_tokens exact bufsiz ts text Hb HL) as (pts & Et & Ep).
  destruct (program_lemma glyphs [] (map snd ts) asg HP pts [] stk0 Ep eq_refl) as (c & s' & E & U).
  exists (cm_map c). unfold cmap_run, cmap_tokens. rewrite Et, E. split; [reflexivity|].
  intros k. rewrite U. destruct (last_for asg k); reflexivity.
Qed.
(* what C46_tounicode_partial says about one range: every code of the range gets its text if nothing later assigns it *)
Theorem C46_range : forall lo hi t c i, code_len lo -> length hi = length lo -> num_of lo <= num_of hi -> Forall scalar t ->
  0 <= c -> c + (num_of hi - num_of lo) < 55296 -> 0 <= i <= num_of hi - num_of lo ->
  exists asg, RangeLine [OStr lo; OStr hi; OStr (utf16_of (t ++ [c]))] asg /\ last_for asg (num_of lo + i) = Some (t ++ [c + i]) /\
    (forall k, last_for asg k <> None -> num_of lo <= k <= num_of hi).
Proof.
  intros lo hi t c i Hl Hh Hle Ht Hc Hc2 Hi. eexists. splits; [apply BfRange; try assumption; left; assumption| |].
  - set (n := Z.to_nat (num_of hi - num_of lo + 1)).
    assert (G : forall m s k, (s <= k < s + m)%nat ->
      last_for (map (fun j => (num_of lo + Z.of_nat j, t ++ [c + Z.of_nat j])) (seq s m)) (num_of lo + Z.of_nat k) = Some (t ++ [c + Z.of_nat k])).
    { induction m as [|m IH]; intros s k Hk; [lia|]. cbn [seq map last_for]. destruct (Nat.eq_dec s k) as [->|Hn].
      - match goal with |- match ?x with _ => _ end = _ => assert (Hx : x = None) end.
        { clear. assert (G : forall m s, (k < s)%nat -> last_for (map (fun j => (num_of lo + Z.of_nat j, t ++ [c + Z.of_nat j])) (seq s m)) (num_of lo + Z.of_nat k) = None).
          { intros m1; induction m1 as [|m1 IH]; intros s Hs; [reflexivity|]. cbn [seq map last_for]. rewrite IH by lia.
            replace (num_of lo + Z.of_nat s =? num_of lo + Z.of_nat k) with false by lia. reflexivity. }
          apply G. lia. }
        rewrite Hx, Z.eqb_refl. reflexivity.
      - rewrite IH by lia. reflexivity. }
    replace i with (Z.of_nat (Z.to_nat i)) by lia. apply G. lia.
  - intros k. assert (G : forall l, (forall x, In x l -> num_of lo <= fst x <= num_of hi) -> @last_for (list Z) l k <> None -> num_of lo <= k <= num_of hi).
    { induction l as [|[a v] l IH]; intros Hx Hk; [cbn in Hk; congruence|]. cbn [last_for] in Hk.
      destruct (last_for l k) eqn:E; [apply IH; [intros x Hin; apply Hx; right; exact Hin|discriminate]|].
      destruct (Z.eqb_spec a k) as [->|]; [|congruence]. apply (Hx (k, v)). left. reflexivity. }
    apply G. intros x Hx. apply in_map_iff in Hx as (j & <- & Hj). apply in_seq in Hj. cbn [fst]. lia.
Qed.
(* C46: beyond the low bytes the count wraps around instead of carrying: <FFFF> counted up once is <0000> *)
Theorem C46_wrap_refuted : forall glyphs, exists m,
  cmap_run glyphs 4096 (bs "beginbfrange <01> <02> <FFFF> endbfrange ") = Ok m /\ iget m 2 = Some [0].
Proof. intros glyphs. eexists. split; [vm_compute; reflexivity|reflexivity]. Qed.
(* C46: an array shorter than the range raises IndexError and the font cannot be built *)
Theorem C46_short_array_refuted : forall glyphs,
  cmap_run glyphs 4096 (bs "beginbfrange <01> <03> [<0041> <0042>] endbfrange ") = Err IndexError.
Proof. intros glyphs. vm_compute. reflexivity. Qed.
(* C46: a character mapped to a glyph name (allowed by Technical Note 5411) is ignored *)
Theorem C46_name_refuted : forall glyphs,
  cmap_run glyphs 4096 (bs "beginbfchar <01> /A endbfchar ") = Ok [].
Proof. intros glyphs. vm_compute. reflexivity. Qed.

(* a complete program as found in files, read through a buffer of 5 bytes *)
Example C46_file : forall glyphs, exists m, cmap_run glyphs 5 (bs "/CIDInit /ProcSet findresource begin
12 dict begin
begincmap
/CIDSystemInfo << /Registry (Adobe) /Ordering (UCS) /Supplement 0 >> def
/CMapName /Adobe-Identity-UCS def /CMapType 2 def
1 begincodespacerange <0000> <FFFF> endcodespacerange
2 beginbfchar <0003> <0020> <0004> <D83DDE00> endbfchar
2 beginbfrange <0010> <0012> <0041> <0020> <0021> [<00660066> <0066>] endbfrange
endcmap CMapName currentdict /CMap defineresource pop end end
") = Ok m /\ map (iget m) [2; 3; 4; 16; 17; 18; 19; 32; 33; 34] =
  [None; Some [32]; Some [128512]; Some [65]; Some [66]; Some [67]; None; Some [102; 102]; Some [102]; None].
Proof. intros glyphs. eexists. split; [vm_compute; reflexivity|reflexivity]. Qed.

(* a concrete text meets the hypotheses of C46_tounicode_partial *)
Definition small_text : list Z := bs "1 beginbfrange <01><03> <0041> endbfrange
2 beginbfchar <02> <0061> <05> <D83DDE00>endbfchar endcmap pop ".
Lemma lay exact pos g q t sp k ts rest all pos' :
  all = g ++ sp ++ rest -> q = pos + Z.of_nat (length g) -> pos' = pos + Z.of_nat (length g) + Z.of_nat (length sp) ->
  Sep g -> Spell t sp k -> follows exact k rest -> Layout exact pos' ts rest -> Layout exact pos ((q, t) :: ts) all.
Proof. intros -> -> ->. apply L_tok. Qed.
Lemma hex_ok ds : forall v, (fix go (ds v : list Z) {struct ds} : bool :=
    match ds, v with
    | [], [] => true
    | a :: b :: r, x :: v' => is_hex a && is_hex b && (x =? 16 * hexval a + hexval b) && go r v'
    | _, _ => false
    end) ds v = true -> Spell (TStr v) (60 :: ds ++ [62]) HexEnd.
Proof.
  intros v H. apply Sp_hex. revert v H.
  assert (HX : forall a, is_hex a = true -> Hex a (hexval a)).
  { intros a Ha. unfold is_hex, hexval, is_digit in *. destruct ((48 <=? a) && (a <=? 57)) eqn:E1.
    - replace a with (48 + (a - 48)) at 1 by lia. apply Hex_digit. lia.
    - destruct ((65 <=? a) && (a <=? 70)) eqn:E2.
      + replace a with (65 + (a - 55 - 10)) at 1 by lia. apply Hex_upper. lia.
      + replace a with (97 + (a - 87 - 10)) at 1 by lia. apply Hex_lower. lia. }
  enough (G : forall n ds, (length ds <= n)%nat -> forall v, (fix go (ds v : list Z) {struct ds} : bool :=
    match ds, v with
    | [], [] => true
    | a :: b :: r, x :: v' => is_hex a && is_hex b && (x =? 16 * hexval a + hexval b) && go r v'
    | _, _ => false
    end) ds v = true -> HexBody ds v) by (intros v; apply (G (length ds)); lia).
  induction n as [|n IH]; intros [|a [|b r]] Hn [|x v] H; cbn [length] in Hn; try discriminate; try lia; try (apply HB_end; constructor).
  apply andb_prop in H as [H H4]. apply andb_prop in H as [H H3]. apply andb_prop in H as [H1 H2]. apply Z.eqb_eq in H3. subst x.
  apply (HB_pair [] a [] b (hexval a) (hexval b) r v); [constructor|constructor|apply HX; assumption|apply HX; assumption|].
  apply IH; [lia|exact H4].
Qed.
Ltac lk g sp := eapply (lay _ _ g _ _ sp NeedsBoundary); [reflexivity|reflexivity|reflexivity|apply sep_ok; reflexivity|apply spell_kw_ok; reflexivity|apply follows_ok; reflexivity|].
Ltac li g sp := eapply (lay _ _ g _ _ sp NeedsBoundary); [reflexivity|reflexivity|reflexivity|apply sep_ok; reflexivity|apply spell_int_ok; [reflexivity|discriminate|reflexivity]|apply follows_ok; reflexivity|].
Ltac lh g ds v := eapply (lay _ _ g _ (TStr v) (60 :: ds ++ [62]) HexEnd); [reflexivity|reflexivity|reflexivity|apply sep_ok; reflexivity|apply hex_ok; reflexivity|discriminate|].
Example C46_hypotheses : exists ts, Layout false 0 ts small_text /\
  Program [] (map snd ts) [(1, [65]); (2, [66]); (3, [67]); (2, [97]); (5, [128512])] /\
  map (last_for [(1, [65]); (2, [66]); (3, [67]); (2, [97]); (5, [128512])]) [1; 2; 3; 4; 5] = [Some [65]; Some [97]; Some [67]; None; Some [128512]].
Proof.
  eexists. splits; [| |reflexivity].
  - li (@nil Z) (bs "1"). lk [32] (bs "beginbfrange"). lh [32] (bs "01") [1]. lh (@nil Z) (bs "03") [3]. lh [32] (bs "0041") [0; 65].
    lk [32] (bs "endbfrange"). li [10] (bs "2"). lk [32] (bs "beginbfchar"). lh [32] (bs "02") [2]. lh [32] (bs "0061") [0; 97].
    lh [32] (bs "05") [5]. lh [32] (bs "D83DDE00") [216; 61; 222; 0]. lk (@nil Z) (bs "endbfchar"). lk [32] (bs "endcmap"). lk [32] (bs "pop").
    apply L_end. apply sep_ok. reflexivity.
  - cbn [map snd].
    apply (Pr_object [] (OInt 1) [TInt 1]); [constructor|]. cbn [app].
    apply (Pr_bfrange [OInt 1] [OStr [1]; OStr [3]; OStr [0; 65]] [TStr [1]; TStr [3]; TStr [0; 65]] [(1, [65]); (2, [66]); (3, [67])]
      [(2, [97]); (5, [128512])] (TInt 2 :: KW "beginbfchar" :: [TStr [2]; TStr [0; 97]; TStr [5]; TStr [216; 61; 222; 0]] ++ KW "endbfchar" :: [KW "endcmap"; KW "pop"])).
    + apply (Lines_cons RangeLine [OStr [1]; OStr [3]; OStr [0; 65]] [(1, [65]); (2, [66]); (3, [67])] [] []); [|constructor].
      apply (BfRange [1] [3] [] 65); try (unfold code_len; cbn; lia); try reflexivity; try discriminate. constructor.
    + apply (WL_cons false false (OStr [1]) _ [TStr [1]]); [constructor|]. apply (WL_cons false false (OStr [3]) _ [TStr [3]]); [constructor|].
      apply (WL_cons false false (OStr [0; 65]) _ [TStr [0; 65]] []); constructor.
    + apply (Pr_object [] (OInt 2) [TInt 2]); [constructor|].
      apply (Pr_bfchar [OInt 2] [OStr [2]; OStr [0; 97]; OStr [5]; OStr [216; 61; 222; 0]] _ [(2, [97]); (5, [128512])] []).
      * apply (Lines_cons CharLine [OStr [2]; OStr [0; 97]] [(2, [97])] [OStr [5]; OStr [216; 61; 222; 0]] [(5, [128512])]).
        -- apply (BfChar [2] [97]); [unfold code_len; cbn; lia|]. constructor; [unfold scalar; lia|constructor].
        -- apply (Lines_cons CharLine [OStr [5]; OStr [216; 61; 222; 0]] [(5, [128512])] [] []); [|constructor].
           apply (BfChar [5] [128512]); [unfold code_len; cbn; lia|]. constructor; [unfold scalar; lia|constructor].
      * apply (WL_cons false false (OStr [2]) _ [TStr [2]]); [constructor|]. apply (WL_cons false false (OStr [0; 97]) _ [TStr [0; 97]]); [constructor|].
        apply (WL_cons false false (OStr [5]) _ [TStr [5]]); [constructor|]. apply (WL_cons false false (OStr [216; 61; 222; 0]) _ [TStr [216; 61; 222; 0]] []); constructor.
      * apply Pr_endcmap. apply T_operator; [discriminate|cbn; intuition discriminate|constructor].
Qed.

(* C67. What a glyph name is taken to mean. *)
Theorem C67_meaning_partial : forall glyphs n t, Means glyphs n t -> name2unicode glyphs n = Ok t.
Proof. exact means_lemma. Qed.
Theorem C67_meaningless : forall glyphs n, Meaningless glyphs n -> name2unicode glyphs n = Err KeyError.
Proof. exact meaningless_lemma. Qed.
(* the names of the Adobe Glyph List specification uniXXXX and uXXXX are read in decimal: uni0041 is ')' instead of 'A' *)
Theorem C67_uni_refuted : forall glyphs, glyphs (bs "uni0041") = None -> name2unicode glyphs (bs "uni0041") = Ok [41].
Proof. intros glyphs H. unfold name2unicode. rewrite H. reflexivity. Qed.
Theorem C67_uni_hex_refuted : forall glyphs, glyphs (bs "uni00E9") = None -> name2unicode glyphs (bs "uni00E9") = Ok [0].
Proof. intros glyphs H. unfold name2unicode. rewrite H. reflexivity. Qed.
(* a large number in a name raises ValueError, which no caller catches *)
Theorem C67_large_refuted : forall glyphs, glyphs (bs "g1114112") = None -> name2unicode glyphs (bs "g1114112") = Err ValueError.
Proof. intros glyphs H. unfold name2unicode. rewrite H. reflexivity. Qed.
Definition two_glyphs (n : list Z) : option (list Z) :=
  if list_eqb n (bs "A") then Some [65] else if list_eqb n (bs "eacute") then Some [233] else None.
Example C67_example : Means two_glyphs (bs "eacute") [233] /\ Means two_glyphs (bs "c65x") [65] /\ Meaningless two_glyphs (bs "foo").
Proof.
  splits.
  - apply M_list. reflexivity.
  - change (bs "c65x") with ([99] ++ [54; 53] ++ [120]). change 65 with (decimal [54; 53]).
    apply M_number; try reflexivity; try discriminate.
    + repeat constructor. unfold digit_char. lia.
    + repeat constructor; unfold digit_char; lia.
    + intros c r E. injection E as <- <-. unfold digit_char. lia.
  - split; [reflexivity|]. cbn. repeat (constructor; [unfold digit_char; lia|]). constructor.
Qed.

(* C44. With a Differences array every code gets the meaning of the name declared last for it; the other codes keep the meaning
   they have in the base encoding; every dictionary that existed before (the four base encodings among them) is unchanged. *)
Theorem C44_differences_partial : forall glyphs heap name diff l, diff <> [] -> differences diff ->
  Texts glyphs (declared 0 diff) l ->
  exists a heap', get_encoding glyphs heap name diff = Ok (a, heap') /\
    (forall k, (k < length heap)%nat -> nth k heap' [] = nth k heap []) /\
    (length heap <= a)%nat /\
    forall code, iget (nth a heap' []) code =
      match last_for l code with Some t => Some t | None => iget (nth (base_addr name) heap []) code end.
Proof.
  intros glyphs heap name diff l Hne Hd Hl.
  destruct (apply_diff_lemma glyphs diff Hd 0 (nth (base_addr name) heap []) l Hl) as (m & E & U).
  exists (length heap), (heap ++ [m]). unfold get_encoding. destruct diff as [|o diff]; [congruence|]. rewrite E. splits.
  - reflexivity.
  - intros k Hk. apply app_nth1. exact Hk.
  - lia.
  - intros code. rewrite app_nth2, Nat.sub_diag by lia. apply U.
Qed.
(* Which base: the one named, StandardEncoding for any other name; without differences it is the shared dictionary itself. *)
Theorem C44_base : forall glyphs heap name, get_encoding glyphs heap name [] = Ok (base_addr name, heap) /\
  base_addr (bs "StandardEncoding") = 0%nat /\ base_addr (bs "MacRomanEncoding") = 1%nat /\
  base_addr (bs "WinAnsiEncoding") = 2%nat /\ base_addr (bs "PDFDocEncoding") = 3%nat.
Proof. intros. splits; reflexivity. Qed.
(* over any history of requests, of any content, no dictionary is ever modified: the same request always gets the same answer *)
Fixpoint requests (glyphs : list Z -> option (list Z)) (heap : list umap) (rs : list (list Z * list obj)) : res (list umap) :=
  match rs with [] => Ok heap | (n, d) :: r => do (_, h) <- get_encoding glyphs heap n d; requests glyphs h r end.
Theorem C44_history : forall glyphs rs heap heap', requests glyphs heap rs = Ok heap' -> (4 <= length heap)%nat ->
  (forall k, (k < length heap)%nat -> nth k heap' [] = nth k heap []) /\
  forall name diff, match get_encoding glyphs heap name diff, get_encoding glyphs heap' name diff with
    | Ok (a, h), Ok (a', h') => nth a h [] = nth a' h' []
    | Err e, Err e' => e = e'
    | _, _ => False
    end.
Proof.
  intros glyphs rs heap heap' H H4.
  assert (G : forall rs heap heap', requests glyphs heap rs = Ok heap' -> exists l, heap' = heap ++ l).
  { clear. induction rs as [|[n d] rs IH]; intros heap heap' H; cbn [requests] in H.
    - injection H as ->. exists []. rewrite app_nil_r. reflexivity.
    - destruct (get_encoding glyphs heap n d) as [[a h]|e] eqn:E; [|discriminate]. cbn [bind] in H.
      destruct (IH _ _ H) as (l & ->). unfold get_encoding in E. destruct d as [|o d].
      + injection E as <- <-. exists l. reflexivity.
      + destruct (apply_diff _ _ _ _) as [m|e]; [|discriminate]. injection E as <- <-. exists ([m] ++ l). rewrite app_assoc. reflexivity. }
  destruct (G _ _ _ H) as (l & ->). split; [intros k Hk; apply app_nth1; exact Hk|].
  intros name diff. assert (Hb : (base_addr name < length heap)%nat).
  { unfold base_addr. destruct (list_eqb _ _); [lia|]. destruct (list_eqb _ _); [lia|]. destruct (list_eqb _ _); lia. }
  unfold get_encoding. destruct diff as [|o diff]; [rewrite app_nth1 by exact Hb; reflexivity|].
  rewrite (app_nth1 _ _ _ Hb). destruct (apply_diff _ _ _ _) as [m|e]; [|reflexivity]. cbn [bind].
  rewrite !app_nth2 by lia. rewrite !Nat.sub_diag. reflexivity.
Qed.
(* The base dictionaries: each code gets the text of the last row of the table that has it. *)
Theorem C44_tables : forall glyphs sel rows m, build_encoding glyphs sel [] rows = Ok m ->
  forall code, iget m code = last_for (flat_map (fun e => let '(n, _, _, _, _) := e in
    match sel e, name2unicode glyphs n with Some c, Ok t => if c =? 0 then [] else [(c, t)] | _, _ => [] end) rows) code.
Proof.
  intros glyphs sel rows m H code.
  assert (G : forall rows m0 m, build_encoding glyphs sel m0 rows = Ok m -> updated m0 (flat_map (fun e => let '(n, _, _, _, _) := e in
    match sel e, name2unicode glyphs n with Some c, Ok t => if c =? 0 then [] else [(c, t)] | _, _ => [] end) rows) m).
  { clear. induction rows as [|[[[[n a] b] c] d] rows IH]; intros m0 m H; cbn [build_encoding flat_map] in *.
    - injection H as ->. apply updated_nil.
    - destruct (name2unicode glyphs n) as [t|e]; [|discriminate]. cbn [bind] in H. specialize (IH _ _ H).
      destruct (sel (n, a, b, c, d)) as [x|]; [|exact IH]. destruct (x =? 0); [exact IH|].
      cbn [app]. change ((x, t) :: ?l) with ([(x, t)] ++ l). eapply updated_app; [apply updated_one|exact IH]. }
  rewrite (G rows [] m H code). destruct (last_for _ code); reflexivity.
Qed.
(* a code declared with a name that means nothing keeps its meaning in the base encoding, although its glyph is another one *)
Theorem C44_unknown_refuted : forall base,
  exists a h, get_encoding two_glyphs [base] (bs "X") [OInt 65; ON "nosuchglyph"] = Ok (a, h) /\ forall k, iget (nth a h []) k = iget base k.
Proof. intros base. eexists _, _. split; [reflexivity|]. reflexivity. Qed.
Theorem C44_large_refuted : forall heap, get_encoding two_glyphs heap (bs "X") [OInt 65; ON "g1114112"] = Err ValueError.
Proof. reflexivity. Qed.
Example C44_example : exists a h, get_encoding two_glyphs [[(65, [97])]; []; []; []] (bs "StandardEncoding") [OInt 10; ON "A"; ON "eacute"; OInt 65; ON "eacute"; ON "A"; OInt 11; ON "A"] = Ok (a, h) /\
  map (iget (nth a h [])) [9; 10; 11; 65; 66; 67] = [None; Some [65]; Some [65]; Some [233]; Some [65]; None] /\
  differences [OInt 10; ON "A"; ON "eacute"; OInt 65; ON "eacute"; ON "A"; OInt 11; ON "A"] /\
  nth 0 h [] = [(65, [97])].
Proof.
  eexists _, _. splits; [reflexivity|reflexivity| |reflexivity].
  repeat (apply Forall_cons; [first [left; eexists; reflexivity|right; eexists; reflexivity]|]). apply Forall_nil.
Qed.

(* C70. The encoding recovered from the clear text of a Type 1 font program gives each code the meaning of the name put there
   last. *)
Theorem C70_header_partial : forall glyphs bufsiz exact ts text asg l, (0 < bufsiz)%nat ->
  Layout exact 0 ts text -> Header [] [] (map snd ts) asg -> Texts glyphs asg l ->
  exists m, header_encoding glyphs bufsiz text = Ok m /\ forall code, iget m code = last_for l code.
Proof.
  intros glyphs bufsiz exact ts text asg l Hb HL HP HT. destruct (data_tokens exact bufsiz ts text Hb HL) as (pts & Et & Ep).
  destruct (header_lemma glyphs [] [] (map snd ts) asg HP l HT pts [] stk0 Ep eq_refl I) as (m & s' & E & U).
  exists m. unfold header_encoding, header_tokens. rewrite Et, E. split; [reflexivity|].
  intros k. rewrite U. destruct (last_for l k); reflexivity.
Qed.
(* A font program that says "/Encoding StandardEncoding def" gets no encoding at all *)
Theorem C70_standard_refuted : forall glyphs, header_encoding glyphs 4096 (bs "/Encoding StandardEncoding def
") = Ok [].
Proof. intros glyphs. vm_compute. reflexivity. Qed.
Example C70_example : header_encoding two_glyphs 7 (bs "%!PS-AdobeFont-1.0: X
/FontName /X def /Encoding 256 array 0 1 255 {1 index exch /.notdef put} for
dup 65 /A put dup 66 /eacute put readonly def currentdict end
") = Ok [(66, [233]); (65, [65])].
Proof. vm_compute. reflexivity. Qed.
Example C70_hypotheses : Header [] [] [TInt 0; KW "{"; TInt 1; KW "index"; TLit (bs "A"); KW "put"; KW "}"; KW "for"; KW "dup"; TInt 65; TLit (bs "eacute"); KW "put"]
    [(1, bs "A"); (65, bs "eacute")] /\
  Texts two_glyphs [(1, bs "A"); (65, bs "eacute")] [(1, [65]); (65, [233])].
Proof.
  split.
  - apply (H_object [] [] (OInt 0) [TInt 0]); [constructor|]. cbn [app]. apply H_open.
    apply (H_object _ [] (OInt 1) [TInt 1]); [constructor|]. cbn [app].
    apply H_operator; [discriminate|cbn; intuition discriminate|].
    apply (H_object _ [OInt 1] (ON "A") [TLit (bs "A")]); [constructor|].
    apply (H_put _ [] 1 (bs "A")). apply (H_close [] [OInt 0] []).
    apply H_operator; [discriminate|cbn; intuition discriminate|]. apply H_operator; [discriminate|cbn; intuition discriminate|].
    apply (H_object _ [OInt 0; OArr []] (OInt 65) [TInt 65]); [constructor|].
    apply (H_object _ [OInt 0; OArr []; OInt 65] (ON "eacute") [TLit (bs "eacute")]); [constructor|].
    apply (H_put _ [OInt 0; OArr []] 65 (bs "eacute")). apply H_end.
  - repeat apply Tx_means; try (apply M_list; reflexivity). apply Tx_nil.
Qed.
