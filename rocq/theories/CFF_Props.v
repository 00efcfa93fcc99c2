(* Properties C104 (CFF DICT data), C105 (CFF INDEX data), C106 (CFF fonts). *)
From Coq Require Import String Qcanon.
From Verif Require Import Base Num PNG_Model CFF_Model CFF_Spec CFF_Proofs.
Open Scope Z_scope.

(* the Python number of a value *)
Definition number (v : dval) : cnum := match v with DInt z => CInt z | DReal q => CReal q end.

(* C104 (part). The dictionary read from DICT data with operators of one byte has each operator with its operands, in order. *)
Theorem C104_dict_partial : forall es data, DictData es data -> NoDup (map fst es) ->
  getdict data = Ok (map (fun e => (fst e, map number (snd e))) es).
Proof. exact getdict_ok. Qed.
Print Assumptions C104_dict_partial.

(* every integer of 32 bits and every decimal number can be written *)
Theorem C104_integers : forall z, - 2147483648 <= z <= 2147483647 -> exists l, Operand (DInt z) l.
Proof. intros z H. exists (29 :: big 4 (z mod 4294967296)). constructor. constructor. exact H. Qed.

Lemma zget_new {A} (d : list (Z * A)) k v : zget (zset d k v) k = Some v.
Proof.
  unfold zget, zset. induction d as [|[k' v'] r IH]; cbn [dset dget].
  - rewrite Z.eqb_refl. reflexivity.
  - destruct (k' =? k) eqn:E; cbn [dget]; [rewrite Z.eqb_refl; reflexivity|rewrite E; exact IH].
Qed.
(* Missing and false of the code: operators of two bytes.  12 k with k <= 21 leaves the operator k without operands, whatever it had:
   so /PaintType (12 5) deletes /FontBBox (5). *)
Theorem C104_escape_refuted : forall es l vs b k, DictData es l -> NoDup (map fst es) -> Operands vs b -> 0 <= k <= 21 ->
  exists d, getdict (l ++ b ++ [12; k]) = Ok d /\ zget d k = Some [].
Proof.
  intros es l vs b k D N O K.
  assert (G : forall es l, DictData es l -> forall f d, (length (l ++ b ++ [12%Z; k]) < f)%nat ->
    exists d', getdict_go f (l ++ b ++ [12%Z; k]) d [] = Ok d' /\ zget d' k = Some []).
  { clear es l D N. induction 1 as [|op vs' b' es l R NE O' D IH]; intros f d L.
    - cbn [app] in *. destruct (operands_go vs b O f [12; k] d [] L) as (f' & L' & ->). cbn in L'. do 3 (destruct f' as [|f']; [lia|]). cbn [getdict_go].
      change (12 <=? 21) with true. cbv iota. replace (k <=? 21) with true by (symmetry; apply Z.leb_le; lia). eexists. split; [reflexivity|]. apply zget_new.
    - rewrite <- app_assoc in *. destruct (operands_go vs' b' O' f ((op :: l) ++ b ++ [12; k]) d [] L) as (f' & L' & ->). destruct f' as [|f']; [lia|]. cbn [app getdict_go].
      replace (op <=? 21) with true by (symmetry; apply Z.leb_le; lia). apply IH. cbn [app length] in L'. lia. }
  unfold getdict. apply (G es l D). lia.
Qed.
Print Assumptions C104_escape_refuted.

(* FontBBox, the charset at 300, a real number -2.25, 0.140541E-3 (the examples of section 4 of the note) *)
Definition dict_case : list (Z * list dval) :=
  [(5, [DInt (-168); DInt (-218); DInt 1000; DInt 898]); (15, [DInt 100000]); (13, [DReal (qz (-225) / qz 100)%Qc; DReal (qz 140541 / qz 1000000000)%Qc])].
Definition dict_case_data : list Z :=
  [251; 60; 251; 110; 250; 124; 250; 22; 0 + 5; 29; 0; 1; 134; 160; 15; 30; 226; 162; 95; 30; 10; 20; 5; 65; 195; 255; 13].
Lemma real_of q q' ns : RealNibbles q ns -> q = q' -> RealNibbles q' ns. Proof. intros H <-. exact H. Qed.
Example C104_case : DictData dict_case dict_case_data /\ NoDup (map fst dict_case).
Proof.
  assert (D : Forall is_dig [1; 4; 0; 5; 4; 1]) by (repeat constructor; unfold is_dig; lia).
  split; [|repeat constructor; cbn; lia].
  apply (dict_cons 5 _ [251; 60; 251; 110; 250; 124; 250; 22]); try lia.
  { apply (operands_cons _ _ [251; 60]); [constructor; apply int_neg; unfold is_byte; lia|].
    apply (operands_cons _ _ [251; 110]); [constructor; apply int_neg; unfold is_byte; lia|].
    apply (operands_cons _ _ [250; 124]); [constructor; apply int_pos; unfold is_byte; lia|].
    apply (operands_cons _ _ [250; 22] []); [constructor; apply int_pos; unfold is_byte; lia|constructor]. }
  apply (dict_cons 15 _ [29; 0; 1; 134; 160]); try lia.
  { apply (operands_cons _ _ [29; 0; 1; 134; 160] []); [constructor; apply (int_long 100000); lia|constructor]. }
  apply (dict_cons 13 _ [30; 226; 162; 95; 30; 10; 20; 5; 65; 195; 255] [] []); try lia; [|constructor].
  apply (operands_cons _ _ [30; 226; 162; 95]).
  { apply (operand_real _ [14; 2; 10; 2; 5]); [|apply (packed_two 14 2), (packed_two 10 2), packed_odd].
    eapply real_of; [apply (real_nibbles true [2] [2; 5] 0 [10; 2; 5] []); try constructor; unfold is_dig; try lia; try discriminate; repeat constructor; unfold is_dig; lia|].
    apply Qc_is_canon. vm_compute. reflexivity. }
  apply (operands_cons _ _ [30; 10; 20; 5; 65; 195; 255] []); [|constructor].
  apply (operand_real _ [0; 10; 1; 4; 0; 5; 4; 1; 12; 3]).
  - eapply real_of; [apply (real_nibbles false [0] [1; 4; 0; 5; 4; 1] (- dec [3]) (10 :: [1; 4; 0; 5; 4; 1]) (12 :: [3])); try (constructor; exact D); try discriminate|].
    + repeat constructor; unfold is_dig; lia.
    + constructor; [repeat constructor; unfold is_dig; lia|discriminate].
    + apply Qc_is_canon. vm_compute. reflexivity.
  - apply (packed_two 0 10), (packed_two 1 4), (packed_two 0 5), (packed_two 4 1), (packed_two 12 3), packed_even.
Qed.

(* C105 (part). An INDEX with objects, anywhere in a file: its length, its objects, and the position after it. *)
Theorem C105_index_partial : forall data pos objs part rest, IndexData objs part -> objs <> [] -> 0 <= pos ->
  skipn (Z.to_nat pos) data = part ++ rest ->
  exists ix, read_index data pos = Ok (ix, pos + Z.of_nat (length part)) /\ index_len ix = Z.of_nat (length objs) /\ index_list data ix = Ok objs /\
    forall i x, nth_error objs i = Some x -> exists p, index_get data ix i = Ok (x, p).
Proof.
  intros data pos objs part rest I NE P E. destruct (index_ok data pos objs part rest I NE (conj P E)) as (ix & A & _ & R). exists ix.
  splits; [exact A|apply R|apply reading_list; exact R|apply R].
Qed.
Print Assumptions C105_index_partial.
(* an empty INDEX is read when a byte 0 follows it *)
Theorem C105_empty_partial : forall data pos rest, 0 <= pos -> skipn (Z.to_nat pos) data = [0; 0] ++ 0 :: rest ->
  exists ix, read_index data pos = Ok (ix, pos + 2) /\ index_list data ix = Ok [].
Proof. intros data pos rest P E. destruct (index_empty_zero data pos rest (conj P E)) as (ix & A & R). exists ix. split; [exact A|apply reading_list; exact R]. Qed.
(* Missing and false of the code: an empty INDEX (two bytes) at the end, or before other bytes *)
Theorem C105_empty_refuted : IndexData [] [0; 0] /\ read_index [0; 0] 0 = Err StructError /\ read_index ([0; 0] ++ [5; 1; 2; 3; 4; 5]) 0 = Err TypeError /\
  exists ix p, read_index ([0; 0] ++ [1; 1; 9]) 0 = Ok (ix, p) /\ p <> 2.
Proof. splits; [constructor|reflexivity|reflexivity|]. eexists _, _. split; [reflexivity|discriminate]. Qed.
Print Assumptions C105_empty_refuted.
Example C105_case : IndexData [[65; 66]; []; [67]] [0; 3; 1; 1; 3; 3; 4; 65; 66; 67] /\
  skipn (Z.to_nat 2) ([7; 7] ++ [0; 3; 1; 1; 3; 3; 4; 65; 66; 67] ++ [8]) = [0; 3; 1; 1; 3; 3; 4; 65; 66; 67] ++ [8].
Proof. split; [|reflexivity]. apply (index_some [[65; 66]; []; [67]] 1); [discriminate|reflexivity|lia|reflexivity]. Qed.

(* ---------- C106 ---------- *)
(* the standard strings: 391, all different, the sampled ones where Appendix A has them *)
Theorem C106_standard_strings : length STANDARD_STRINGS = 391%nat /\ NoDup STANDARD_STRINGS /\
  Forall (fun e => nth_error STANDARD_STRINGS (Z.to_nat (fst e)) = Some (snd e)) standard_samples.
Proof.
  split; [vm_compute; reflexivity|]. split; [|unfold standard_samples; repeat (apply Forall_cons; [vm_compute; reflexivity|]); apply Forall_nil].
  assert (G : forall l, (fix go (l : list string) := match l with [] => true | x :: r => negb (existsb (String.eqb x) r) && go r end) l = true -> NoDup l).
  { induction l as [|x r IH]; intros H; [constructor|]. apply andb_true_iff in H as [H1 H2]. constructor; [|apply IH; exact H2].
    intros I. apply negb_true_iff in H1. assert (X : existsb (String.eqb x) r = true) by (apply existsb_exists; exists x; split; [exact I|apply String.eqb_refl]). congruence. }
  apply G. vm_compute. reflexivity.
Qed.
Print Assumptions C106_standard_strings.

(* a standard string is a str, a string of the font bytes *)
Definition pyname (g : gname) : cname := match g with Standard sid => CStr (nth (Z.to_nat sid) STANDARD_STRINGS ""%string) | Custom b => CBytes b end.

Lemma zget_in {A} (d : list (Z * A)) k v : NoDup (map fst d) -> In (k, v) d -> zget d k = Some v.
Proof.
  unfold zget. induction d as [|[k' v'] r IH]; intros N I; [destruct I|]. cbn [dget map fst] in *. inversion N as [|? ? N1 N2]; subst. destruct I as [E|I].
  - injection E as -> ->. rewrite Z.eqb_refl. reflexivity.
  - replace (k' =? k) with false; [apply IH; assumption|]. symmetry. apply Z.eqb_neq. intros ->. apply N1. apply in_map_iff. exists (k, v). auto.
Qed.
Lemma zget_none {A} (d : list (Z * A)) k : ~ In k (map fst d) -> zget d k = None.
Proof.
  unfold zget. induction d as [|[k' v'] r IH]; intros N; [reflexivity|]. cbn [dget map fst In] in *.
  replace (k' =? k) with false by (symmetry; apply Z.eqb_neq; intros ->; tauto). apply IH. tauto.
Qed.
Lemma cents_keys es : map fst (cents es) = map fst es.
Proof. unfold cents. rewrite map_map. reflexivity. Qed.
Lemma one_pos_ok es op off : NoDup (map fst es) -> Offset es op off -> one_pos (cents es) op = Ok off.
Proof.
  intros N I. unfold one_pos. rewrite (zget_in _ op [CInt off]).
  - reflexivity.
  - rewrite cents_keys. exact N.
  - unfold cents. apply in_map_iff. exists (op, [DInt off]). auto.
Qed.
Lemma enc1_ok data rs : forall pos rest code m, Here data pos (flat_map (fun r => [fst r; snd r]) rs ++ rest) -> exists m', enc1 data (length rs) pos code m = Ok m'.
Proof.
  induction rs as [|[a b] rs IH]; intros pos rest code m H; [eexists; reflexivity|]. cbn [flat_map fst snd] in H. rewrite <- app_assoc in H.
  destruct (here_app data pos _ _ 2 H eq_refl) as [E H']. cbn [length enc1]. rewrite E. destruct (enc1_range m code a (Z.to_nat (b + 1))) as [m1 code1].
  exact (IH _ rest code1 m1 H').
Qed.
Lemma enc_ok es data rest : NoDup (map fst es) -> EncodingAt es data -> Here data 0 ([1; 0] ++ rest) ->
  exists off m, one_pos (cents es) 16 = Ok off /\ encodings data off = Ok m.
Proof.
  intros N [NI|off cs O L A|off rs O L A] H.
  - exists 0. unfold one_pos. rewrite zget_none by (rewrite cents_keys; exact NI). destruct (here_app data 0 [1] (0 :: rest) 1 H eq_refl) as [E H1].
    destruct (here_app data (0 + 1) [0] rest 1 H1 eq_refl) as [E2 _].
    eexists. split; [reflexivity|]. unfold encodings. change (fseek 0) with (Ok 0). cbn [bind]. rewrite E. change (1 =? 0) with false. change (1 =? 1) with true. cbv iota.
    rewrite E2. reflexivity.
  - exists off. eexists. split; [apply one_pos_ok; assumption|]. destruct (at_here _ _ _ A) as [r0 H0]. unfold encodings, fseek.
    replace (off <? 0) with false by (symmetry; apply Z.ltb_ge; apply A). cbn [bind]. unfold encoding_data in H0. cbn [app] in H0.
    destruct (here_app data off [0] _ 1 H0 eq_refl) as [E1 H1]. rewrite E1. change (0 =? 0) with true. cbv iota.
    destruct (here_app data (off + 1) [Z.of_nat (length cs)] _ 1 H1 eq_refl) as [E2 H2]. rewrite E2.
    destruct (here_app data (off + 1 + 1) cs r0 _ H2 eq_refl) as [E3 _]. rewrite E3. cbn [fst]. unfold unpack_bytes.
    replace (Z.of_nat (length cs) =? Z.max (Z.of_nat (length cs)) 0) with true by (symmetry; apply Z.eqb_eq; lia). cbn [bind]. reflexivity.
  - exists off. destruct (at_here _ _ _ A) as [r0 H0]. unfold encoding1_data in H0. cbn [app] in H0.
    destruct (here_app data off [1] _ 1 H0 eq_refl) as [E1 H1]. destruct (here_app data (off + 1) [Z.of_nat (length rs)] _ 1 H1 eq_refl) as [E2 H2].
    destruct (enc1_ok data rs _ r0 0 ([], []) H2) as [m M]. exists m. split; [apply one_pos_ok; assumption|]. unfold encodings, fseek.
    replace (off <? 0) with false by (symmetry; apply Z.ltb_ge; apply A). cbn [bind]. rewrite E1. change (1 =? 0) with false. change (1 =? 1) with true. cbv iota.
    rewrite E2, Nat2Z.id. exact M.
Qed.
Lemma getstr_ok data ix strings sid g : Reading data ix strings -> 0 <= sid -> sid_name strings sid = Some g -> exists p, getstr data ix 0 sid = Ok (pyname g, p).
Proof.
  intros [_ R] P S. unfold getstr, sid_name in *. change (Z.of_nat (length STANDARD_STRINGS)) with 391. change (length STANDARD_STRINGS) with 391%nat.
  destruct (sid <? 391) eqn:E.
  - injection S as <-. eexists. reflexivity.
  - apply Z.ltb_ge in E. destruct (nth_error strings (Z.to_nat (sid - 391))) as [b|] eqn:B; [|discriminate]. injection S as <-.
    replace (Z.to_nat sid - 391)%nat with (Z.to_nat (sid - 391)) by lia. destruct (R _ _ B) as [p ->]. exists p. reflexivity.
Qed.
Fixpoint gids_from (g : Z) (n : nat) : list Z := match n with O => [] | S k => (g + 1) :: gids_from (g + 1) k end.
Lemma gids_from_gt g n x : In x (gids_from g n) -> g < x.
Proof. revert g; induction n as [|n IH]; intros g I; cbn in I; [tauto|]. destruct I as [<-|I]; [lia|]. apply IH in I. lia. Qed.
Lemma charset0_ok data ix strings : Reading data ix strings -> forall sids names, Forall (fun s => 0 <= s < 65536) sids ->
  Forall2 (fun sid g => sid_name strings sid = Some g) sids names -> forall gid m, Forall (fun k => k <= gid) (map fst (snd m)) ->
  exists n2g, charset0 data ix m gid sids = Ok (n2g, snd m ++ combine (gids_from gid (length names)) (map pyname names)) /\
    (NoDup (map fst (fst m) ++ map pyname names) -> n2g = fst m ++ combine (map pyname names) (gids_from gid (length names))).
Proof.
  intros R sids names F F2. induction F2 as [|sid g sids names S F2 IH]; intros gid [n2g g2n] B.
  - exists n2g. cbn [charset0 length gids_from combine map snd fst]. rewrite !app_nil_r. auto.
  - inversion F as [|? ? Hs F']; subst. cbn [charset0]. destruct (getstr_ok data ix strings sid g R ltac:(lia) S) as [p ->]. cbn [bind].
    cbn [snd fst] in *. assert (NEW : zset g2n (gid + 1) (pyname g) = g2n ++ [(gid + 1, pyname g)]).
    { apply dset_new. intros I. rewrite Forall_forall in B. specialize (B _ I). lia. }
    unfold add_name. cbn [fst snd]. rewrite NEW. destruct (IH F' (gid + 1) (nset n2g (pyname g) (gid + 1), g2n ++ [(gid + 1, pyname g)])) as (r & E & D).
    { cbn [snd]. rewrite map_app. apply Forall_app. split; [eapply Forall_impl; [|exact B]; cbn; intros; lia|constructor; [cbn; lia|constructor]]. }
    exists r. rewrite E. cbn [snd fst length gids_from map combine] in *. split; [rewrite <- app_assoc; reflexivity|]. intros N.
    assert (NEWN : nset n2g (pyname g) (gid + 1) = n2g ++ [(pyname g, gid + 1)]).
    { apply NoDup_remove_2 in N. assert (NI : ~ In (pyname g) (map fst n2g)) by (intros I; apply N; apply in_or_app; left; exact I). clear -NI. unfold nset.
      induction n2g as [|[k v] r IH]; [reflexivity|]. cbn [dset map fst In app] in *. assert (X : cname_eqb k (pyname g) = false).
      { destruct (cname_eqb k (pyname g)) eqn:X; [|reflexivity]. exfalso. apply NI. left. destruct k as [a|a], (pyname g) as [b|b]; cbn in X; try discriminate.
        - apply String.eqb_eq in X. congruence.
        - apply list_eqb_eq in X. congruence. }
      rewrite X, IH by tauto. reflexivity. }
    rewrite NEWN in D. rewrite D; [rewrite <- app_assoc; reflexivity|]. rewrite map_app. cbn [map fst]. rewrite <- app_assoc. exact N.
Qed.
Lemma shorts_ok sids : Forall (fun s => 0 <= s < 65536) sids -> pairs_of (flat_map (big 2) sids) = sids.
Proof.
  induction 1 as [|s r H F IH]; [reflexivity|]. cbn [flat_map]. rewrite big_2. cbn [app pairs_of]. rewrite <- big_2, big_val by exact H. rewrite IH. reflexivity.
Qed.
Lemma pyname_inj strings sids names : Forall (fun s => 0 <= s < 65536) sids -> Forall2 (fun sid g => sid_name strings sid = Some g) sids names -> NoDup names -> NoDup (map pyname names).
Proof.
  intros F F2 N. assert (B : Forall (fun g => match g with Standard s => 0 <= s < 391 | _ => True end) names).
  { clear N. induction F2 as [|sid g sids names S F2 IH]; [constructor|]. inversion F; subst. constructor; [|apply IH; assumption]. unfold sid_name in S.
    destruct (sid <? 391) eqn:E; [apply Z.ltb_lt in E; injection S as <-; lia|]. destruct (nth_error strings _); [|discriminate]. injection S as <-. exact I. }
  clear F F2. induction names as [|g r IH]; [constructor|]. inversion N as [|? ? N1 N2]; inversion B as [|? ? B1 B2]; subst. cbn [map]. constructor; [|apply IH; assumption].
  intros I. apply in_map_iff in I as (g' & E & I'). apply N1. rewrite Forall_forall in B2. specialize (B2 g' I'). replace g with g'; [exact I'|].
  destruct g as [a|a], g' as [b|b]; cbn [pyname] in E; try discriminate.
  - injection E as E. f_equal. destruct C106_standard_strings as (L & D & _). rewrite (NoDup_nth STANDARD_STRINGS ""%string) in D.
    apply D in E; rewrite ?L; lia.
  - congruence.
Qed.

(* C106 (part). Reading a font whose charset has format 0.  names: the names of the glyphs 1, 2, ...  The object has the font's name, its
   strings, its subroutines and its charstrings; gid2name gives glyph i the name i, nothing else, and name2gid goes the other way if no name
   is repeated.  Missing and false of the code: the codes of the glyphs, charsets of formats 1 and 2 and the predefined ones, an empty String
   INDEX before 256 or more subroutines, an empty subroutine INDEX before a byte over 4. *)
Theorem C106_font_partial : forall f rest data names, FontFile f rest data ->
  (f_strings f <> [] \/ (length (f_subrs f) < 256)%nat) ->
  (f_subrs f <> [] \/ exists b r, rest = b :: r /\ b <= 4) ->
  Forall2 (fun sid g => sid_name (f_strings f) sid = Some g) (f_sids f) names ->
  exists c, cff_font data = Ok c /\
    index_list data (c_names c) = Ok [f_name f] /\ index_list data (c_strings c) = Ok (f_strings f) /\ index_list data (c_subrs c) = Ok (f_subrs f) /\
    index_list data (c_charstrings c) = Ok (f_charstrings f) /\ c_nglyphs c = Z.of_nat (length (f_charstrings f)) /\
    c_top c = map (fun e => (fst e, map number (snd e))) (f_top f) /\
    c_gid2name c = combine (gids_from 0 (length names)) (map pyname names) /\
    (NoDup names -> c_name2gid c = combine (map pyname names) (gids_from 0 (length names))).
Proof.
  intros f rest data names FF HS HG F2. destruct FF as [data extra offsize nameI topI top stringI subrI cs charset_off charstring_off BD ED DD ND IN IT IS IG OC IC AC OS AS LS FS EA].
  assert (H0 : Here data 0 ([1; 0; 4 + Z.of_nat (length extra); offsize] ++ extra ++ nameI ++ topI ++ stringI ++ subrI ++ rest)) by (split; [lia|exact ED]).
  destruct (here_app data 0 _ _ 4 H0 eq_refl) as [E0 H1].
  destruct (here_app data (0 + 4) _ _ (Z.of_nat (length extra)) H1 eq_refl) as [E1 H2].
  destruct (index_ok data _ _ _ _ IN ltac:(discriminate) H2) as (ix1 & X1 & H3 & R1).
  destruct (index_ok data _ _ _ _ IT ltac:(discriminate) H3) as (ix2 & X2 & H4 & R2).
  assert (X3 : exists ix3, read_index data (0 + 4 + Z.of_nat (length extra) + Z.of_nat (length nameI) + Z.of_nat (length topI)) =
      Ok (ix3, 0 + 4 + Z.of_nat (length extra) + Z.of_nat (length nameI) + Z.of_nat (length topI) + Z.of_nat (length stringI)) /\
      Here data (0 + 4 + Z.of_nat (length extra) + Z.of_nat (length nameI) + Z.of_nat (length topI) + Z.of_nat (length stringI)) (subrI ++ rest) /\
      Reading data ix3 (f_strings f)).
  { destruct (list_eq_dec (list_eq_dec Z.eq_dec) (f_strings f) []) as [E|NE].
    - destruct (here_app data _ stringI (subrI ++ rest) _ H4 eq_refl) as [_ H5].
      rewrite E in *. destruct HS as [HS|HS]; [congruence|]. assert (stringI = [0; 0]) as -> by (inversion IS; congruence).
      assert (Z0 : exists r', subrI ++ rest = 0 :: r').
      { inversion IG as [|objs size NE C S B EO EI]; [exists (0 :: rest); reflexivity|]. subst objs. rewrite big_2. rewrite (Z.div_small (Z.of_nat (length (f_subrs f))) 256) by lia.
        cbn [app]. eexists. reflexivity. }
      destruct Z0 as [r' Z0]. rewrite Z0 in H4. destruct (index_empty_zero _ _ _ H4) as (ix & A & R). exists ix. auto.
    - exact (index_ok data _ _ _ _ IS NE H4). }
  destruct X3 as (ix3 & X3 & H5 & R3).
  assert (X4 : exists ix4 p, read_index data (0 + 4 + Z.of_nat (length extra) + Z.of_nat (length nameI) + Z.of_nat (length topI) + Z.of_nat (length stringI)) = Ok (ix4, p) /\
      Reading data ix4 (f_subrs f)).
  { destruct (list_eq_dec (list_eq_dec Z.eq_dec) (f_subrs f) []) as [E|NE].
    - rewrite E in *. assert (subrI = [0; 0]) as -> by (inversion IG; congruence). destruct HG as [HG|HG]; [congruence|].
      destruct HG as (b & r' & -> & B).
      apply (index_empty_small data _ b r' BD H5). split; [|exact B]. rewrite ED in BD. unfold bytes in BD. rewrite !Forall_app in BD.
      destruct BD as (_ & _ & _ & _ & _ & _ & BD). inversion BD as [|? ? BB _]. unfold is_byte in BB. lia.
    - destruct (index_ok data _ _ _ _ IG NE H5) as (ix & A & _ & R). eauto. }
  destruct X4 as (ix4 & p4 & X4 & R4).
  destruct (proj2 R2 0%nat top eq_refl) as [pt XT].
  destruct (at_here _ _ _ AC) as [rc HC]. assert (NEC : f_charstrings f <> []) by (intros E; rewrite E in LS; discriminate LS).
  destruct (index_ok data _ _ _ _ IC NEC HC) as (ix5 & X5 & _ & R5).
  destruct (enc_ok _ data _ ND EA H0) as (eo & em & O16 & EM).
  destruct (at_here _ _ _ AS) as [rs HS0]. unfold charset_data in HS0. cbn [app] in HS0.
  destruct (here_app data charset_off [0] _ 1 HS0 eq_refl) as [ES HS1].
  assert (LF : forall l : list Z, length (flat_map (big 2) l) = (2 * length l)%nat) by (induction l as [|o l IH]; [reflexivity|cbn [flat_map length]; rewrite app_length, big_length, IH; lia]).
  destruct (here_app data (charset_off + 1) _ _ (2 * (index_len ix5 - 1)) HS1) as [ES2 _].
  { rewrite LF. destruct R5 as [-> _]. lia. }
  destruct (charset0_ok data ix3 _ R3 _ _ FS F2 0 ([], [])) as (n2g & EC & DC); [constructor|]. cbn [fst snd app map] in EC, DC.
  exists (mkCfont ix1 ix2 ix3 ix4 (cents (f_top f)) ix5 (index_len ix5) (fst em) (snd em) n2g (combine (gids_from 0 (length names)) (map pyname names))).
  cbn [c_names c_strings c_subrs c_charstrings c_nglyphs c_top c_gid2name c_name2gid]. splits; try (apply reading_list; assumption); try reflexivity.
  - unfold cff_font. rewrite E0. replace (4 + Z.of_nat (length extra) - 4) with (Z.of_nat (length extra)) by lia. rewrite E1. cbn [snd].
    rewrite X1. cbn [bind]. rewrite X2. cbn [bind]. rewrite X3. cbn [bind]. rewrite X4. cbn [bind]. rewrite XT. cbn [bind].
    rewrite (getdict_ok _ _ DD ND). cbn [bind]. rewrite (one_pos_ok _ 15 _ ND OS). cbn [bind]. rewrite O16. cbn [bind]. rewrite (one_pos_ok _ 17 _ ND OC). cbn [bind].
    unfold fseek at 1. replace (charstring_off <? 0) with false by (symmetry; apply Z.ltb_ge; apply AC). cbn [bind]. rewrite X5. cbn [bind]. rewrite EM. cbn [bind].
    unfold charsets, fseek. replace (charset_off <? 0) with false by (symmetry; apply Z.ltb_ge; apply AS). cbn [bind]. rewrite ES. change (0 =? 0) with true. cbv iota zeta.
    rewrite ES2. cbn [fst]. unfold unpack_shorts. rewrite LF, (shorts_ok _ FS).
    replace (Z.of_nat (2 * length (f_sids f)) =? 2 * Z.max (index_len ix5 - 1) 0) with true by (symmetry; apply Z.eqb_eq; destruct R5 as [-> _]; lia). cbn [bind].
    rewrite EC. reflexivity.
  - apply R5.
  - intros N. apply DC. exact (pyname_inj _ _ _ FS F2 N).
Qed.
Print Assumptions C106_font_partial.

(* Missing and false of the code: the codes of the glyphs.  In an encoding of format 0 the i-th number is the code of glyph i; read by the
   code, whatever the codes are (if there are any), some glyph is not found under its code. *)
Lemma enc0_get l : forall m code k, 0 <= code -> zget (fst (enc0 m code l)) k = if (code <=? k) && (k <? code + Z.of_nat (length l)) then nth_error l (Z.to_nat (k - code)) else zget (fst m) k.
Proof.
  assert (OTHER : forall (d : list (Z * Z)) a v k, a <> k -> zget (zset d a v) k = zget d k).
  { intros d a v k N. unfold zget, zset. induction d as [|[a' v'] r IH]; cbn [dset dget].
    - replace (a =? k) with false by (symmetry; apply Z.eqb_neq; exact N). reflexivity.
    - destruct (a' =? a) eqn:E; cbn [dget].
      + apply Z.eqb_eq in E. subst a'. replace (a =? k) with false by (symmetry; apply Z.eqb_neq; exact N). reflexivity.
      + destruct (a' =? k); [reflexivity|exact IH]. }
  induction l as [|g l IH]; intros m code k P; cbn [enc0 length].
  - replace ((code <=? k) && (k <? code + Z.of_nat 0)) with false; [reflexivity|]. symmetry. apply andb_false_iff. rewrite Z.leb_gt, Z.ltb_ge. lia.
  - rewrite IH by lia. unfold add_code. cbn [fst]. destruct (Z.eq_dec code k) as [->|N].
    + replace (k + 1 <=? k) with false by (symmetry; apply Z.leb_gt; lia). cbn [andb]. rewrite Z.leb_refl.
      replace (k <? k + Z.of_nat (S (length l))) with true by (symmetry; apply Z.ltb_lt; lia). cbn [andb]. rewrite Z.sub_diag. cbn. apply zget_new.
    + rewrite OTHER by exact N. destruct ((code + 1 <=? k) && (k <? code + 1 + Z.of_nat (length l))) eqn:E.
      * apply andb_true_iff in E as [E1 E2]. apply Z.leb_le in E1. apply Z.ltb_lt in E2.
        replace ((code <=? k) && (k <? code + Z.of_nat (S (length l)))) with true by (symmetry; apply andb_true_iff; rewrite Z.leb_le, Z.ltb_lt; lia).
        replace (Z.to_nat (k - code)) with (S (Z.to_nat (k - (code + 1)))) by lia. reflexivity.
      * replace ((code <=? k) && (k <? code + Z.of_nat (S (length l)))) with false; [reflexivity|]. symmetry. apply andb_false_iff in E. apply andb_false_iff.
        rewrite Z.leb_gt, Z.ltb_ge in *. lia.
Qed.
Theorem C106_encoding_refuted : forall data off cs, At data off (encoding_data cs) -> cs <> [] -> bytes cs -> (length cs < 256)%nat ->
  exists m i c, encodings data off = Ok m /\ nth_error cs i = Some c /\ zget (fst m) c <> Some (Z.of_nat i + 1).
Proof.
  intros data off cs A NE B L. exists (enc0 ([], []) 0 cs).
  assert (E : encodings data off = Ok (enc0 ([], []) 0 cs)).
  { destruct (at_here _ _ _ A) as [r0 H0]. unfold encodings, fseek.
    replace (off <? 0) with false by (symmetry; apply Z.ltb_ge; apply A). cbn [bind]. unfold encoding_data in H0. cbn [app] in H0.
    destruct (here_app data off [0] _ 1 H0 eq_refl) as [E1 H1]. rewrite E1. change (0 =? 0) with true. cbv iota.
    destruct (here_app data (off + 1) [Z.of_nat (length cs)] _ 1 H1 eq_refl) as [E2 H2]. rewrite E2.
    destruct (here_app data (off + 1 + 1) cs r0 _ H2 eq_refl) as [E3 _]. rewrite E3. cbn [fst]. unfold unpack_bytes.
    replace (Z.of_nat (length cs) =? Z.max (Z.of_nat (length cs)) 0) with true by (symmetry; apply Z.eqb_eq; lia). reflexivity. }
  assert (G : forall k, 0 <= k -> zget (fst (enc0 ([], []) 0 cs)) k = nth_error cs (Z.to_nat k)).
  { intros k K. rewrite enc0_get by lia. replace (0 <=? k) with true by (symmetry; apply Z.leb_le; lia). cbn [andb]. rewrite Z.sub_0_r.
    destruct (k <? 0 + Z.of_nat (length cs)) eqn:X; [reflexivity|]. apply Z.ltb_ge in X. symmetry. apply nth_error_None. lia. }
  assert (LN : (0 < length cs)%nat) by (destruct cs; [congruence|cbn; lia]).
  destruct (nth_error cs (length cs - 1)) as [c|] eqn:C; [|apply nth_error_None in C; lia].
  assert (PC : 0 <= c). { unfold bytes in B. rewrite Forall_forall in B. specialize (B c (nth_error_In _ _ C)). unfold is_byte in B. lia. }
  destruct (nth_error cs (Z.to_nat c)) as [v|] eqn:V.
  - destruct (Z.eq_dec v (Z.of_nat (length cs))) as [EV|NV].
    + exists (Z.to_nat c), v. splits; [exact E|exact V|]. rewrite G by lia. replace (nth_error cs (Z.to_nat v)) with (@None Z); [discriminate|].
      symmetry. apply nth_error_None. lia.
    + exists (length cs - 1)%nat, c. splits; [exact E|exact C|]. rewrite G by exact PC. rewrite V. intros X. injection X as X. lia.
  - exists (length cs - 1)%nat, c. splits; [exact E|exact C|]. rewrite G by exact PC. rewrite V. discriminate.
Qed.
Print Assumptions C106_encoding_refuted.

(* the same of format 1, whose ranges are runs of codes: number i of all the codes is found under i (from 0), so some glyph is not found under its code *)
Lemma enc0_app l1 l2 m code : enc0 m code (l1 ++ l2) = enc0 (enc0 m code l1) (code + Z.of_nat (length l1)) l2.
Proof.
  revert m code. induction l1 as [|g l1 IH]; intros m code; [cbn; rewrite Z.add_0_r; reflexivity|]. cbn [app enc0 length]. rewrite IH. f_equal. lia.
Qed.
Lemma enc1_range_is n : forall m code gid, enc1_range m code gid n = (enc0 m code (map (fun i => gid + Z.of_nat i) (seq 0 n)), code + Z.of_nat n).
Proof.
  induction n as [|n IH]; intros m code gid; [cbn; rewrite Z.add_0_r; reflexivity|]. cbn [enc1_range seq map enc0]. rewrite IH. rewrite <- seq_shift, map_map, Z.add_0_r.
  f_equal; [|lia]. f_equal. apply map_ext. intros i. lia.
Qed.
Lemma enc1_is data rs : forall pos rest code m, Here data pos (flat_map (fun r => [fst r; snd r]) rs ++ rest) -> enc1 data (length rs) pos code m = Ok (enc0 m code (range_sids rs)).
Proof.
  induction rs as [|[a b] rs IH]; intros pos rest code m H; [reflexivity|]. cbn [flat_map fst snd] in H. rewrite <- app_assoc in H.
  destruct (here_app data pos _ _ 2 H eq_refl) as [E H']. cbn [length enc1]. rewrite E, enc1_range_is, (IH _ rest _ _ H'). unfold range_sids. cbn [flat_map fst snd]. rewrite enc0_app, map_length, seq_length. reflexivity.
Qed.
Theorem C106_ranges_refuted : forall data off rs, At data off (encoding1_data rs) -> rs <> [] -> Forall (fun r => 0 <= fst r /\ 0 <= snd r) rs -> (length rs < 256)%nat ->
  exists m, encodings data off = Ok m /\ (forall i c, nth_error (range_sids rs) i = Some c -> zget (fst m) (Z.of_nat i) = Some c) /\
    exists i c, nth_error (range_sids rs) i = Some c /\ zget (fst m) c <> Some (Z.of_nat i + 1).
Proof.
  intros data off rs A NE B L. set (cs := range_sids rs). exists (enc0 ([], []) 0 cs).
  assert (G : forall k, 0 <= k -> zget (fst (enc0 ([], []) 0 cs)) k = nth_error cs (Z.to_nat k)).
  { intros k K. rewrite enc0_get by lia. replace (0 <=? k) with true by (symmetry; apply Z.leb_le; lia). cbn [andb]. rewrite Z.sub_0_r.
    destruct (k <? 0 + Z.of_nat (length cs)) eqn:X; [reflexivity|]. apply Z.ltb_ge in X. symmetry. apply nth_error_None. lia. }
  splits.
  - destruct (at_here _ _ _ A) as [r0 H0]. unfold encodings, fseek.
    replace (off <? 0) with false by (symmetry; apply Z.ltb_ge; apply A). cbn [bind]. unfold encoding1_data in H0. cbn [app] in H0.
    destruct (here_app data off [1] _ 1 H0 eq_refl) as [E1 H1]. rewrite E1. change (1 =? 0) with false. change (1 =? 1) with true. cbv iota.
    destruct (here_app data (off + 1) [Z.of_nat (length rs)] _ 1 H1 eq_refl) as [E2 H2]. rewrite E2, Nat2Z.id. exact (enc1_is _ _ _ _ _ _ H2).
  - intros i c Hc. rewrite G by lia. rewrite Nat2Z.id. exact Hc.
  - assert (PC : Forall (fun c => 0 <= c) cs).
    { unfold cs, range_sids. clear -B. induction B as [|[a b] rs [Ha Hb] _ IH]; [constructor|]. cbn [flat_map]. apply Forall_app. split; [|exact IH]. apply Forall_map, Forall_forall. intros i _. cbn [fst] in *. lia. }
    assert (LN : (0 < length cs)%nat).
    { unfold cs, range_sids. destruct rs as [|[a b] rs]; [congruence|]. inversion B as [|? ? [_ Hb] _]; subst. cbn [fst snd flat_map] in *. rewrite app_length, map_length, seq_length. lia. }
    rewrite Forall_forall in PC. destruct (nth_error cs (length cs - 1)) as [c|] eqn:C; [|apply nth_error_None in C; lia]. pose proof (PC c (nth_error_In _ _ C)) as Pc.
    destruct (nth_error cs (Z.to_nat c)) as [v|] eqn:V.
    + destruct (Z.eq_dec v (Z.of_nat (length cs))) as [EV|NV].
      * exists (Z.to_nat c), v. split; [exact V|]. rewrite G by lia. replace (nth_error cs (Z.to_nat v)) with (@None Z); [discriminate|].
        symmetry. apply nth_error_None. lia.
      * exists (length cs - 1)%nat, c. split; [exact C|]. rewrite G by exact Pc. rewrite V. intros X. injection X as X. lia.
    + exists (length cs - 1)%nat, c. split; [exact C|]. rewrite G by exact Pc. rewrite V. discriminate.
Qed.
Print Assumptions C106_ranges_refuted.


(* a font without a charset operator has the glyphs of the predefined charset ISOAdobe (glyph i is the standard string i): the code reads
   the header of the file as a charset and finds no glyph *)
Theorem C106_predefined_charset_refuted : forall data ix n minor rest, data = [1; 0; minor] ++ rest -> charsets data ix 0 n = Ok ([], []).
Proof. intros data ix n minor rest ->. reflexivity. Qed.
Print Assumptions C106_predefined_charset_refuted.
(* a charset of format 1 that begins with a string identifier under 256: no glyph gets a name *)
Theorem C106_charset1_refuted : forall data off ix n first left ranges, At data off (charset1_data ((first, left) :: ranges)) -> 0 <= first < 256 ->
  0 <= left -> range_sids ((first, left) :: ranges) <> [] /\ charsets data ix off n = Ok ([], []).
Proof.
  intros data off ix n first left ranges A F L. split.
  - unfold range_sids. cbn [flat_map fst snd]. replace (Z.to_nat (left + 1)) with (S (Z.to_nat left)) by lia. discriminate.
  - destruct (at_here _ _ _ A) as [r0 H0]. unfold charset1_data in H0. cbn [flat_map fst snd app] in H0. rewrite big_2 in H0. rewrite (Z.div_small first 256) in H0 by lia. cbn [app] in H0.
    unfold charsets, fseek. replace (off <? 0) with false by (symmetry; apply Z.ltb_ge; apply A). cbn [bind].
    destruct (here_app data off [1] _ 1 H0 eq_refl) as [E1 H1]. rewrite E1. change (1 =? 0) with false. change (1 =? 1) with true. cbv iota.
    destruct (here_app data (off + 1) [0 mod 256] _ 1 H1 eq_refl) as [E2 _]. rewrite E2. reflexivity.
Qed.
Print Assumptions C106_charset1_refuted.

(* a font with the glyphs .notdef, A and foo *)
Definition font_case : Font := mkFont [70] [(15, [DInt 43]); (16, [DInt 48]); (17, [DInt 52])] [[102; 111; 111]] [] [[14]; [14]; [14]] [34; 391].
Definition font_case_rest : list Z := [0; 0; 34; 1; 135] ++ [0; 2; 65; 66] ++ [0; 3; 1; 1; 2; 3; 4; 14; 14; 14].
Definition font_case_top : list Z := [29; 0; 0; 0; 43; 15; 29; 0; 0; 0; 48; 16; 29; 0; 0; 0; 52; 17].
Definition font_case_data : list Z :=
  [1; 0; 4; 1] ++ [] ++ [0; 1; 1; 1; 2; 70] ++ ([0; 1; 1; 1; 19] ++ font_case_top) ++ [0; 1; 1; 1; 4; 102; 111; 111] ++ [0; 0] ++ font_case_rest.
Example C106_case : FontFile font_case font_case_rest font_case_data /\
  Forall2 (fun sid g => sid_name (f_strings font_case) sid = Some g) (f_sids font_case) [Standard 34; Custom [102; 111; 111]] /\
  exists c, cff_font font_case_data = Ok c /\ c_gid2name c = [(1, CStr "A"%string); (2, CBytes [102; 111; 111])] /\ c_code2gid c = [(0, 65); (1, 66)].
Proof.
  splits.
  - apply (font_file font_case font_case_rest font_case_data [] 1 [0; 1; 1; 1; 2; 70] ([0; 1; 1; 1; 19] ++ font_case_top) font_case_top [0; 1; 1; 1; 4; 102; 111; 111] [0; 0]
      [0; 3; 1; 1; 2; 3; 4; 14; 14; 14] 43 52).
    + assert (X : forallb (fun b => (0 <=? b) && (b <? 256)) font_case_data = true) by reflexivity. apply Forall_forall. intros b I.
      rewrite forallb_forall in X. specialize (X b I). apply andb_true_iff in X as [X1 X2]. apply Z.leb_le in X1. apply Z.ltb_lt in X2. split; assumption.
    + reflexivity.
    + assert (K : forall v, 0 <= v < 256 -> Operands [DInt v] (29 :: big 4 (v mod 4294967296))).
      { intros v V. rewrite <- (app_nil_r (29 :: _)). apply (operands_cons (DInt v) [] _ []); [constructor; apply int_long; lia|constructor]. }
      apply (dict_cons 15 _ [29; 0; 0; 0; 43]); try lia; [apply (K 43); lia|]. apply (dict_cons 16 _ [29; 0; 0; 0; 48]); try lia; [apply (K 48); lia|].
      apply (dict_cons 17 _ [29; 0; 0; 0; 52] [] []); try lia; [apply (K 52); lia|constructor].
    + repeat constructor; cbn; lia.
    + apply (index_some [[70]] 1); [discriminate|reflexivity|lia|reflexivity].
    + apply (index_some [font_case_top] 1); [discriminate|reflexivity|lia|reflexivity].
    + apply (index_some [[102; 111; 111]] 1); [discriminate|reflexivity|lia|reflexivity].
    + constructor.
    + right. right. left. reflexivity.
    + apply (index_some [[14]; [14]; [14]] 1); [discriminate|reflexivity|lia|reflexivity].
    + split; [lia|]. exists []. reflexivity.
    + left. reflexivity.
    + split; [lia|]. eexists. reflexivity.
    + reflexivity.
    + repeat constructor; lia.
    + apply (enc_codes _ _ 48 [65; 66]); [right; left; reflexivity|cbn; lia|]. split; [lia|]. eexists. reflexivity.
  - apply Forall2_cons; [reflexivity|]. apply Forall2_cons; [reflexivity|apply Forall2_nil].
  - destruct (cff_font font_case_data) as [c|e] eqn:E; [|exfalso; vm_compute in E; discriminate E]. exists c. split; [reflexivity|].
    vm_compute in E. injection E as <-. split; reflexivity.
Qed.
