(* C51 (Group 4 decoding inverts encoding) and C52 (geometry of the output, whatever the input). *)
From Coq Require Import String Ascii.
From Verif Require Import Base Obj Stream_Model CCITT_Model CCITT_Spec CCITT_Proofs.
From Coq Require Import ZifyBool ZifyNat.
Open Scope string_scope.
Open Scope list_scope.
Open Scope Z_scope.
Local Notation len l := (Z.of_nat (length l)).

(* ---------- bytes and bits ---------- *)
Lemma land_pow p k : 0 <= k -> negb (Z.land p (2 ^ k) =? 0) = Z.testbit p k.
Proof.
  intros Hk. destruct (Z.testbit p k) eqn:E.
  - apply negb_true_iff, Z.eqb_neq. intros H. assert (T : Z.testbit (Z.land p (2 ^ k)) k = false) by (rewrite H; apply Z.bits_0).
    rewrite Z.land_spec, E, Z.pow2_bits_true in T by assumption. discriminate.
  - apply negb_false_iff, Z.eqb_eq. apply Z.bits_inj'. intros i Hi. rewrite Z.land_spec, Z.bits_0, Z.pow2_bits_eqb by assumption.
    destruct (k =? i) eqn:F; [apply Z.eqb_eq in F; subst i; rewrite E; reflexivity|apply andb_false_r].
Qed.
Lemma byte_bits_ok c : byte_bits c = map (Z.testbit c) [7; 6; 5; 4; 3; 2; 1; 0].
Proof.
  unfold byte_bits. cbn [map]. repeat f_equal.
  - apply (land_pow c 7); lia. - apply (land_pow c 6); lia. - apply (land_pow c 5); lia. - apply (land_pow c 4); lia.
  - apply (land_pow c 3); lia. - apply (land_pow c 2); lia. - apply (land_pow c 1); lia. - apply (land_pow c 0); lia.
Qed.
Lemma bits_in_cons c r : bits_in (c :: r) = byte_bits c ++ bits_in r.
Proof. rewrite byte_bits_ok. reflexivity. Qed.
Lemma bits_in_length d : length (bits_in d) = (8 * length d)%nat.
Proof. induction d as [|c d IH]; [reflexivity|]. rewrite bits_in_cons, app_length, IH. cbn [length]. unfold byte_bits. rewrite map_length. cbn [length]. lia. Qed.
(* the parser over all bits at once *)
Lemma feed_go data : forall p q r, parse_rem p (bits_in data) = (Go q, r) -> feedbytes p data = Ok q.
Proof.
  induction data as [|c data IH]; intros p q r H; [cbn in H; injection H as H _; subst; reflexivity|]. rewrite bits_in_cons, rem_app in H. cbn [feedbytes].
  rewrite <- rem_bits. destruct (parse_rem p (byte_bits c)) as [[x|x|x|e] r']; cbn [fst]; try discriminate. apply (IH _ _ _ H).
Qed.
Lemma feed_eofb data : forall p q r, parse_rem p (bits_in data) = (Eofb q, r) -> feedbytes p data = Ok q.
Proof.
  induction data as [|c data IH]; intros p q r H; [discriminate|]. rewrite bits_in_cons, rem_app in H. cbn [feedbytes].
  rewrite <- rem_bits. destruct (parse_rem p (byte_bits c)) as [[x|x|x|e] r']; cbn [fst]; try discriminate; [apply (IH _ _ _ H)|]. injection H as H _. subst. reflexivity.
Qed.
Lemma feed_skip line : forall p q pad rest, parse_rem p (bits_in line) = (Skip q, pad) -> (length pad < 8)%nat ->
  feedbytes p (line ++ rest) = feedbytes (set_ph q (P_mode MODE)) rest.
Proof.
  induction line as [|c line IH]; intros p q pad rest H Hp; [discriminate|]. rewrite bits_in_cons, rem_app in H. cbn [app feedbytes].
  rewrite <- rem_bits. destruct (parse_rem p (byte_bits c)) as [[x|x|x|e] r']; cbn [fst]; try discriminate; [apply (IH _ _ _ _ H Hp)|].
  injection H as -> E. subst pad. rewrite app_length, bits_in_length in Hp. destruct line; [reflexivity|cbn [length] in Hp; lia].
Qed.

(* ---------- packing ---------- *)
Lemma pack_false n : forall v l, pack_byte n v (l ++ [false]) = pack_byte n v l.
Proof. induction n as [|n IH]; intros v [|b l]; try reflexivity; cbn [pack_byte app]; [destruct n; reflexivity|]. rewrite IH. reflexivity. Qed.
Lemma pack_falses n v l k : pack_byte n v (l ++ repeat false k) = pack_byte n v l.
Proof.
  induction k as [|k IH]; [rewrite app_nil_r; reflexivity|]. replace (l ++ repeat false (S k)) with ((l ++ repeat false k) ++ [false]).
  - rewrite pack_false. exact IH.
  - rewrite <- app_assoc, <- repeat_cons. reflexivity.
Qed.
Lemma pack_firstn n : forall v l, pack_byte n v (firstn n l) = pack_byte n v l.
Proof. induction n as [|n IH]; intros v [|b l]; try reflexivity. cbn [firstn pack_byte]. rewrite IH. reflexivity. Qed.
Lemma pack_eight b7 b6 b5 b4 b3 b2 b1 b0 : let l := [b7; b6; b5; b4; b3; b2; b1; b0] in byte_bits (pack_byte 8 128 l) = l /\ is_byte (pack_byte 8 128 l).
Proof. cbv zeta. destruct b7, b6, b5, b4, b3, b2, b1, b0; (split; [reflexivity|unfold is_byte; cbn; lia]). Qed.
Lemma pack_one l : byte_bits (pack_byte 8 128 l) = firstn 8 (l ++ repeat false 8) /\ is_byte (pack_byte 8 128 l).
Proof.
  rewrite <- (pack_falses 8 128 l 8), <- (pack_firstn 8 128 (l ++ repeat false 8)).
  assert (L : length (firstn 8 (l ++ repeat false 8)) = 8%nat) by (rewrite firstn_length, app_length, repeat_length; lia).
  revert L. generalize (firstn 8 (l ++ repeat false 8)). intros m L.
  destruct m as [|b7 [|b6 [|b5 [|b4 [|b3 [|b2 [|b1 [|b0 [|x m]]]]]]]]]; try discriminate. apply pack_eight.
Qed.
Lemma pack_bits_ok n : forall l, (length l <= 8 * n)%nat -> bits_in (pack_bits n l) = l ++ repeat false (8 * n - length l) /\ bytes (pack_bits n l) /\ length (pack_bits n l) = n.
Proof.
  induction n as [|n IH]; intros l Hl.
  - destruct l; [|cbn in Hl; lia]. splits; [reflexivity|apply Forall_nil|reflexivity].
  - cbn [pack_bits]. rewrite bits_in_cons. destruct (pack_one l) as [-> HB].
    destruct (IH (skipn 8 l) ltac:(rewrite skipn_length; lia)) as (E1 & E2 & E3). rewrite E1, skipn_length. splits.
    + rewrite firstn_app. destruct (Nat.le_gt_cases 8 (length l)) as [H|H].
      * replace (8 - length l)%nat with 0%nat by lia. rewrite firstn_O, app_nil_r, app_assoc, firstn_skipn. f_equal. f_equal. lia.
      * rewrite firstn_all2, skipn_all2 by lia. rewrite <- app_assoc. f_equal. cbn [app].
        replace (firstn (8 - length l) (repeat false 8)) with (repeat false (8 - length l)); [rewrite <- repeat_app; f_equal; lia|].
        destruct l as [|? [|? [|? [|? [|? [|? [|? [|? ?]]]]]]]]; reflexivity.
    + apply Forall_cons; assumption.
    + cbn [length]. congruence.
Qed.
Lemma output_packed rv l : Packed rv l (output_line rv l).
Proof.
  unfold output_line. set (l' := if rv then map negb l else l).
  assert (L : length l' = length l) by (destruct rv; [apply map_length|reflexivity]). assert (M : l' = map (xorb rv) l).
  { subst l'. destruct rv; [reflexivity|]. rewrite <- (map_id l) at 1. apply map_ext. intros []; reflexivity. }
  assert (H : (length l' <= 8 * ((length l + 7) / 8))%nat).
  { rewrite L. pose proof (Nat.div_mod (length l + 7) 8 ltac:(lia)). pose proof (Nat.mod_upper_bound (length l + 7) 8 ltac:(lia)). lia. }
  destruct (pack_bits_ok _ _ H) as (E1 & E2 & E3). unfold Packed. rewrite E1, E3, L. splits; [|exact E2|rewrite <- M; reflexivity].
  rewrite Nat2Z.inj_div, Nat2Z.inj_add. reflexivity.
Qed.

(* ---------- C51 ---------- *)
Lemma coded_ref w ref rows cs : Coded w ref rows cs -> Forall (fun r => len r = w) rows.
Proof. induction 1; constructor; assumption. Qed.
Fixpoint descend {V} (t : tree V) (bits : list bool) : option (tree V) :=
  match bits with [] => Some t | b :: r => match branch t b with inl t' => descend t' r | inr _ => None end end.
Lemma descend_ok bits : forall p t u, ph p = P_mode t -> descend t bits = Some u -> parse_rem p bits = (Go (set_ph p (P_mode u)), []).
Proof.
  induction bits as [|b r IH]; intros p t u Hp HD; cbn [descend] in HD.
  - injection HD as <-. cbn [parse_rem]. rewrite <- Hp, set_ph_same. reflexivity.
  - cbn [parse_rem]. unfold parse_bit. rewrite Hp. destruct (branch t b) as [t'|]; [|discriminate]. rewrite (IH (set_ph p (P_mode t')) t' u eq_refl HD). reflexivity.
Qed.
Lemma zeros_ok k p : (k < 8)%nat -> ph p = P_mode MODE -> exists u, parse_rem p (repeat false k) = (Go (set_ph p (P_mode u)), []).
Proof.
  intros Hk Hp. assert (X : exists u, descend MODE (repeat false k) = Some u).
  { destruct k as [|[|[|[|[|[|[|[|k]]]]]]]]; try lia; eexists; vm_compute; reflexivity. }
  destruct X as (u & E). exists u. apply (descend_ok _ _ _ _ Hp E).
Qed.
Section c51.
  Context (w : Z) (rv : bool) (Hw : 1 <= w).
  Lemma lines_ok ref rows cs : Coded w ref rows cs -> len ref = w -> forall out p t, Fresh w false rv ref out p -> ph p = P_mode MODE ->
    exists q last, parse_rem p (List.concat cs ++ t) = parse_rem q t /\ Fresh w false rv last (out ++ flat_map (output_line rv) rows) q /\ ph q = P_mode MODE.
  Proof.
    intros H. induction H as [ref|ref row rows c cs Hl HL HC IH]; intros Hr out p t HF Hp.
    - exists p, ref. cbn [flat_map]. rewrite app_nil_r. splits; [reflexivity|exact HF|exact Hp].
    - cbn [List.concat flat_map]. rewrite <- app_assoc.
      destruct (line_ok w false rv Hw ref row (-1) c Hr Hl HL ltac:(lia) out p (List.concat cs ++ t) (fresh_mid _ _ _ _ _ _ _ HF) Hp) as (q & HQ & ->).
      destruct (IH Hl (out ++ output_line rv row) (set_ph q (P_mode MODE)) t HQ eq_refl) as (q' & last & E & F & P). exists q', last.
      rewrite app_assoc. splits; assumption.
  Qed.
  Lemma aligned_ok ref rows cs : Coded w ref rows cs -> len ref = w -> forall out p data, Aligned cs data -> Fresh w true rv ref out p -> ph p = P_mode MODE ->
    exists q, feedbytes p data = Ok q /\ buf q = out ++ flat_map (output_line rv) rows.
  Proof.
    intros H. induction H as [ref|ref row rows c cs Hl HL HC IH]; intros Hr out p data HA HF Hp.
    - cbn [flat_map]. rewrite app_nil_r. destruct HF as (_ & _ & _ & _ & _ & _ & HB & _). inversion HA as [|d u E|]; subst.
      + exists p. split; reflexivity.
      + destruct (read_mode _ p _ _ u Hp eofb_walk) as (q & Er & v & ->). rewrite <- E in Er. cbn [parse_mode thenr] in Er.
        exists (set_ph p (P_mode v)). split; [apply (feed_eofb _ _ _ _ Er)|reflexivity].
    - inversion HA as [| |c' cs' line rest pad E Hpad HA']; subst.
      destruct (line_ok (len row) true rv Hw ref row (-1) c Hr eq_refl HL ltac:(lia) out p pad (fresh_mid _ _ _ _ _ _ _ HF) Hp) as (q & HQ & Eq). rewrite <- E in Eq.
      rewrite (feed_skip _ _ _ _ rest Eq Hpad). destruct (IH eq_refl (out ++ output_line rv row) (set_ph q (P_mode MODE)) rest HA' HQ eq_refl) as (q' & E' & B).
      exists q'. split; [exact E'|]. rewrite B. cbn [flat_map]. rewrite app_assoc. reflexivity.
  Qed.
End c51.
Lemma fresh_new w al rv : 1 <= w -> Fresh w al rv (white_line w) [] (new_parser w al rv).
Proof. intros Hw. unfold Fresh, new_parser, white_line. cbn. rewrite repeat_length. splits; try reflexivity. lia. Qed.

(* the parameters of the filter *)
Definition Params (d : list (obj * obj)) (w : Z) (align black_is_1 : bool) : Prop :=
  dget d "K" = Some (OInt (-1)) /\ dget d "Columns" = Some (OInt w) /\
  (dget d "EncodedByteAlign" = Some (OBool align) \/ dget d "EncodedByteAlign" = None /\ align = false) /\
  (dget d "BlackIs1" = Some (OBool black_is_1) \/ dget d "BlackIs1" = None /\ black_is_1 = false).
Lemma decode_params d w al rv data : Params d w al rv -> ccittfaxdecode data (ODict d) = do p <- feedbytes (new_parser w al rv) data; Ok (buf p).
Proof.
  intros (HK & HC & HA & HB). unfold ccittfaxdecode. rewrite HK, HC.
  assert (E1 : match dget d "EncodedByteAlign" with Some o => truthy o | None => false end = al) by (destruct HA as [->|[-> ->]]; [destruct al|]; reflexivity).
  assert (E2 : match dget d "BlackIs1" with Some o => truthy o | None => false end = rv) by (destruct HB as [->|[-> ->]]; [destruct rv|]; reflexivity).
  rewrite E1, E2. reflexivity.
Qed.
Lemma packed_rows rv rows : exists outs, flat_map (output_line rv) rows = List.concat outs /\ Forall2 (Packed rv) rows outs.
Proof.
  exists (map (output_line rv) rows). split; [apply flat_map_concat_map|]. induction rows; cbn [map]; constructor; auto using output_packed.
Qed.
(* C51. For every width and every image: decoding any coding of it gives its lines, packed *)
Theorem C51_roundtrip_partial : forall d w black_is_1 rows cs data, Params d w false black_is_1 -> 1 <= w ->
  Coded w (white_line w) rows cs -> Stream cs data ->
  exists outs, ccittfaxdecode data (ODict d) = Ok (List.concat outs) /\ Forall2 (Packed black_is_1) rows outs.
Proof.
  intros d w rv rows cs data HP Hw HC (t & HD & HT). rewrite (decode_params _ _ _ _ _ HP).
  destruct (lines_ok w rv Hw _ _ _ HC ltac:(unfold white_line; rewrite repeat_length; lia) [] _ t (fresh_new w false rv Hw) eq_refl) as (q & last & E & HF & Hq).
  rewrite <- HD in E. destruct (packed_rows rv rows) as (outs & E1 & E2). exists outs. split; [|exact E2].
  destruct HF as (_ & _ & _ & _ & _ & _ & HB & _). cbn [app] in HB. rewrite <- E1, <- HB.
  destruct HT as [(k & -> & Hk)|(u & ->)].
  - destruct (zeros_ok k q Hk Hq) as (u & Ez). rewrite Ez in E. rewrite (feed_go _ _ _ _ E). reflexivity.
  - destruct (read_mode _ q _ _ u Hq eofb_walk) as (q' & Er & v & ->). cbn [parse_mode thenr] in Er. rewrite Er in E. rewrite (feed_eofb _ _ _ _ E). reflexivity.
Qed.
Theorem C51_roundtrip_aligned : forall d w black_is_1 rows cs data, Params d w true black_is_1 -> 1 <= w ->
  Coded w (white_line w) rows cs -> Aligned cs data ->
  exists outs, ccittfaxdecode data (ODict d) = Ok (List.concat outs) /\ Forall2 (Packed black_is_1) rows outs.
Proof.
  intros d w rv rows cs data HP Hw HC HA. rewrite (decode_params _ _ _ _ _ HP).
  destruct (aligned_ok w rv Hw _ _ _ HC ltac:(unfold white_line; rewrite repeat_length; lia) [] _ data HA (fresh_new w true rv Hw) eq_refl) as (q & -> & HB).
  destruct (packed_rows rv rows) as (outs & E1 & E2). exists outs. split; [|exact E2]. cbn [bind]. rewrite HB. cbn [app]. rewrite E1. reflexivity.
Qed.

(* the coding procedure of T.6 produces such codings, and produces one for every image *)
Lemma T6_line w ref cur a0 bits : T6Line w ref cur a0 bits -> Line w ref cur a0 bits.
Proof.
  induction 1; [apply L_end|eapply L_pass; eassumption|eapply L_vertical; eassumption|eapply L_horizontal; eassumption].
Qed.
Lemma first_exists (P : Z -> Prop) (dec : forall i, {P i} + {~ P i}) w : forall n x, w - x = Z.of_nat n -> exists y, FirstAfter P x w y.
Proof.
  induction n as [|n IH]; intros x Hx.
  - exists w. unfold FirstAfter. splits; [lia|right; reflexivity|lia].
  - destruct (Z.eq_dec (x + 1) w) as [E|E].
    + exists w. unfold FirstAfter. splits; [lia|right; reflexivity|lia].
    + destruct (dec (x + 1)) as [D|D].
      * exists (x + 1). unfold FirstAfter. splits; [lia|left; split; [lia|exact D]|lia].
      * destruct (IH (x + 1) ltac:(lia)) as (y & H1 & H2 & H3). exists y. unfold FirstAfter. splits; [lia|destruct H2 as [[A B]|A]; [left; split; [lia|exact B]|right; exact A]|].
        intros i Hi. destruct (Z.eq_dec i (x + 1)) as [->|Ne]; [exact D|]. apply H3. lia.
Qed.
Lemma changing_dec row i : {Changing row i} + {~ Changing row i}.
Proof.
  unfold Changing. destruct (Z_le_dec 0 i) as [A|A]; [|right; lia]. destruct (Z_lt_dec i (len row)) as [B|B]; [|right; lia].
  destruct (Bool.bool_dec (px row i) (px row (i - 1))) as [E|E]; [right; tauto|left; split; [lia|exact E]].
Qed.
Definition has (t : list (Z * string)) (n : Z) : bool := existsb (fun e => fst e =? n) t.
Lemma has_in t n : has t n = true -> exists c, In (n, c) t.
Proof. intros H. apply existsb_exists in H. destruct H as ([m c] & HI & E). apply Z.eqb_eq in E. cbn in E. subst. exists c. exact HI. Qed.
Lemma has_all t : (forallb (fun k => has t (Z.of_nat k)) (seq 0 64) && forallb (fun k => has t (64 * Z.of_nat k)) (seq 1 40)) = true ->
  (forall n, 0 <= n < 64 -> exists c, In (n, c) t) /\ (forall k, 1 <= k <= 40 -> exists c, In (64 * k, c) t).
Proof.
  intros H. apply andb_true_iff in H. destruct H as [H1 H2]. split.
  - intros n Hn. apply has_in. pose proof (proj1 (forallb_forall _ _) H1 (Z.to_nat n) ltac:(apply in_seq; lia)) as X. cbv beta in X. rewrite Z2Nat.id in X by lia. exact X.
  - intros n Hn. apply has_in. pose proof (proj1 (forallb_forall _ _) H2 (Z.to_nat n) ltac:(apply in_seq; lia)) as X. cbv beta in X. rewrite Z2Nat.id in X by lia. exact X.
Qed.
Lemma run_exists t : (forall n, 0 <= n < 64 -> exists c, In (n, c) t) -> (forall k, 1 <= k <= 40 -> exists c, In (64 * k, c) t) ->
  forall k n, 0 <= n < Z.of_nat k -> exists b, Run t n b.
Proof.
  intros H0 H1. induction k as [|k IH]; intros n Hn; [lia|]. destruct (Z_lt_dec n 64) as [A|A].
  - destruct (H0 n ltac:(lia)) as (c & HI). exists (code c). apply Run_end; [exact HI|lia].
  - assert (E : exists m, 1 <= m <= 40 /\ 64 * m <= n) by (exists (Z.min 40 (n / 64)); pose proof (Z.div_mod n 64 ltac:(lia)); pose proof (Z.mod_pos_bound n 64 ltac:(lia)); lia).
    destruct E as (m & Hm & Hle). destruct (H1 m Hm) as (c & HI). destruct (IH (n - 64 * m) ltac:(lia)) as (b & HR).
    exists (code c ++ b). replace n with (64 * m + (n - 64 * m)) by lia. apply Run_more; [exact HI|lia|exact HR].
Qed.
Lemma run_code_exists c n : 0 <= n -> exists b, Run (if c : bool then T4_white else T4_black) n b.
Proof. intros Hn. destruct (has_all (if c then T4_white else T4_black)) as [A B]; [destruct c; vm_compute; reflexivity|]. apply (run_exists _ A B (S (Z.to_nat n))). lia. Qed.
Lemma t6_exists w ref cur : 1 <= w -> len ref = w -> len cur = w -> forall n a0, w - a0 <= Z.of_nat n -> -1 <= a0 <= w -> exists bits, T6Line w ref cur a0 bits.
Proof.
  intros Hw Hr Hc. induction n as [|n IH]; intros a0 Hn Ha; [replace a0 with w by lia; exists []; apply T_end|].
  destruct (Z.eq_dec a0 w) as [->|Ne]; [exists []; apply T_end|].
  destruct (first_exists (fun i => Changing ref i /\ px ref i <> px cur a0)) with (w := w) (n := Z.to_nat (w - a0)) (x := a0) as (b1 & HB1); [|lia|].
  { intros i. destruct (changing_dec ref i) as [A|A]; [|right; tauto]. destruct (Bool.bool_dec (px ref i) (px cur a0)); [right; tauto|left; tauto]. }
  assert (Lb : a0 < b1 <= w) by (destruct HB1 as (A & [(B & _)|B] & _); lia).
  destruct (first_exists (Changing ref) (changing_dec ref) w (Z.to_nat (w - b1)) b1 ltac:(lia)) as (b2 & HB2).
  assert (Lb2 : b1 <= b2 <= w) by (destruct HB2 as (A & [(B & _)|B] & _); lia).
  destruct (first_exists (Changing cur) (changing_dec cur) w (Z.to_nat (w - a0)) a0 ltac:(lia)) as (a1 & HA1).
  assert (La : a0 < a1 <= w) by (destruct HA1 as (A & [(B & _)|B] & _); lia).
  destruct (Z_lt_dec b2 a1) as [L|L].
  - destruct (IH b2 ltac:(lia) ltac:(lia)) as (r & HR). eexists. eapply T_pass; try eassumption. lia.
  - destruct (Z_le_dec (-3) (a1 - b1)) as [V1|V1]; [destruct (Z_le_dec (a1 - b1) 3) as [V2|V2]|].
    + destruct (IH a1 ltac:(lia) ltac:(lia)) as (r & HR).
      assert (X : exists c, In (a1 - b1, c) vertical_codes).
      { apply has_in. assert (E : a1 - b1 = -3 \/ a1 - b1 = -2 \/ a1 - b1 = -1 \/ a1 - b1 = 0 \/ a1 - b1 = 1 \/ a1 - b1 = 2 \/ a1 - b1 = 3) by lia.
        destruct E as [E|[E|[E|[E|[E|[E|E]]]]]]; rewrite E; reflexivity. }
      destruct X as (c & HI). eexists. eapply T_vertical; try eassumption; lia.
    + destruct (first_exists (Changing cur) (changing_dec cur) w (Z.to_nat (w - a1)) a1 ltac:(lia)) as (a2 & HA2).
      assert (La2 : a1 <= a2 <= w) by (destruct HA2 as (A & [(B & _)|B] & _); lia).
      destruct (IH a2 ltac:(lia) ltac:(lia)) as (r & HR). destruct (run_code_exists (px cur a0) (a1 - Z.max 0 a0) ltac:(lia)) as (c1 & R1).
      destruct (run_code_exists (negb (px cur a0)) (a2 - a1) ltac:(lia)) as (c2 & R2).
      eexists. eapply T_horizontal; try eassumption; try lia. destruct (px cur a0); exact R2.
    + destruct (first_exists (Changing cur) (changing_dec cur) w (Z.to_nat (w - a1)) a1 ltac:(lia)) as (a2 & HA2).
      assert (La2 : a1 <= a2 <= w) by (destruct HA2 as (A & [(B & _)|B] & _); lia).
      destruct (IH a2 ltac:(lia) ltac:(lia)) as (r & HR). destruct (run_code_exists (px cur a0) (a1 - Z.max 0 a0) ltac:(lia)) as (c1 & R1).
      destruct (run_code_exists (negb (px cur a0)) (a2 - a1) ltac:(lia)) as (c2 & R2).
      eexists. eapply T_horizontal; try eassumption; try lia. destruct (px cur a0); exact R2.
Qed.
Theorem C51_t6_coding_exists : forall w rows, 1 <= w -> Forall (fun r => len r = w) rows -> forall ref, len ref = w ->
  exists cs, Coded w ref rows cs /\ Forall2 (fun row c => exists r0, T6Line w r0 row (-1) c) rows cs.
Proof.
  intros w rows Hw H. induction H as [|row rows Hl HF IH]; intros ref Hr.
  - exists []. split; constructor.
  - destruct (IH row Hl) as (cs & HC & H2). destruct (t6_exists w ref row Hw Hr Hl (S (Z.to_nat (w + 1))) (-1) ltac:(lia) ltac:(lia)) as (c & HT).
    exists (c :: cs). split; [constructor; [exact Hl|apply T6_line; exact HT|exact HC]|]. constructor; [exists ref; exact HT|exact H2].
Qed.
(* The defaults of the parameters are not those of the PDF Reference (K 0, Columns 1728) *)
Theorem C51_columns_refuted : forall d data, dget d "K" = Some (OInt (-1)) -> dget d "Columns" = None -> ccittfaxdecode data (ODict d) = Err TypeError.
Proof. intros d data HK HC. unfold ccittfaxdecode. rewrite HK, HC. reflexivity. Qed.
Theorem C51_group3_refuted : forall d data, dget d "K" = None \/ (exists k, dget d "K" = Some (OInt k) /\ k <> -1) -> ccittfaxdecode data (ODict d) = Err ValueError.
Proof.
  intros d data [HK|(k & HK & Hk)]; unfold ccittfaxdecode; rewrite HK; [reflexivity|]. destruct k as [|p|p]; try reflexivity. destruct p; try reflexivity. congruence.
Qed.
(* Rows is not consulted: lines coded after the last row of the image are decoded too, as long as no EOFB is met *)

(* ---------- C52 ---------- *)
Section c52.
  Context (w : Z) (al rv : bool) (Hw : 1 <= w).
  Definition OutLine (l : list Z) : Prop := exists row, len row = w /\ Packed rv row l.
  Definition Geo (k : nat) (p : parser) : Prop :=
    width p = w /\ align p = al /\ rev_out p = rv /\ len (refl p) = w /\ len (curl p) = w /\ -1 <= curpos p <= w /\
    exists lines, buf p = List.concat lines /\ Forall OutLine lines /\ (length lines <= k)%nat.
  Definition Inv (k : nat) (p : parser) : Prop := Geo k p /\ curpos p < w.
  Definition Fine (k : nat) (o : outcome) : Prop := match o with Go q | Skip q | Eofb q => Inv k q | Bad e => e = InvalidData end.
  Lemma geo_more k j p : (k <= j)%nat -> Geo k p -> Geo j p.
  Proof. intros H (H1 & H2 & H3 & H4 & H5 & H6 & (l & E & F & L)). unfold Geo. splits; try assumption; try lia. exists l. splits; try assumption. lia. Qed.
  Lemma fine_more k j o : (k <= j)%nat -> Fine k o -> Fine j o.
  Proof. intros H. destruct o; cbn; try tauto; intros [A B]; split; try assumption; apply (geo_more k); assumption. Qed.
  Lemma flush_fine k p : Geo k p -> Fine (S k) (flush_line p).
  Proof.
    intros HG. pose proof HG as (H1 & H2 & H3 & H4 & H5 & H6 & (l & E & F & L)). unfold flush_line. rewrite H1. destruct (w <=? curpos p) eqn:X.
    - assert (G : Inv (S k) (mkP w (align p) (curl p) (repeat true (Z.to_nat w)) (-1) true (n1 p) (n2 p) (ph p) (rev_out p) (buf p ++ output_line (rev_out p) (curl p)))).
      { split; [|cbn; lia]. unfold Geo. cbn. rewrite repeat_length. splits; try assumption; try lia. exists (l ++ [output_line rv (curl p)]). rewrite concat_app, app_length, E, H3.
        cbn [List.concat length]. rewrite app_nil_r. splits; [reflexivity| |lia]. apply Forall_app. split; [exact F|]. apply Forall_cons; [|apply Forall_nil].
        exists (curl p). split; [exact H5|apply output_packed]. }
      destruct (align p); exact G.
    - split; [apply (geo_more k); [lia|exact HG]|lia].
  Qed.
  Lemma andthen_fine k j o f : Fine k o -> (k <= j)%nat -> (forall q, Inv k q -> Fine j (f q)) -> Fine j (andthen o f).
  Proof. intros HO Hk HF. destruct o; cbn [andthen] in *; [apply HF; exact HO| | |]; apply (fine_more k _ _ Hk HO). Qed.
  Lemma geo_line k p l x : Geo k p -> len l = w -> -1 <= x <= w -> Geo k (set_line p l x).
  Proof. intros (H1 & H2 & H3 & H4 & H5 & H6 & HB) Hl Hx. unfold Geo. cbn. splits; try assumption; lia. Qed.
  Definition GoGeo (k : nat) (o : outcome) : Prop := match o with Go q => Geo k q | _ => False end.
  Lemma vertical_fine k p d : Inv k p -> GoGeo k (do_vertical p d).
  Proof.
    intros [HG HC]. pose proof HG as (H1 & H2 & H3 & H4 & H5 & H6 & HB). unfold do_vertical.
    destruct (find_b1_ok (fuel_of p) (refl p) (color p) (curpos p + 1) ltac:(lia) ltac:(lia) ltac:(unfold fuel_of; lia)) as (y & -> & _).
    rewrite H1. set (x1 := Z.max 0 (Z.min w (y + d))). set (x0 := Z.max 0 (curpos p)).
    assert (X : exists l, (if x1 <? x0 then fill_range (curl p) x1 x0 (color p) else fill_range (curl p) x0 x1 (color p)) = Some l /\ length l = length (curl p)).
    { destruct (x1 <? x0); [destruct (fill_range_ok (curl p) x1 x0 (color p) ltac:(lia) ltac:(lia)) as (l & E & L & _)
                           |destruct (fill_range_ok (curl p) x0 x1 (color p) ltac:(lia) ltac:(lia)) as (l & E & L & _)]; exists l; split; assumption. }
    destruct X as (l & -> & L). apply (geo_line k p l x1 HG); lia.
  Qed.
  Lemma pass_fine k p : Inv k p -> GoGeo k (do_pass p).
  Proof.
    intros [HG HC]. pose proof HG as (H1 & H2 & H3 & H4 & H5 & H6 & HB). unfold do_pass.
    destruct (find_b1_ok (fuel_of p) (refl p) (color p) (curpos p + 1) ltac:(lia) ltac:(lia) ltac:(unfold fuel_of; lia)) as (y & -> & HF & _).
    destruct (find_b2_ok (fuel_of p) (refl p) (color p) y ltac:(lia) ltac:(lia) ltac:(unfold fuel_of; lia)) as (z & -> & HF2 & _).
    assert (X : exists l, fill_range (curl p) (curpos p) z (color p) = Some l /\ length l = length (curl p)).
    { destruct (Z.eq_dec (curpos p) (-1)) as [->|N]; [destruct (fill_range_m1 (curl p) z (color p) ltac:(lia) ltac:(lia)) as (l & E & L & _)
       |destruct (fill_range_ok (curl p) (curpos p) z (color p) ltac:(lia) ltac:(lia)) as (l & E & L & _)]; exists l; split; assumption. }
    destruct X as (l & -> & L). apply geo_line; [exact HG|lia|lia].
  Qed.
  Lemma horizontal_fine k p a b : Inv k p -> GoGeo k (do_horizontal p a b).
  Proof.
    intros [HG HC]. pose proof HG as (H1 & H2 & H3 & H4 & H5 & H6 & HB). unfold do_horizontal.
    assert (Hx : 0 <= (if curpos p <? 0 then 0 else curpos p) <= w) by (destruct (curpos p <? 0) eqn:?; lia).
    destruct (run_ok (Z.to_nat a) (curl p) (if curpos p <? 0 then 0 else curpos p) (color p) ltac:(lia)) as (l & -> & L & _).
    match goal with |- context [run_from _ l ?x _] => destruct (run_ok (Z.to_nat b) l x (negb (color p)) ltac:(lia)) as (l' & -> & L' & _) end.
    apply geo_line; [exact HG|lia|lia].
  Qed.
  Lemma uncompressed_fine bits : forall k p, Inv k p -> Fine (k + length bits) (do_uncompressed p bits).
  Proof.
    induction bits as [|c bits IH]; intros k p HI; [cbn; rewrite Nat.add_0_r; exact HI|]. cbn [do_uncompressed]. pose proof HI as [HG HC].
    pose proof HG as (H1 & H2 & H3 & H4 & H5 & H6 & HB). destruct (put_pix_ok (curl p) (curpos p) c ltac:(lia)) as (l & -> & L & _).
    apply (andthen_fine (S k)); [apply flush_fine; apply geo_line; [exact HG|lia|lia]|cbn [length]; lia|].
    intros q HQ. cbn [length]. replace (k + S (length bits))%nat with (S k + length bits)%nat by lia. apply IH. exact HQ.
  Qed.
  Lemma inv_ph k p x : Inv k p -> Inv k (set_ph p x). Proof. intros H. exact H. Qed.
  Lemma geo_flush k o : GoGeo k o -> Fine (S k) (andthen (andthen o flush_line) (fun q => Go (set_ph q (P_mode MODE)))).
  Proof.
    intros H. destruct o; try contradiction. cbn [andthen]. apply (andthen_fine (S k)); [apply flush_fine; exact H|lia|]. intros q HQ. exact HQ.
  Qed.
  (* the longest text of an uncompressed code *)
  Definition okv (s : string) : Prop := match s with String "T"%char (String _ r) => (length (bits_of r) <= 5)%nat | _ => (length (bits_of s) <= 5)%nat end.
  Fixpoint short (t : tree string) : Prop :=
    match t with TNone => True | TVal s => okv s | TNode a b => short a /\ short b end.
  Definition PhOk (p : parser) : Prop := match ph p with P_unc t => short t | _ => True end.
  Lemma branch_short t b : short t -> match branch t b with inl t' => short t' | inr (Some s) => okv s | inr None => True end.
  Proof. destruct t as [|v|t0 t1]; cbn [branch]; try (intros _; exact Logic.I). intros [A B]. destruct b; [destruct t1|destruct t0]; cbn [short] in *; tauto. Qed.
  Lemma unc_short : short UNC. Proof. vm_compute. repeat split; lia. Qed.
  Definition Fine' (k : nat) (o : outcome) : Prop := Fine k o /\ match o with Go q => PhOk q | _ => True end.
  Lemma then_mode k o : Fine k o -> Fine' k (andthen o (fun q => Go (set_ph q (P_mode MODE)))).
  Proof. intros H. destruct o; cbn in *; split; try exact H; try exact Logic.I. Qed.
  Lemma bit_fine k p b : Inv k p -> PhOk p -> Fine' (k + 5) (parse_bit p b).
  Proof.
    intros HI HP. assert (M : Inv (k + 5) p) by (destruct HI as [A B]; split; [apply (geo_more k); [lia|exact A]|exact B]).
    unfold PhOk in HP. unfold parse_bit. destruct (ph p) as [t|t|t|t].
    - destruct (branch t b) as [t'|[m|]]; [split; [exact M|exact Logic.I]| |split; [reflexivity|exact Logic.I]].
      destruct m; cbn [parse_mode].
      + assert (X : Fine (S k) (andthen (andthen (do_vertical p d) flush_line) (fun q => Go (set_ph q (P_mode MODE))))) by (apply geo_flush, vertical_fine; exact HI).
        split; [apply (fine_more (S k)); [lia|exact X]|]. destruct (andthen (do_vertical p d) flush_line); exact Logic.I.
      + split; [exact M|exact Logic.I].
      + assert (X : Fine (S k) (andthen (andthen (do_pass p) flush_line) (fun q => Go (set_ph q (P_mode MODE))))) by (apply geo_flush, pass_fine; exact HI).
        split; [apply (fine_more (S k)); [lia|exact X]|]. destruct (andthen (do_pass p) flush_line); exact Logic.I.
      + split; [exact M|apply unc_short].
      + split; [reflexivity|exact Logic.I].
      + split; [exact M|exact Logic.I].
    - destruct (branch t b) as [t'|[n|]]; [split; [exact M|exact Logic.I]| |split; [reflexivity|exact Logic.I]].
      cbn [parse_horiz1]. destruct (n <? 64); split; try exact M; exact Logic.I.
    - destruct (branch t b) as [t'|[n|]]; [split; [exact M|exact Logic.I]| |split; [reflexivity|exact Logic.I]].
      cbn [parse_horiz2]. destruct (n <? 64); [|split; [exact M|exact Logic.I]].
      match goal with |- context [do_horizontal ?q ?x ?y] => assert (X : Fine (S k) (andthen (andthen (do_horizontal q x y) flush_line) (fun s => Go (set_ph s (P_mode MODE))))) by (apply geo_flush, horizontal_fine; exact HI) end.
      split; [apply (fine_more (S k)); [lia|exact X]|]. match goal with |- context [andthen ?o flush_line] => destruct (andthen o flush_line) end; exact Logic.I.
    - pose proof (branch_short t b HP) as HS. destruct (branch t b) as [t'|[s|]]; [split; [exact M|exact HS]| |split; [reflexivity|exact Logic.I]].
      assert (U : forall bits q, Inv k q -> (length bits <= 5)%nat -> Fine (k + 5) (do_uncompressed q bits)).
      { intros bits q HQ HL. apply (fine_more (k + length bits)); [lia|]. apply uncompressed_fine. exact HQ. }
      assert (UU : forall s', (length (bits_of s') <= 5)%nat -> Fine' (k + 5) (andthen (do_uncompressed p (bits_of s')) (fun q => Go (set_ph q (P_unc UNC))))).
      { intros s' HL. pose proof (U (bits_of s') p HI HL) as X. destruct (do_uncompressed p (bits_of s')); cbn [andthen]; split; try exact X; try exact Logic.I. apply unc_short. }
      assert (UT : forall c r, (length (bits_of r) <= 5)%nat -> Fine' (k + 5) (andthen (do_uncompressed (set_color p c) (bits_of r)) (fun q => Go (set_ph q (P_mode MODE))))).
      { intros c r HL. apply then_mode, U; [exact HI|exact HL]. }
      unfold parse_uncompressed. destruct s as [|x s]; [split; [reflexivity|exact Logic.I]|].
      destruct x as [[|] [|] [|] [|] [|] [|] [|] [|]]; try (apply UU; exact HS). destruct s as [|y s]; [apply UU; exact HS|].
      apply UT. exact HS.
  Qed.
  Lemma bits_fine l : forall k p, Inv k p -> PhOk p -> Fine' (k + 5 * length l) (parse_bits p l).
  Proof.
    induction l as [|b l IH]; intros k p HI HP; [cbn; rewrite Nat.add_0_r; split; [exact HI|exact HP]|]. cbn [parse_bits length].
    destruct (bit_fine k p b HI HP) as [A B]. destruct (parse_bit p b) as [q|q|q|e]; cbn [andthen].
    - replace (k + 5 * S (length l))%nat with (k + 5 + 5 * length l)%nat by lia. apply IH; [exact A|exact B].
    - split; [apply (fine_more (k + 5) _ (Skip q)); [lia|exact A]|exact Logic.I].
    - split; [apply (fine_more (k + 5) _ (Eofb q)); [lia|exact A]|exact Logic.I].
    - split; [exact A|exact Logic.I].
  Qed.
  Lemma feed_fine data : forall k p, Inv k p -> PhOk p -> match feedbytes p data with Ok q => Inv (k + 40 * length data) q | Err e => e = InvalidData end.
  Proof.
    induction data as [|c data IH]; intros k p HI HP; [cbn; rewrite Nat.add_0_r; exact HI|]. cbn [feedbytes length].
    destruct (bits_fine (byte_bits c) k p HI HP) as [A B]. change (5 * length (byte_bits c))%nat with 40%nat in A.
    replace (k + 40 * S (length data))%nat with (k + 40 + 40 * length data)%nat by lia.
    destruct (parse_bits p (byte_bits c)) as [q|q|q|e]; cbn [Fine] in A.
    - apply IH; assumption.
    - apply IH; [exact A|exact Logic.I].
    - destruct A as [A1 A2]. split; [apply (geo_more (k + 40)); [lia|exact A1]|exact A2].
    - exact A.
  Qed.
End c52.
(* C52. Whatever the data: either InvalidData is raised, or the output consists of packed lines of exactly the given width,
   each of ceil(w/8) bytes with the unused bits zero, at most 40 for each byte of data *)
Theorem C52_geometry : forall d w align black_is_1 data, Params d w align black_is_1 -> 1 <= w ->
  ccittfaxdecode data (ODict d) = Err InvalidData \/
  exists lines, ccittfaxdecode data (ODict d) = Ok (List.concat lines) /\ (length lines <= 40 * length data)%nat /\
    Forall (fun l => len l = (w + 7) / 8 /\ exists row, len row = w /\ Packed black_is_1 row l) lines.
Proof.
  intros d w al rv data HP Hw. rewrite (decode_params _ _ _ _ _ HP).
  assert (HI : Inv w al rv 0 (new_parser w al rv)).
  { split; [|cbn; lia]. unfold Geo, new_parser. cbn. rewrite repeat_length. splits; try reflexivity; try lia. exists []. splits; [reflexivity|apply Forall_nil|cbn; lia]. }
  pose proof (feed_fine w al rv Hw data 0 _ HI Logic.I) as H. destruct (feedbytes (new_parser w al rv) data) as [q|e]; [right|left; rewrite H; reflexivity].
  destruct H as [(_ & _ & _ & _ & _ & _ & (l & E & F & L)) _]. exists l. cbn [bind]. rewrite E. splits; [reflexivity|exact L|].
  eapply Forall_impl; [|exact F]. intros x (row & HL & HPk). split; [|exists row; split; assumption]. destruct HPk as (E1 & _). rewrite E1, HL. reflexivity.
Qed.
(* a width that is not positive raises instead *)
Theorem C52_zero_width : forall d align black_is_1, Params d 0 align black_is_1 -> ccittfaxdecode [128] (ODict d) = Err IndexError.
Proof. intros d al rv HP. rewrite (decode_params _ _ _ _ _ HP). reflexivity. Qed.

(* ---------- examples ---------- *)
(* the decoder at work: 8 columns, the lines wwwwbbbb and wwwwwwww *)
Example ex_params : Params [(ON "K", OInt (-1)); (ON "Columns", OInt 8)] 8 false false.
Proof. unfold Params. splits; try reflexivity; right; split; reflexivity. Qed.
Definition ex_rows : list (list bool) := [[true; true; true; true; false; false; false; false]; repeat true 8].
Example C51_witness : exists cs, Coded 8 (white_line 8) ex_rows cs /\ forall data, Stream cs data ->
  ccittfaxdecode data (ODict [(ON "K", OInt (-1)); (ON "Columns", OInt 8)]) = Ok [240; 255].
Proof.
  destruct (C51_t6_coding_exists 8 ex_rows ltac:(lia) ltac:(repeat constructor) (white_line 8) eq_refl) as (cs & HC & _). exists cs. split; [exact HC|].
  intros data HS. destruct (C51_roundtrip_partial _ 8 false ex_rows cs data ex_params ltac:(lia) HC HS) as (outs & E & HF). rewrite E. f_equal.
  inversion HF as [|? o1 ? os P1 H2]; subst. inversion H2 as [|? o2 ? ? P2 H3]; subst. inversion H3; subst.
  assert (Z1 : forall row o, length row = 8%nat -> Packed false row o -> exists b, o = [b] /\ is_byte b /\ byte_bits b = row).
  { intros row o L (A & B & C). rewrite L in A. change ((Z.of_nat 8 + 7) / 8) with 1 in A. destruct o as [|b [|? ?]]; cbn [length] in A; try lia. exists b.
    inversion B; subst. splits; [reflexivity|assumption|]. rewrite bits_in_cons in C. cbn [length bits_in flat_map] in C. rewrite L in C. rewrite app_nil_r in C. cbn [Nat.mul Nat.add Nat.sub repeat] in C.
    rewrite app_nil_r in C. rewrite C. rewrite <- (map_id row) at 2. apply map_ext. intros []; reflexivity. }
  destruct (Z1 [true; true; true; true; false; false; false; false] o1 eq_refl P1) as (b1 & -> & R1 & B1'). destruct (Z1 [true; true; true; true; true; true; true; true] o2 eq_refl P2) as (b2 & -> & R2 & B2').
  assert (U : forall b l, is_byte b -> byte_bits b = byte_bits l -> is_byte l -> b = l).
  { intros b l Hb HE Hl. rewrite !byte_bits_ok in HE. cbn [map] in HE. injection HE as E7 E6 E5 E4 E3 E2 E1 E0. unfold is_byte in *.
    apply Z.bits_inj'. intros i Hi. destruct (Z_lt_dec i 8) as [Li|Li].
    - assert (X : i = 0 \/ i = 1 \/ i = 2 \/ i = 3 \/ i = 4 \/ i = 5 \/ i = 6 \/ i = 7) by (clear - Hi Li; lia). destruct X as [->|[->|[->|[->|[->|[->|[->| ->]]]]]]]; assumption.
    - assert (Y : forall z, 0 <= z < 256 -> Z.testbit z i = false). clear - Hi Li.
      { intros z Hz. destruct (Z.eq_dec z 0) as [->|Nz]; [apply Z.bits_0|]. apply Z.bits_above_log2; [lia|]. apply Z.log2_lt_pow2; [lia|].
        apply Z.lt_le_trans with (2 ^ 8); [lia|]. apply Z.pow_le_mono_r; lia. }
      rewrite !Y by assumption. reflexivity. }
  rewrite (U b1 240 R1 B1'), (U b2 255 R2 B2') by (unfold is_byte; lia). reflexivity.
Qed.
(* the same with actual bytes: 001 1011 011 (horizontal 4 4), 001 10011 0000110111 (horizontal 8 0), four zero bits *)
Example C51_bytes : ccittfaxdecode [54; 204; 195; 112] (ODict [(ON "K", OInt (-1)); (ON "Columns", OInt 8)]) = Ok [240; 255].
Proof. vm_compute. reflexivity. Qed.
Example C52_witness : ccittfaxdecode [0; 0] (ODict [(ON "K", OInt (-1)); (ON "Columns", OInt 8)]) = Err InvalidData.
Proof. vm_compute. reflexivity. Qed.
