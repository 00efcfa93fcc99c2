From Verif Require Import Base LZW_Model LZW_Spec.
From Coq Require Import ZifyBool ZifyNat.

(* ---------- bits ---------- *)
Definition val_from (v : Z) (l : list bool) : Z :=
  fold_left (fun a (b : bool) => 2 * a + (if b then 1 else 0)) l v.

Lemma val_from_app v a b : val_from v (a ++ b) = val_from (val_from v a) b.
Proof. unfold val_from. apply fold_left_app. Qed.

Lemma val_from_0 l : forall v, val_from v l = v * 2 ^ Z.of_nat (length l) + val_from 0 l.
Proof.
  induction l as [|b l IH]; intros v.
  - cbn. lia.
  - cbn [val_from fold_left length]. change (fold_left _ l ?x) with (val_from x l).
    rewrite (IH (2 * v + _)), (IH (2 * 0 + _)). rewrite Nat2Z.inj_succ, Z.pow_succ_r by lia. lia.
Qed.

Lemma val_from_bound l : 0 <= val_from 0 l < 2 ^ Z.of_nat (length l).
Proof.
  induction l as [|b l IH].
  - cbn. lia.
  - cbn [val_from fold_left length]. change (fold_left _ l ?x) with (val_from x l).
    rewrite val_from_0. rewrite Nat2Z.inj_succ, Z.pow_succ_r by lia. destruct b; lia.
Qed.

Lemma to_bits_length n v : length (to_bits n v) = n.
Proof. induction n as [|n IH]; cbn; [reflexivity|rewrite IH; reflexivity]. Qed.

Lemma to_bits_val_gen n v : val_from 0 (to_bits n v) = v mod 2 ^ Z.of_nat n.
Proof.
  induction n as [|n IH].
  - cbn. change (2 ^ Z.of_nat 0) with 1. rewrite Z.mod_1_r. reflexivity.
  - cbn [to_bits]. cbn [val_from fold_left]. change (fold_left _ ?l ?x) with (val_from x l).
    rewrite val_from_0, to_bits_length, IH. clear IH.
    rewrite Nat2Z.inj_succ, Z.pow_succ_r by lia.
    set (p := 2 ^ Z.of_nat n). assert (Hp : 0 < p) by (apply Z.pow_pos_nonneg; lia).
    assert (Hq : v / p = 2 * (v / p / 2) + (if Z.odd (v / p) then 1 else 0)).
    { pose proof (Z.div_mod (v / p) 2 ltac:(lia)) as H. rewrite Zmod_odd in H. exact H. }
    pose proof (Z.div_mod v p ltac:(lia)) as Hv. pose proof (Z.mod_pos_bound v p Hp) as Hb.
    apply (Z.mod_unique_pos v (2 * p) (v / p / 2)).
    + destruct (Z.odd (v / p)); lia.
    + rewrite Hv at 1. rewrite Hq at 1. ring.
Qed.

Lemma to_bits_val n v : 0 <= v < 2 ^ Z.of_nat n -> val_from 0 (to_bits n v) = v.
Proof. intros H. rewrite to_bits_val_gen. apply Z.mod_small. exact H. Qed.

Lemma lor_shift v b x : 0 <= b -> 0 <= x < 2 ^ b -> Z.lor (Z.shiftl v b) x = v * 2 ^ b + x.
Proof.
  intros Hb Hx. rewrite <- Z.shiftl_mul_pow2 by assumption.
  symmetry. rewrite <- Z.lxor_lor; [apply Z.add_nocarry_lxor|].
  all: apply Z.bits_inj'; intros n Hn; rewrite Z.land_spec, Z.bits_0, Z.shiftl_spec by assumption;
    destruct (Z.ltb_spec n b) as [H|H].
  all: try (rewrite Z.testbit_neg_r by lia; reflexivity).
  all: assert (Z.testbit x n = false) as ->; [|apply andb_false_r].
  all: destruct (Z.eq_dec x 0) as [->|Hx0]; [apply Z.bits_0|];
       apply Z.bits_above_log2; [lia|]; assert (Z.log2 x < b) by (apply Z.log2_lt_pow2; lia); lia.
Qed.

(* finite check: extracting k bits of a byte *)
Definition extract_ok (b p k : nat) : bool :=
  Z.land (Z.shiftr (Z.of_nat b) (8 - Z.of_nat p - Z.of_nat k)) (Z.shiftl 1 (Z.of_nat k) - 1)
  =? val_from 0 (firstn k (skipn p (to_bits 8 (Z.of_nat b)))).
Definition sweep (P : nat -> nat -> nat -> bool) (nb np : nat) : bool :=
  forallb (fun b => forallb (fun p => forallb (fun k => P b p k) (seq 0 (S (8 - p)))) (seq 0 np)) (seq 0 nb).
Lemma sweep_spec P nb np : sweep P nb np = true ->
  forall b p k, (b < nb)%nat -> (p < np)%nat -> (k <= 8 - p)%nat -> P b p k = true.
Proof.
  unfold sweep. intros E b p k Hb Hp Hk.
  rewrite forallb_forall in E. specialize (E b). rewrite in_seq in E. specialize (E ltac:(lia)).
  rewrite forallb_forall in E. specialize (E p). rewrite in_seq in E. specialize (E ltac:(lia)).
  rewrite forallb_forall in E. specialize (E k). rewrite in_seq in E. apply E. lia.
Qed.
Lemma extract_all_true : sweep extract_ok 256 9 = true. Proof. vm_compute. reflexivity. Qed.

Lemma extract b p k : 0 <= b < 256 -> 0 <= p -> 0 <= k -> p + k <= 8 ->
  Z.land (Z.shiftr b (8 - p - k)) (Z.shiftl 1 k - 1)
  = val_from 0 (firstn (Z.to_nat k) (skipn (Z.to_nat p) (to_bits 8 b))).
Proof.
  intros Hb Hp Hk Hpk.
  pose proof (sweep_spec _ _ _ extract_all_true (Z.to_nat b) (Z.to_nat p) (Z.to_nat k)
                ltac:(lia) ltac:(lia) ltac:(lia)) as E.
  unfold extract_ok in E. rewrite !Z2Nat.id in E by lia. apply Z.eqb_eq in E. exact E.
Qed.

(* the bits still unread *)
Definition stream (fp : list Z) (buff bpos : Z) : list bool :=
  skipn (Z.to_nat bpos) (to_bits 8 buff) ++ flat_map (to_bits 8) fp.

Lemma readbits_spec fp : forall buff bpos v bits,
  bytes fp -> is_byte buff -> 0 <= bpos <= 8 -> 0 <= bits ->
  (Z.of_nat (length (stream fp buff bpos)) < bits -> readbits fp buff bpos v bits = None) /\
  (bits <= Z.of_nat (length (stream fp buff bpos)) ->
   exists fp' buff' bpos',
     readbits fp buff bpos v bits
       = Some (val_from v (firstn (Z.to_nat bits) (stream fp buff bpos)), (fp', buff', bpos')) /\
     stream fp' buff' bpos' = skipn (Z.to_nat bits) (stream fp buff bpos) /\
     bytes fp' /\ is_byte buff' /\ 0 <= bpos' <= 8 /\
     (8 - bpos < bits -> (length fp' < length fp)%nat)).
Proof.
  induction fp as [|x fp IH]; intros buff bpos v bits Hfp Hbuff Hbpos Hbits.
  - cbn [readbits]. unfold stream at 1 2. cbn [flat_map]. rewrite app_nil_r, skipn_length, to_bits_length.
    destruct (bits <=? 8 - bpos) eqn:E.
    + split; [lia|]. intros _. do 3 eexists. split; [f_equal; f_equal|].
      { rewrite extract by (unfold is_byte in *; lia).
        unfold stream. cbn [flat_map]. rewrite app_nil_r.
        set (l := firstn _ _).
        assert (Hl : Z.of_nat (length l) = bits).
        { unfold l. rewrite firstn_length, skipn_length, to_bits_length. lia. }
        rewrite (val_from_0 l v), Hl. apply lor_shift; [lia|]. rewrite <- Hl. apply val_from_bound. }
      unfold stream. cbn [flat_map]. rewrite !app_nil_r.
      split. { rewrite skipn_skipn. f_equal. lia. }
      splits; try assumption; try (unfold is_byte in *; lia).
    + split; [reflexivity|]. lia.
  - cbn [readbits]. inversion_clear Hfp as [|? ? Hx Hfp'].
    destruct (bits <=? 8 - bpos) eqn:E.
    + split. { unfold stream. rewrite app_length, skipn_length, to_bits_length. lia. }
      intros _. do 3 eexists. split; [f_equal; f_equal|].
      { rewrite extract by (unfold is_byte in *; lia).
        unfold stream. rewrite firstn_app, skipn_length, to_bits_length.
        replace (Z.to_nat bits - (8 - Z.to_nat bpos))%nat with 0%nat by lia.
        cbn [firstn]. rewrite app_nil_r.
        set (l := firstn _ _).
        assert (Hl : Z.of_nat (length l) = bits).
        { unfold l. rewrite firstn_length, skipn_length, to_bits_length. lia. }
        rewrite (val_from_0 l v), Hl. apply lor_shift; [lia|]. rewrite <- Hl. apply val_from_bound. }
      unfold stream. split.
      { rewrite skipn_app, skipn_skipn, skipn_length, to_bits_length.
        replace (Z.to_nat bits - (8 - Z.to_nat bpos))%nat with 0%nat by lia. cbn [skipn].
        f_equal. f_equal. lia. }
      splits; try (constructor; assumption); try assumption; try (unfold is_byte in *; lia).
    + remember (8 - bpos) as r eqn:Er0.
      assert (Hst : stream (x :: fp) buff bpos = skipn (Z.to_nat bpos) (to_bits 8 buff) ++ stream fp x 0).
      { unfold stream. reflexivity. }
      assert (Hlen : length (skipn (Z.to_nat bpos) (to_bits 8 buff)) = Z.to_nat r).
      { rewrite skipn_length, to_bits_length. lia. }
      assert (Hv : Z.lor (Z.shiftl v r) (Z.land buff (Z.shiftl 1 r - 1)) =
                   val_from v (skipn (Z.to_nat bpos) (to_bits 8 buff))).
      { pose proof (extract buff bpos r Hbuff ltac:(lia) ltac:(lia) ltac:(lia)) as Ex.
        replace (8 - bpos - r) with 0 in Ex by lia. rewrite Z.shiftr_0_r in Ex. rewrite Ex.
        rewrite <- Hlen, firstn_all. rewrite (val_from_0 _ v).
        rewrite Hlen, Z2Nat.id by lia. apply lor_shift; [lia|].
        pose proof (val_from_bound (skipn (Z.to_nat bpos) (to_bits 8 buff))) as Hb.
        rewrite Hlen, Z2Nat.id in Hb by lia. exact Hb. }
      rewrite Hv. rewrite Hst, app_length, Hlen.
      destruct (IH x 0 (val_from v (skipn (Z.to_nat bpos) (to_bits 8 buff))) (bits - r) Hfp' Hx ltac:(lia) ltac:(lia)) as [I1 I2].
      split.
      * intros H. apply I1. lia.
      * intros H. destruct (I2 ltac:(lia)) as (fp'&buff'&bpos'&Er&Es&Hb1&Hb2&Hb3&Hlt).
        exists fp', buff', bpos'. split.
        { rewrite Er. f_equal. f_equal. rewrite <- val_from_app. f_equal.
          rewrite firstn_app, Hlen. rewrite (firstn_all2 (skipn _ _)) by lia. f_equal. f_equal. lia. }
        split. { rewrite Es. rewrite skipn_app, Hlen. rewrite (skipn_all2 (skipn _ _)) by lia.
                 cbn [app]. f_equal. lia. }
        splits; try assumption; try lia.
        intros _. destruct (Z.leb_spec (bits - r) (8 - 0)) as [H8|H8].
        -- destruct fp; cbn [readbits] in Er; replace (bits - r <=? 8 - 0) with true in Er by lia;
             match type of Er with Some (_, (?l, _, _)) = _ => assert (fp' = l) by congruence end; subst fp'; cbn; lia.
        -- specialize (Hlt H8). cbn. lia.
Qed.

(* ---------- packing ---------- *)
Lemma val_from_inj : forall a b, length a = length b -> val_from 0 a = val_from 0 b -> a = b.
Proof.
  induction a as [|x a IH]; intros [|y b] Hl Hv; cbn in Hl; try discriminate; [reflexivity|].
  injection Hl as Hl. cbn [val_from fold_left] in Hv. change (fold_left _ ?l ?z) with (val_from z l) in Hv.
  rewrite (val_from_0 a), (val_from_0 b), <- Hl in Hv.
  pose proof (val_from_bound a) as Ha. pose proof (val_from_bound b) as Hb. rewrite <- Hl in Hb.
  set (p := 2 ^ Z.of_nat (length a)) in *.
  assert (x = y) as -> by (destruct x, y; try reflexivity; lia).
  f_equal. apply IH; [assumption|]. destruct y; lia.
Qed.

Lemma to_bits_bits_val l : to_bits (length l) (val_from 0 l) = l.
Proof.
  apply val_from_inj. { apply to_bits_length. }
  apply to_bits_val. apply val_from_bound.
Qed.

Lemma pack_bits_spec : forall f l, (length l <= f)%nat ->
  bytes (pack_bits f l) /\
  exists pad, flat_map (to_bits 8) (pack_bits f l) = l ++ repeat false pad /\ (pad < 8)%nat.
Proof.
  induction f as [|f IH]; intros l Hl.
  - destruct l; [|cbn in Hl; lia]. split; [constructor|]. exists 0%nat. split; [reflexivity|lia].
  - destruct l as [|b l]. { split; [constructor|]. exists 0%nat. split; [reflexivity|lia]. }
    cbn [pack_bits].
    set (L := b :: l) in *. assert (HL : (0 < length L)%nat) by (cbn; lia).
    destruct (IH (skipn 8 L)) as [IHb (pad & IHe & Hpad)]. { rewrite skipn_length. lia. }
    assert (H8 : length (firstn 8 (L ++ repeat false 7)) = 8%nat).
    { rewrite firstn_length, app_length, repeat_length. lia. }
    assert (Hval : 0 <= bits_val (firstn 8 (L ++ repeat false 7)) < 256).
    { pose proof (val_from_bound (firstn 8 (L ++ repeat false 7))) as H. rewrite H8 in H. exact H. }
    split. { constructor; [exact Hval|assumption]. }
    assert (Hbyte : to_bits 8 (bits_val (firstn 8 (L ++ repeat false 7))) = firstn 8 (L ++ repeat false 7)).
    { pose proof (to_bits_bits_val (firstn 8 (L ++ repeat false 7))) as H. rewrite H8 in H. exact H. }
    cbn [flat_map]. rewrite Hbyte.
    destruct (Nat.leb_spec 8 (length L)) as [Hge|Hlt].
    + exists pad. split; [|assumption]. rewrite IHe.
      rewrite firstn_app. replace (8 - length L)%nat with 0%nat by lia. rewrite firstn_O, app_nil_r.
      rewrite app_assoc, firstn_skipn. reflexivity.
    + exists (8 - length L)%nat. split; [|lia].
      rewrite (skipn_all2 L) by lia.
      replace (pack_bits f []) with (@nil Z) by (destruct f; reflexivity). cbn [flat_map].
      rewrite app_nil_r. rewrite firstn_app, (firstn_all2 L) by lia. f_equal.
      assert (H7 : (8 - length L <= 7)%nat) by lia.
      clear - H7. generalize dependent (8 - length L)%nat. intros n H7.
      do 8 (destruct n as [|n]; [reflexivity|]). lia.
Qed.

(* ---------- the dictionary ---------- *)
Definition dec_table (d : list (list Z)) : list (option (list Z)) := base_table ++ map Some d.

Lemma base_table_length : length base_table = 258%nat. Proof. reflexivity. Qed.
Lemma dec_table_length d : length (dec_table d) = (258 + length d)%nat.
Proof. unfold dec_table. rewrite app_length, map_length, base_table_length. reflexivity. Qed.
#[global] Opaque base_table.

Lemma base_table_nth c : 0 <= c < 256 -> nth_error base_table (Z.to_nat c) = Some (Some [c]).
Proof.
  intros Hc. Transparent base_table. unfold base_table. Opaque base_table.
  rewrite nth_error_app1 by (rewrite map_length, seq_length; lia).
  assert (H : forall k a n, (k < n)%nat -> nth_error (map (fun n => Some [Z.of_nat n]) (seq a n)) k = Some (Some [Z.of_nat (a + k)])).
  { induction k as [|k IHk]; intros a n Hk; (destruct n as [|n]; [lia|]); cbn [seq map nth_error].
    - rewrite Nat.add_0_r. reflexivity.
    - rewrite IHk by lia. do 4 f_equal. lia. }
  rewrite H by lia. do 3 f_equal. lia.
Qed.

Lemma dec_table_nth_hi d i : nth_error (dec_table d) (258 + i) = option_map Some (nth_error d i).
Proof.
  unfold dec_table. rewrite nth_error_app2 by (rewrite base_table_length; lia).
  rewrite base_table_length. replace (258 + i - 258)%nat with i by lia. apply nth_error_map.
Qed.

Lemma find_index_spec w d : forall i c, find_index w d i = Some c ->
  exists j, c = i + Z.of_nat j /\ nth_error d j = Some w /\ (j < length d)%nat.
Proof.
  induction d as [|x d IH]; intros i c H; cbn [find_index] in H; [discriminate|].
  destruct (list_eqb x w) eqn:E.
  - injection H as <-. apply list_eqb_eq in E. subst. exists 0%nat. split; [lia|]. split; [reflexivity|cbn; lia].
  - apply IH in H as (j&->&Hj&Hl). exists (S j). split; [lia|]. split; [exact Hj|cbn; lia].
Qed.

(* a code in the dictionary being read denotes its string *)
Lemma code_of_nth w d c : bytes w -> code_of w d = Some c ->
  nth_error (dec_table d) (Z.to_nat c) = Some (Some w) /\ 0 <= c /\ c <> 256 /\ c <> 257 /\
  c < 258 + Z.of_nat (length d) /\ (258 <= c -> length w <> 1%nat).
Proof.
  intros Hw H. destruct w as [|a [|b w]]; cbn [code_of] in H; [discriminate| |].
  - injection H as <-. inversion_clear Hw as [|? ? Ha _]. unfold is_byte in Ha.
    split. { unfold dec_table. rewrite nth_error_app1 by (rewrite base_table_length; lia). apply base_table_nth. lia. }
    lia.
  - apply find_index_spec in H as (j&->&Hj&Hl).
    replace (Z.to_nat (258 + Z.of_nat j)) with (258 + j)%nat by lia.
    split. { rewrite dec_table_nth_hi, Hj. reflexivity. }
    splits; try lia. cbn. lia.
Qed.

(* ---------- decoding any valid code sequence ---------- *)
Definition codes_since (d : list (list Z)) (p : option (list Z)) : nat :=
  match p with None => 0 | Some _ => S (length d) end.

Definition prev_bytes (p : option (list Z)) : option (list Z) :=
  match p with None => Some [] | Some w => Some w end.

Definition inv_nbits (d : list (list Z)) (p : option (list Z)) : Z := Z.of_nat (code_width (codes_since d p)).

Lemma code_width_bounds n : (9 <= code_width n <= 12)%nat.
Proof. unfold code_width. repeat destruct (Nat.leb _ _); lia. Qed.

Lemma next_nbits_width d p w p' k :
  next_nbits (Z.of_nat (length (dec_table d)) + 1) (inv_nbits d (Some p)) = inv_nbits (d ++ [p' ++ [k]]) (Some w).
Proof.
  unfold inv_nbits, codes_since. rewrite dec_table_length, app_length. cbn [length].
  replace (length d + 1)%nat with (S (length d)) by lia.
  generalize (length d) as m. intro m. unfold next_nbits, code_width.
  destruct (Nat.leb_spec (258 + S m) 511), (Nat.leb_spec (258 + S (S m)) 511),
    (Nat.leb_spec (258 + S m) 1023), (Nat.leb_spec (258 + S (S m)) 1023),
    (Nat.leb_spec (258 + S m) 2047), (Nat.leb_spec (258 + S (S m)) 2047); try lia;
  repeat match goal with |- context [if ?b then _ else _] => destruct b eqn:? end; lia.
Qed.

Definition wf_prev (p : option (list Z)) : Prop := match p with None => True | Some w => w <> [] /\ bytes w end.
Definition wf_dict (d : list (list Z)) : Prop := Forall (fun w => (2 <= length w)%nat /\ bytes w) d.

(* reading one code of the stream *)
Lemma read_code fp buff bpos n c rest :
  bytes fp -> is_byte buff -> 0 <= bpos <= 8 -> 0 <= c < 2 ^ Z.of_nat n -> (9 <= n)%nat ->
  stream fp buff bpos = to_bits n c ++ rest ->
  exists fp' buff' bpos',
    readbits fp buff bpos 0 (Z.of_nat n) = Some (c, (fp', buff', bpos')) /\
    stream fp' buff' bpos' = rest /\ bytes fp' /\ is_byte buff' /\ 0 <= bpos' <= 8 /\
    (length fp' < length fp)%nat.
Proof.
  intros Hfp Hb Hp Hc Hn Hs.
  destruct (readbits_spec fp buff bpos 0 (Z.of_nat n) Hfp Hb Hp ltac:(lia)) as [_ H].
  rewrite Hs in H. rewrite app_length, to_bits_length in H.
  destruct (H ltac:(lia)) as (fp'&buff'&bpos'&E&Es&H1&H2&H3&H4).
  exists fp', buff', bpos'. rewrite Nat2Z.id in *.
  rewrite firstn_app, to_bits_length, Nat.sub_diag in E. cbn [firstn] in E.
  rewrite app_nil_r, firstn_all2, to_bits_val in E by (rewrite ?to_bits_length; lia).
  rewrite skipn_app, to_bits_length, Nat.sub_diag, skipn_all2 in Es by (rewrite to_bits_length; lia).
  cbn [skipn app] in Es. splits; try assumption; lia.
Qed.

Lemma read_eof fp buff bpos n k :
  bytes fp -> is_byte buff -> 0 <= bpos <= 8 -> (9 <= n)%nat ->
  stream fp buff bpos = repeat false k -> (k < 8)%nat ->
  readbits fp buff bpos 0 (Z.of_nat n) = None.
Proof.
  intros Hfp Hb Hp Hn Hs Hk.
  destruct (readbits_spec fp buff bpos 0 (Z.of_nat n) Hfp Hb Hp ltac:(lia)) as [H _].
  apply H. rewrite Hs, repeat_length. lia.
Qed.

(* bound on codes *)
Lemma code_width_fits d p c : 0 <= c < 258 + Z.of_nat (length d) + match p with None => 0 | Some _ => 1 end ->
  c <= 4095 -> (p = None -> d = []) -> c < 2 ^ inv_nbits d p.
Proof.
  intros Hc H4 Hd. unfold inv_nbits, codes_since, code_width.
  destruct p as [w|].
  - destruct (Nat.leb_spec (258 + S (length d)) 511); [change (2 ^ Z.of_nat 9) with 512; lia|].
    destruct (Nat.leb_spec (258 + S (length d)) 1023); [change (2 ^ Z.of_nat 10) with 1024; lia|].
    destruct (Nat.leb_spec (258 + S (length d)) 2047); [change (2 ^ Z.of_nat 11) with 2048; lia|].
    change (2 ^ Z.of_nat 12) with 4096; lia.
  - rewrite Hd in Hc by reflexivity. cbn in Hc. change (2 ^ Z.of_nat (if Nat.leb (258 + 0) 511 then 9 else if Nat.leb (258 + 0) 1023 then 10 else if Nat.leb (258 + 0) 2047 then 11 else 12)) with 512. lia.
Qed.

Lemma width_512 d p c : 0 <= c < 512 -> 0 <= c < 2 ^ inv_nbits d p.
Proof.
  intros H. unfold inv_nbits. pose proof (code_width_bounds (codes_since d p)) as Hw.
  assert (2 ^ 9 <= 2 ^ Z.of_nat (code_width (codes_since d p))) by (apply Z.pow_le_mono_r; lia).
  change (2 ^ 9) with 512 in *. lia.
Qed.

Lemma feed_first c nb : is_byte c ->
  feed c nb (Some base_table) (Some []) = Ok (nb, Some base_table, Some [c], [c]).
Proof.
  intros H. unfold is_byte in H. unfold feed. destruct (c =? 256) eqn:E1; [lia|]. destruct (c =? 257) eqn:E2; [lia|].
  cbn [truthy negb]. rewrite base_table_nth by lia. reflexivity.
Qed.

Lemma dec_table_snoc d x : dec_table d ++ [Some x] = dec_table (d ++ [x]).
Proof. unfold dec_table. rewrite map_app, app_assoc. reflexivity. Qed.

Lemma feed_code d p w k w' c nb :
  wf_dict d -> p <> [] -> bytes p -> bytes w -> w = k :: w' ->
  code_of w (d ++ [p ++ [k]]) = Some c ->
  feed c nb (Some (dec_table d)) (Some p)
  = Ok (next_nbits (Z.of_nat (length (dec_table d)) + 1) nb, Some (dec_table (d ++ [p ++ [k]])), Some w, w).
Proof.
  intros Hd Hp Hbp Hw Ew Hc.
  assert (Hbd : bytes w) by assumption.
  destruct (code_of_nth w _ c Hw Hc) as (Hn&H0&H1&H2&H3&H4).
  rewrite app_length in H3. cbn [length] in H3.
  unfold feed. destruct (c =? 256) eqn:E1; [lia|]. destruct (c =? 257) eqn:E2; [lia|].
  destruct p as [|p0 pr]; [congruence|]. set (p := p0 :: pr) in *.
  replace (negb (truthy (Some p))) with false by reflexivity.
  rewrite dec_table_length.
  destruct (c <? Z.of_nat (258 + length d)) eqn:E3.
  - assert (Hn' : nth_error (dec_table d) (Z.to_nat c) = Some (Some w)).
    { rewrite <- dec_table_snoc in Hn. rewrite nth_error_app1 in Hn by (rewrite dec_table_length; lia). exact Hn. }
    rewrite Hn', Ew. cbn [firstn]. rewrite dec_table_snoc. reflexivity.
  - destruct (c =? Z.of_nat (258 + length d)) eqn:E4; [|lia].
    assert (Hn' : Some w = Some (p ++ [k])).
    { rewrite <- dec_table_snoc in Hn. rewrite nth_error_app2 in Hn by (rewrite dec_table_length; lia).
      replace (Z.to_nat c - length (dec_table d))%nat with 0%nat in Hn by (rewrite dec_table_length; lia).
      cbn in Hn. injection Hn as Hn. symmetry. f_equal. exact Hn. }
    injection Hn' as Hwp. assert (Hk : k = p0) by (rewrite Ew in Hwp; unfold p in Hwp; cbn in Hwp; congruence).
    change (firstn 1 p) with [p0]. rewrite dec_table_snoc. rewrite Hwp, Hk. reflexivity.
Qed.

Lemma feed_eod nb t pb : feed 257 nb t pb = Ok (nb, t, pb, []).
Proof. reflexivity. Qed.

Lemma lzw_run_seq d p s cs : LzwSeq d p s cs ->
  wf_dict d -> wf_prev p -> bytes s -> (p = None -> d = []) ->
  forall fuel fp buff bpos out pad,
  bytes fp -> is_byte buff -> 0 <= bpos <= 8 -> (length fp <= fuel)%nat -> (pad < 8)%nat ->
  stream fp buff bpos = write_codes (codes_since d p) cs ++ repeat false pad ->
  lzw_run fuel (mkLZW fp buff bpos (inv_nbits d p) (Some (dec_table d)) (prev_bytes p)) out = Ok (out ++ s).
Proof.
  induction 1 as [d p|d p s cs H IH|c s cs H IH|d p w s c cs k w' Ew Hc H4 H IH];
    intros Hd Hp Hs Hnd fuel fp0 buff0 bpos0 out pad Hfp Hb Hbp Hfuel Hpad Hst.
  - (* EOD then only padding *)
    cbn [write_codes] in Hst. rewrite app_nil_r in Hst.
    destruct (read_code fp0 buff0 bpos0 (code_width (codes_since d p)) 257 (repeat false pad)) as (fp1&b1&p1&E&Es&G1&G2&G3&G4);
      try assumption. { apply width_512. lia. } { pose proof (code_width_bounds (codes_since d p)); lia. }
    destruct fuel as [|fuel]; [lia|]. cbn [lzw_run LZW_Model.fp buff bpos nbits table prevbuf].
    unfold inv_nbits at 1. rewrite E, feed_eod. rewrite app_nil_r.
    pose proof (code_width_bounds (codes_since d p)) as Hcw.
    pose proof (read_eof fp1 b1 p1 (code_width (codes_since d p)) pad G1 G2 G3 ltac:(lia) Es Hpad) as Heof.
    destruct fuel as [|fuel]; cbn [lzw_run LZW_Model.fp buff bpos nbits table prevbuf];
    unfold inv_nbits at 1; rewrite Heof; reflexivity.
  - (* clear *)
    cbn [write_codes] in Hst. change (256 =? 256) with true in Hst. cbv iota in Hst. rewrite <- app_assoc in Hst.
    destruct (read_code fp0 buff0 bpos0 (code_width (codes_since d p)) 256 (write_codes 0 cs ++ repeat false pad)) as (fp1&b1&p1&E&Es&G1&G2&G3&G4);
      try assumption. { apply width_512. lia. } { pose proof (code_width_bounds (codes_since d p)); lia. }
    destruct fuel as [|fuel]; [lia|]. cbn [lzw_run LZW_Model.fp buff bpos nbits table prevbuf].
    unfold inv_nbits at 1. rewrite E. unfold feed. change (256 =? 256) with true. cbv iota. cbn [app]. rewrite app_nil_r.
    specialize (IH ltac:(constructor) I Hs ltac:(reflexivity) fuel fp1 b1 p1 out pad G1 G2 G3 ltac:(lia) Hpad Es).
    unfold dec_table in IH. cbn [map] in IH. rewrite app_nil_r in IH. exact IH.
  - (* first code after clear *)
    inversion_clear Hs as [|? ? Hcb Hs']. assert (Hc' : 0 <= c < 256) by exact Hcb.
    cbn [write_codes] in Hst. destruct (c =? 256) eqn:E256; [lia|]. rewrite <- app_assoc in Hst.
    destruct (read_code fp0 buff0 bpos0 (code_width (codes_since [] None)) c (write_codes 1 cs ++ repeat false pad)) as (fp1&b1&p1&E&Es&G1&G2&G3&G4);
      try assumption. { apply width_512. lia. } { cbn. lia. }
    destruct fuel as [|fuel]; [lia|]. cbn [lzw_run LZW_Model.fp buff bpos nbits table prevbuf].
    unfold inv_nbits at 1. rewrite E. cbn [prev_bytes].
    unfold dec_table. cbn [map]. rewrite app_nil_r. rewrite feed_first by assumption.
    specialize (IH ltac:(constructor) ltac:(split; [discriminate|constructor; [assumption|constructor]]) Hs' ltac:(discriminate)
                fuel fp1 b1 p1 (out ++ [c]) pad G1 G2 G3 ltac:(lia) Hpad Es).
    unfold dec_table in IH. cbn [map] in IH. rewrite app_nil_r in IH.
    change (inv_nbits [] (Some [c])) with (inv_nbits [] None) in IH. cbn [prev_bytes] in IH.
    rewrite IH. rewrite <- app_assoc. reflexivity.
  - (* a code *)
    destruct Hp as [Hpne Hpb]. unfold bytes in Hs. apply Forall_app in Hs as [Hw Hs'].
    destruct (code_of_nth w _ c Hw Hc) as (Hn&H0&H1&H2&H3&H5). rewrite app_length in H3. cbn [length] in H3.
    cbn [write_codes] in Hst. destruct (c =? 256) eqn:E256; [lia|]. rewrite <- app_assoc in Hst.
    destruct (read_code fp0 buff0 bpos0 (code_width (codes_since d (Some p))) c
               (write_codes (S (codes_since d (Some p))) cs ++ repeat false pad)) as (fp1&b1&p1&E&Es&G1&G2&G3&G4);
      try assumption. { split; [assumption|]. apply (code_width_fits d (Some p)); try assumption; lia. }
    { pose proof (code_width_bounds (codes_since d (Some p))); lia. }
    destruct fuel as [|fuel]; [lia|]. cbn [lzw_run LZW_Model.fp buff bpos nbits table prevbuf].
    unfold inv_nbits at 1. rewrite E. cbn [prev_bytes].
    rewrite (feed_code d p w k w') by assumption.
    rewrite (next_nbits_width d p w p k).
    assert (Hkb : is_byte k) by (rewrite Ew in Hw; inversion Hw; assumption).
    rewrite app_assoc. apply (IH) with (pad := pad); try assumption; try lia.
    + apply Forall_app. split; [assumption|]. constructor; [|constructor]. split.
      { rewrite app_length. destruct p; [congruence|cbn; lia]. }
      apply Forall_app; split; [assumption|]. constructor; [assumption|constructor].
    + split; [rewrite Ew; discriminate|assumption].
    + discriminate.
    + cbn [codes_since] in *. rewrite app_length. cbn [length].
      replace (S (length d + 1))%nat with (S (S (length d))) by lia. exact Es.
Qed.

Lemma lzwdecode_seq_lemma s cs : bytes s -> LzwSeq [] None s cs ->
  lzwdecode (pack (write_codes 0 (256 :: cs))) = Ok s.
Proof.
  intros Hs H. unfold lzwdecode, pack.
  set (bits := write_codes 0 (256 :: cs)).
  destruct (pack_bits_spec (length bits) bits (le_n _)) as [Hb (pad&He&Hpad)].
  set (data := pack_bits (length bits) bits) in *.
  (* the initial Clear *)
  assert (Hst : stream data 0 8 = to_bits 9 256 ++ (write_codes 0 cs ++ repeat false pad)).
  { unfold stream. change (Z.to_nat 8) with 8%nat.
    rewrite skipn_all2 by (rewrite to_bits_length; lia). cbn [app]. rewrite He. unfold bits.
    cbn [write_codes]. change (256 =? 256) with true. rewrite app_assoc. reflexivity. }
  destruct (read_code data 0 8 9 256 _ Hb ltac:(unfold is_byte; lia) ltac:(lia) ltac:(lia) ltac:(lia) Hst)
    as (fp1&b1&p1&E&Es&G1&G2&G3&G4).
  destruct (length data) as [|f] eqn:El; [lia|].
  unfold lzw_init. cbn [lzw_run fp buff bpos nbits table prevbuf].
  change 9 with (Z.of_nat 9). rewrite E. unfold feed. change (256 =? 256) with true. cbv iota.
  cbn [app].
  assert (G : lzw_run f (mkLZW fp1 b1 p1 (inv_nbits [] None) (Some (dec_table [])) (prev_bytes None)) [] = Ok ([] ++ s)).
  { apply lzw_run_seq with (cs := cs) (pad := pad); try assumption; try exact I; try reflexivity; try lia; constructor. }
  unfold dec_table in G. cbn [map] in G. rewrite app_nil_r in G. exact G.
Qed.

(* ---------- the greedy encoder writes valid sequences ---------- *)
Lemma find_index_app w d e : forall i c, find_index w d i = Some c -> find_index w (d ++ e) i = Some c.
Proof.
  induction d as [|x d IH]; intros i c H; cbn [find_index app] in *; [discriminate|].
  destruct (list_eqb x w); [assumption|]. apply IH. exact H.
Qed.

Lemma find_index_bound w d : forall i c, find_index w d i = Some c -> c < i + Z.of_nat (length d).
Proof. intros i c H. apply find_index_spec in H as (j&->&_&Hl). lia. Qed.

Lemma code_of_bound w d c : bytes w -> code_of w d = Some c -> (length d <= 3838)%nat -> c <= 4095.
Proof.
  intros Hw H Hl. destruct w as [|a [|b w]]; cbn [code_of] in H; [discriminate| |].
  - injection H as <-. inversion_clear Hw. unfold is_byte in *. lia.
  - apply find_index_bound in H. lia.
Qed.

(* state of the encoder: w is a non-empty prefix with a code, d = rel dictionary plus the pending entry *)
Lemma lzw_codes_seq full : clears_in_time full -> forall s w d c,
  w <> [] -> bytes w -> bytes s -> code_of w d = Some c -> (length d <= 3838)%nat ->
  forall d0 p,
  (p = None -> d0 = [] /\ d = [] /\ length w = 1%nat) ->
  (forall q, p = Some q -> d = d0 ++ [q ++ firstn 1 w]) ->
  LzwSeq d0 p (w ++ s) (lzw_codes full s w d).
Proof.
  intros Hfull. induction s as [|k s IH]; intros w d c Hw Hbw Hbs Hc Hd d0 p Hnone Hsome.
  - cbn [lzw_codes]. rewrite Hc.
    destruct w as [|w0 w']; [congruence|]. cbn [firstn] in *.
    destruct p as [q|].
    + specialize (Hsome q eq_refl). subst d.
      apply (LS_code d0 q (w0 :: w') [] c [257] w0 w' eq_refl Hc).
      { apply (code_of_bound _ _ _ Hbw Hc Hd). }
      constructor.
    + destruct (Hnone eq_refl) as (->&->&Hl). destruct w'; [|cbn in Hl; lia].
      cbn in Hc. injection Hc as <-. cbn [app]. apply LS_first. constructor.
  - inversion_clear Hbs as [|? ? Hk Hbs'].
    cbn [lzw_codes]. destruct (code_of (w ++ [k]) d) as [c'|] eqn:Ec'.
    + replace (w ++ k :: s) with ((w ++ [k]) ++ s) by (rewrite <- app_assoc; reflexivity).
      apply IH with (c := c'); try assumption.
      * destruct w; discriminate.
      * apply Forall_app; split; [assumption|]. constructor; [assumption|constructor].
      * intros Hp. destruct (Hnone Hp) as (->&->&Hl). exfalso.
        destruct w as [|w0 [|? ?]]; [congruence| |cbn in Hl; lia]. cbn in Ec'. discriminate.
      * intros q Hq. rewrite (Hsome q Hq). destruct w as [|w0 w']; [congruence|]. reflexivity.
    + rewrite Hc.
      assert (Hbound : c <= 4095) by (apply (code_of_bound _ _ _ Hbw Hc Hd)).
      assert (Hstep : forall cs d1, d1 = d ->
                LzwSeq (match p with Some q => d0 ++ [q ++ firstn 1 w] | None => [] end) (Some w) (k :: s) cs ->
                LzwSeq d0 p (w ++ k :: s) (c :: cs)).
      { intros cs d1 _ Hcs. destruct w as [|w0 w']; [congruence|]. cbn [firstn] in *. destruct p as [q|].
        - specialize (Hsome q eq_refl). subst d.
          apply (LS_code d0 q (w0 :: w') (k :: s) c cs w0 w' eq_refl Hc Hbound). exact Hcs.
        - destruct (Hnone eq_refl) as (->&->&Hl). destruct w'; [|cbn in Hl; lia].
          cbn in Hc. injection Hc as <-. cbn [app]. apply LS_first. exact Hcs. }
      assert (Hdd : match p with Some q => d0 ++ [q ++ firstn 1 w] | None => [] end = d).
      { destruct p as [q|]; [symmetry; apply Hsome; reflexivity|]. destruct (Hnone eq_refl) as (->&->&_). reflexivity. }
      destruct (full (S (length d))) eqn:Efull.
      * apply (Hstep _ d eq_refl). apply LS_clear.
        apply (IH [k] [] k); try discriminate; try assumption; try reflexivity.
        { constructor; [assumption|constructor]. } { cbn; lia. } { intros _; splits; reflexivity. }
      * apply (Hstep _ d eq_refl). rewrite Hdd.
        apply (IH [k] (d ++ [w ++ [k]]) k); try discriminate; try assumption; try reflexivity.
        { constructor; [assumption|constructor]. }
        { rewrite app_length. cbn [length]. destruct (Nat.leb_spec (length d + 1) 3838) as [Hle|Hgt]; [assumption|].
          rewrite Hfull in Efull by lia. discriminate. }
        { intros q Hq. injection Hq as <-. reflexivity. }
Qed.

Lemma lzw_roundtrip_lemma full s : clears_in_time full -> bytes s -> lzwdecode (lzw_encode full s) = Ok s.
Proof.
  intros Hfull Hs. unfold lzw_encode. apply lzwdecode_seq_lemma; [assumption|].
  destruct s as [|k s].
  - cbn. constructor.
  - cbn [lzw_codes app]. cbn [code_of]. inversion_clear Hs as [|? ? Hk Hs'].
    apply (lzw_codes_seq full Hfull s [k] [] k); try assumption; try discriminate; try reflexivity.
    { constructor; [assumption|constructor]. } { cbn; lia. } { intros _; splits; reflexivity. }
Qed.

(* ---------- arbitrary data ---------- *)
Definition prefix (a b : list Z) : Prop := exists c, b = a ++ c.

Lemma prefix_refl a : prefix a a. Proof. exists []. rewrite app_nil_r. reflexivity. Qed.
Lemma prefix_app a b c : prefix (a ++ b) c -> prefix a c.
Proof. intros [d ->]. exists (b ++ d). rewrite app_assoc. reflexivity. Qed.

Lemma readbits_more fp : forall buff bpos v bits tail x fp' b' p',
  readbits fp buff bpos v bits = Some (x, (fp', b', p')) ->
  readbits (fp ++ tail) buff bpos v bits = Some (x, (fp' ++ tail, b', p')).
Proof.
  induction fp as [|y fp IH]; intros buff bpos v bits tail x fp' b' p' H; cbn [readbits app] in *.
  - destruct (bits <=? 8 - bpos) eqn:E; [|discriminate].
    injection H as <- <- <- <-. destruct tail; cbn [readbits app]; rewrite E; reflexivity.
  - destruct (bits <=? 8 - bpos); [injection H as <- <- <- <-; reflexivity|]. apply IH. exact H.
Qed.

Lemma lzw_run_out_prefix f : forall s out o, lzw_run f s out = Ok o -> prefix out o.
Proof.
  induction f as [|f IH]; intros s out o H; cbn [lzw_run] in H.
  - destruct (readbits _ _ _ _ _) as [[code [[? ?] ?]]|]; [discriminate|]. injection H as <-. apply prefix_refl.
  - destruct (readbits _ _ _ _ _) as [[code [[? ?] ?]]|]; [|injection H as <-; apply prefix_refl].
    destruct (feed _ _ _ _) as [[[[nb [t|]] pb] x]|[]]; try discriminate.
    + apply IH in H. apply prefix_app in H. exact H.
    + injection H as <-. apply prefix_refl.
Qed.

Lemma lzw_run_prefix : forall f1 f2 s tail out o1 o2,
  lzw_run f1 s out = Ok o1 ->
  lzw_run f2 (mkLZW (fp s ++ tail) (buff s) (bpos s) (nbits s) (table s) (prevbuf s)) out = Ok o2 ->
  prefix o1 o2.
Proof.
  induction f1 as [|f1 IH]; intros f2 s tail out o1 o2 H1 H2.
  - cbn [lzw_run] in H1. destruct (readbits _ _ _ _ _) as [[code [[? ?] ?]]|]; [discriminate|].
    injection H1 as <-. apply lzw_run_out_prefix in H2. exact H2.
  - cbn [lzw_run] in H1. destruct (readbits (fp s) _ _ _ _) as [[code [[fp' b'] p']]|] eqn:E.
    + destruct f2 as [|f2]; cbn [lzw_run fp buff bpos nbits table prevbuf] in H2;
        rewrite (readbits_more _ _ _ _ _ tail _ _ _ _ E) in H2; [discriminate|].
      destruct (feed _ _ _ _) as [[[[nb [t|]] pb] x]|[]]; try discriminate.
      * apply (IH f2 _ tail _ _ _ H1). exact H2.
      * injection H1 as <-. injection H2 as <-. apply prefix_refl.
    + injection H1 as <-. apply lzw_run_out_prefix in H2. exact H2.
Qed.

Lemma lzwdecode_prefix_lemma data tail o1 o2 :
  lzwdecode data = Ok o1 -> lzwdecode (data ++ tail) = Ok o2 -> exists c, o2 = o1 ++ c.
Proof.
  intros H1 H2. apply (lzw_run_prefix _ _ (lzw_init data) tail [] o1 o2 H1 H2).
Qed.

(* the loop never needs more fuel than it gets, and fails only with the two Python errors *)
Lemma readbits_shrinks fp : forall buff bpos v bits x fp' b' p',
  0 <= bpos -> 8 < bits -> readbits fp buff bpos v bits = Some (x, (fp', b', p')) -> 
  0 <= p' /\ (length fp' < length fp)%nat.
Proof.
  assert (G : forall fp buff bpos v bits x fp' b' p', 0 <= bpos -> 0 <= bits ->
     readbits fp buff bpos v bits = Some (x, (fp', b', p')) -> 0 <= p' /\ (length fp' <= length fp)%nat).
  { intros fp0. induction fp0 as [|y fp0 IH]; intros buff bpos v bits x fp' b' p' Hp Hb H; cbn [readbits] in H;
    destruct (bits <=? 8 - bpos) eqn:E; try discriminate.
    - injection H as <- <- <- <-. lia.
    - injection H as <- <- <- <-. cbn. lia.
    - apply IH in H; [|lia|lia]. cbn. lia. }
  intros buff bpos v bits x fp' b' p' Hp Hb H.
  destruct fp as [|y fp]; cbn [readbits] in H; destruct (bits <=? 8 - bpos) eqn:E; try lia; try discriminate.
  apply G in H; [|lia|lia]. cbn. lia.
Qed.

Definition nb_ok (nb : Z) : Prop := 9 <= nb <= 12.

(* table invariant: either no table yet, or base entries and non-empty strings *)
Definition tab_ok (t : option (list (option (list Z)))) (pb : option (list Z)) : Prop :=
  match t with
  | None => pb = None
  | Some t => exists d, t = dec_table d /\ Forall (fun w => w <> []) d /\ pb <> None
  end.

Lemma dec_table_nth d n : n <> 256%nat -> n <> 257%nat -> Forall (fun w => w <> []) d ->
  (exists x, nth_error (dec_table d) n = Some (Some x) /\ x <> []) \/ (nth_error (dec_table d) n = None).
Proof.
  intros H1 H2 Hd. destruct (Nat.ltb_spec n 256) as [H|H].
  - left. exists [Z.of_nat n]. split; [|discriminate]. unfold dec_table.
    rewrite nth_error_app1 by (rewrite base_table_length; lia).
    rewrite <- (Nat2Z.id n) at 1. apply base_table_nth. lia.
  - replace n with (258 + (n - 258))%nat by lia. rewrite dec_table_nth_hi.
    destruct (nth_error d (n - 258)) as [x|] eqn:E; [left|right; reflexivity].
    exists x. split; [reflexivity|]. apply nth_error_In in E. rewrite Forall_forall in Hd. apply Hd. exact E.
Qed.

Lemma next_nbits_ok l nb : nb_ok nb -> nb_ok (next_nbits l nb).
Proof. unfold nb_ok, next_nbits. repeat match goal with |- context [if ?b then _ else _] => destruct b end; lia. Qed.

Lemma feed_inv code nb t pb : 0 <= code -> nb_ok nb -> tab_ok t pb ->
  match feed code nb t pb with
  | Ok (nb', t', pb', x) => nb_ok nb' /\ tab_ok t' pb'
  | Err e => e = CorruptDataError \/ (e = TypeError /\ t = None) \/
             (e = IndexError /\ 258 <= code /\ t <> None)
  end.
Proof.
  intros Hc Hnb Ht. unfold feed.
  destruct (code =? 256) eqn:E1.
  { split; [unfold nb_ok; lia|]. exists []. unfold dec_table. cbn. rewrite app_nil_r. splits; [reflexivity|constructor|discriminate]. }
  destruct (code =? 257) eqn:E2; [split; assumption|].
  destruct t as [t|]; cbn [tab_ok] in Ht.
  - destruct Ht as (d&->&Hd&Hpb). destruct pb as [p|]; [|congruence].
    assert (Hn1 : Z.to_nat code <> 256%nat) by lia. assert (Hn2 : Z.to_nat code <> 257%nat) by lia.
    destruct (negb (truthy (Some p))) eqn:Etr.
    + destruct (dec_table_nth d (Z.to_nat code) Hn1 Hn2 Hd) as [(x&->&Hx)| En].
      * split; [assumption|]. exists d. splits; [reflexivity|assumption|discriminate].
      * rewrite En. right; right. split; [reflexivity|]. split; [|discriminate].
        apply nth_error_None in En. rewrite dec_table_length in En. lia.
    + assert (Hp : p <> []) by (destruct p; [discriminate|discriminate]).
      destruct (code <? Z.of_nat (length (dec_table d))) eqn:E3.
      * destruct (dec_table_nth d (Z.to_nat code) Hn1 Hn2 Hd) as [(x&->&Hx)| En].
        -- split; [apply next_nbits_ok; assumption|]. rewrite dec_table_snoc. eexists. split; [reflexivity|].
           split; [|discriminate]. apply Forall_app; split; [assumption|]. constructor; [|constructor].
           destruct p; [congruence|discriminate].
        -- apply nth_error_None in En. lia.
      * destruct (code =? Z.of_nat (length (dec_table d))) eqn:E4; [|left; reflexivity].
        split; [apply next_nbits_ok; assumption|]. rewrite dec_table_snoc. eexists. split; [reflexivity|].
        split; [|discriminate]. apply Forall_app; split; [assumption|]. constructor; [|constructor].
        destruct p; [congruence|discriminate].
  - subst pb. cbn [truthy negb]. right; left. split; reflexivity.
Qed.

Lemma lzw_run_errors : forall f s out e,
  (length (fp s) <= f)%nat -> bytes (fp s) -> is_byte (buff s) -> 0 <= bpos s <= 8 -> nb_ok (nbits s) ->
  tab_ok (table s) (prevbuf s) -> lzw_run f s out = Err e ->
  (e = TypeError /\ table s = None) \/ e = IndexError.
Proof.
  assert (G : forall f s out e,
    (length (fp s) <= f)%nat -> bytes (fp s) -> is_byte (buff s) -> 0 <= bpos s <= 8 -> nb_ok (nbits s) ->
    tab_ok (table s) (prevbuf s) -> table s <> None -> lzw_run f s out = Err e -> e = IndexError).
  { induction f as [|f IH]; intros s out e Hf Hfp Hbu Hbp Hnb Ht Htn H; cbn [lzw_run] in H;
    (destruct (readbits_spec (fp s) (buff s) (bpos s) 0 (nbits s) Hfp Hbu Hbp ltac:(unfold nb_ok in *; lia)) as [R1 R2]);
    (destruct (Z.leb_spec (nbits s) (Z.of_nat (length (stream (fp s) (buff s) (bpos s))))) as [Hle|Hgt];
     [|rewrite R1 in H by assumption; discriminate]);
    (destruct (R2 Hle) as (fp'&b'&p'&ER&_&Hb1&Hb2&Hb3&Hlt)); rewrite ER in H; unfold nb_ok in Hnb.
    - specialize (Hlt ltac:(lia)). lia.
    - specialize (Hlt ltac:(lia)).
      set (code := val_from 0 (firstn (Z.to_nat (nbits s)) (stream (fp s) (buff s) (bpos s)))) in *.
      assert (Hcode : 0 <= code) by apply val_from_bound.
      pose proof (feed_inv code (nbits s) (table s) (prevbuf s) Hcode Hnb Ht) as HF.
      destruct (feed _ _ _ _) as [[[[nb t] pb] x]|ef] eqn:Ef.
      + destruct HF as [HF1 HF2]. destruct t as [t|].
        * refine (IH _ _ _ _ _ _ _ _ _ _ H); cbn; try assumption; try lia. discriminate.
        * exfalso. unfold feed in Ef. destruct (code =? 256); [discriminate|].
          destruct (code =? 257); [injection Ef as _ Ef _ _; congruence|].
          destruct (negb _).
          -- destruct (table s); [|discriminate]. destruct (nth_error _ _) as [[?|]|]; discriminate.
          -- destruct (table s); [|discriminate]. destruct (prevbuf s); [|discriminate].
             destruct (_ <? _); [destruct (nth_error _ _) as [[?|]|]; discriminate|].
             destruct (_ =? _); discriminate.
      + destruct HF as [-> |[[-> HF]|[-> HF]]]; [discriminate|congruence|].
        injection H as <-. reflexivity. }
  intros f s out e Hf Hfp Hbu Hbp Hnb Ht H.
  destruct (table s) as [t|] eqn:Et.
  - right. apply (G f s out e); try assumption; rewrite Et; [assumption|discriminate].
  - destruct f as [|f]; cbn [lzw_run] in H;
    (destruct (readbits_spec (fp s) (buff s) (bpos s) 0 (nbits s) Hfp Hbu Hbp ltac:(unfold nb_ok in *; lia)) as [R1 R2]);
    (destruct (Z.leb_spec (nbits s) (Z.of_nat (length (stream (fp s) (buff s) (bpos s))))) as [Hle|Hgt];
     [|rewrite R1 in H by assumption; discriminate]);
    (destruct (R2 Hle) as (fp'&b'&p'&ER&_&Hb1&Hb2&Hb3&Hlt)); rewrite ER in H; unfold nb_ok in Hnb.
    + specialize (Hlt ltac:(lia)). lia.
    + specialize (Hlt ltac:(lia)).
      set (code := val_from 0 (firstn (Z.to_nat (nbits s)) (stream (fp s) (buff s) (bpos s)))) in *.
      assert (Hcode : 0 <= code) by apply val_from_bound. cbn [tab_ok] in Ht.
      pose proof (feed_inv code (nbits s) None (prevbuf s) Hcode Hnb) as HF.
      rewrite Et in H.
      specialize (HF Ht).
      destruct (feed _ _ _ _) as [[[[nb t] pb] x]|ef] eqn:Ef.
      * destruct HF as [HF1 HF2]. destruct t as [t|].
        -- right. refine (G _ _ _ _ _ _ _ _ _ _ _ H); cbn; try assumption; try lia. discriminate.
        -- injection H as <-. left. split; reflexivity.
      * destruct HF as [-> |[[-> HF]|[-> [_ HF]]]]; [discriminate| |congruence].
        injection H as <-. left; split; reflexivity.
Qed.

Lemma lzwdecode_errors_lemma data e : bytes data -> lzwdecode data = Err e -> e = TypeError \/ e = IndexError.
Proof.
  intros Hb H. apply lzw_run_errors in H; cbn; try assumption; try lia.
  - destruct H as [[-> _]| ->]; auto.
  - unfold is_byte; lia.
  - unfold nb_ok; lia.
  - reflexivity.
Qed.
