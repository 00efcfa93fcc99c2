From Verif Require Import Base PNG_Model PNG_Spec.
From Coq Require Import ZifyBool ZifyNat.

Lemma land255 x : Z.land x 255 = x mod 256.
Proof. change 255 with (Z.ones 8). rewrite Z.land_ones by lia. reflexivity. Qed.

Lemma list_as_map (l : list Z) : l = map (at_ l) (seq 0 (length l)).
Proof.
  apply (nth_ext _ _ 0 0). { rewrite map_length, seq_length. reflexivity. }
  intros i Hi. rewrite (nth_indep (map _ _) 0 (at_ l 0)) by (rewrite map_length, seq_length; assumption).
  rewrite map_nth, seq_nth by assumption. reflexivity.
Qed.

Lemma bytes_at l i : bytes l -> is_byte (at_ l i).
Proof.
  intros H. unfold at_. destruct (Nat.ltb_spec i (length l)) as [Hi|Hi].
  - unfold bytes in H. rewrite Forall_forall in H. apply H. apply nth_In. exact Hi.
  - rewrite nth_overflow by assumption. unfold is_byte; lia.
Qed.

Lemma mod_cancel x p : is_byte x -> (p + (x - p) mod 256) mod 256 = x.
Proof.
  intros H. rewrite Zplus_mod_idemp_r. replace (p + (x - p)) with x by lia. apply Z.mod_small. exact H.
Qed.

Lemma png_up_map prior row k n : bytes row ->
  png_up (map (at_ prior) (seq k n)) (map (fun i => (at_ row i - at_ prior i) mod 256) (seq k n))
  = map (at_ row) (seq k n).
Proof.
  intros Hr. revert k. induction n as [|n IH]; intros k; [reflexivity|].
  cbn [seq map png_up]. rewrite land255, mod_cancel by (apply bytes_at; assumption). f_equal. apply IH.
Qed.

Lemma png_sub_map row n : bytes row -> forall k c,
  c = (match k with O => 0 | S j => at_ row j end) ->
  png_sub c (map (fun i => (at_ row i - back 1 row i) mod 256) (seq k n)) = map (at_ row) (seq k n).
Proof.
  intros Hr. induction n as [|n IH]; intros k c Hc; [reflexivity|].
  cbn [seq map png_sub].
  assert (E : Z.land (c + (at_ row k - back 1 row k) mod 256) 255 = at_ row k).
  { rewrite land255. replace (back 1 row k) with c.
    - apply mod_cancel. apply bytes_at. exact Hr.
    - subst c. unfold back. destruct k as [|j]; [reflexivity|]. cbn [Nat.ltb Nat.leb].
      replace (S j - 1)%nat with j by lia. reflexivity. }
  rewrite E. f_equal. apply IH. reflexivity.
Qed.

Lemma png_none_map row : bytes row ->
  map (fun i => (at_ row i - 0) mod 256) (seq 0 (length row)) = row.
Proof.
  intros Hr. transitivity (map (at_ row) (seq 0 (length row))); [|symmetry; apply list_as_map]. apply map_ext. intros i.
  rewrite Z.sub_0_r. apply Z.mod_small. apply bytes_at. exact Hr.
Qed.

Lemma filter_row_length f bpp prior row : length (filter_row f bpp prior row) = S (length row).
Proof. unfold filter_row. cbn [length]. rewrite map_length, seq_length. reflexivity. Qed.

Lemma png_row_step colors n f prior row line0 rest buf fuel first :
  bytes row -> length row = n -> length prior = n ->
  png_supported colors first f -> (line0 = prior \/ (first = true /\ colors <> 1%nat)) ->
  png_rows (S fuel) n (filter_row f colors prior row ++ rest) line0 buf
  = png_rows fuel n rest row (buf ++ row).
Proof.
  intros Hb Hn Hpn Hs Hl. unfold filter_row. cbn [app png_rows].
  assert (Hlen : length (map (fun i => (at_ row i - predicted f colors prior row i) mod 256) (seq 0 (length row))) = n).
  { rewrite map_length, seq_length. exact Hn. }
  rewrite firstn_app, skipn_app, Hlen, Nat.sub_diag. rewrite firstn_O, app_nil_r.
  rewrite (firstn_all2 (map _ _)) by lia.
  rewrite (skipn_all2 (map _ _)) by lia. cbn [skipn app].
  destruct Hs as [-> |[[-> Hc]|[-> Hc]]]; cbn [filter_byte predicted].
  - change (0 =? 0) with true. cbv iota. rewrite png_none_map by assumption. reflexivity.
  - change (1 =? 0) with false. change (1 =? 1) with true. cbv iota zeta. subst colors.
    rewrite png_sub_map by (assumption || reflexivity). rewrite <- list_as_map. reflexivity.
  - change (2 =? 0) with false. change (2 =? 1) with false. change (2 =? 2) with true. cbv iota zeta.
    assert (line0 = prior) as -> by (destruct Hl as [?|[? ?]]; [assumption|destruct Hc; congruence]).
    assert (E : png_up prior (map (fun i => (at_ row i - at_ prior i) mod 256) (seq 0 (length row))) = row).
    { rewrite (list_as_map prior) at 1. rewrite Hpn, <- Hn. rewrite png_up_map by assumption.
      symmetry. apply list_as_map. }
    rewrite E. reflexivity.
Qed.

Lemma png_rows_image colors n : forall img first prior line0 buf fuel,
  Forall (fun fr : filter * list Z => length (snd fr) = n /\ bytes (snd fr)) img ->
  length prior = n -> all_supported colors first img ->
  (line0 = prior \/ (first = true /\ colors <> 1%nat)) ->
  (length (filter_image colors prior img) <= fuel)%nat ->
  png_rows fuel n (filter_image colors prior img) line0 buf = Ok (buf ++ concat (map snd img)).
Proof.
  induction img as [|[f row] img IH]; intros first prior line0 buf fuel Hok Hp Hs Hl Hf.
  - cbn. rewrite app_nil_r. destruct fuel; reflexivity.
  - inversion_clear Hok as [|? ? [Hlen Hb] Hok']. cbn [snd] in *. destruct Hs as [Hs1 Hs2].
    cbn [filter_image] in *. rewrite app_length, filter_row_length in Hf.
    destruct fuel as [|fuel]; [lia|].
    rewrite (png_row_step colors n f prior row line0 _ buf fuel first) by assumption.
    rewrite (IH false row row) by (assumption || (left; reflexivity) || lia).
    cbn [map concat snd]. rewrite app_assoc. reflexivity.
Qed.

Lemma png_roundtrip_lemma colors columns img :
  image_ok colors columns img -> all_supported colors true img ->
  apply_png_predictor (Z.of_nat colors) (Z.of_nat columns) 8 (png_encode colors columns img)
  = Ok (concat (map snd img)).
Proof.
  intros Hok Hs. unfold apply_png_predictor, png_encode. change (negb (8 =? 8)) with false. cbv iota zeta.
  rewrite Z.div_mul by lia. rewrite <- Nat2Z.inj_mul.
  destruct (Z.of_nat (colors * columns) + 1 =? 0) eqn:E1; [lia|].
  destruct (Z.of_nat (colors * columns) + 1 <? 0) eqn:E2; [lia|].
  rewrite !Nat2Z.id.
  apply (png_rows_image colors (colors * columns)%nat img true); try assumption.
  - apply repeat_length.
  - destruct (Nat.eq_dec colors 1) as [->|Hc]; [|right; split; [reflexivity|assumption]].
    left. rewrite Nat.mul_1_l. reflexivity.
  - lia.
Qed.

(* whatever the data: it ends, and every error is a ValueError; the output never exceeds the data *)
Lemma png_sub_length l : forall c, length (png_sub c l) = length l.
Proof. induction l as [|b l IH]; intros c; cbn; [reflexivity|rewrite IH; reflexivity]. Qed.
Lemma png_up_length l0 : forall l1, (length (png_up l0 l1) <= length l1)%nat.
Proof. induction l0 as [|a l0 IH]; intros [|b l1]; cbn; try lia. specialize (IH l1). lia. Qed.
Lemma png_avg_length l0 : forall c l1, (length (png_avg c l0 l1) <= length l1)%nat.
Proof. induction l0 as [|a l0 IH]; intros c [|b l1]; cbn [png_avg length]; try lia. specialize (IH (Z.land ((c + a + b) / 2) 255) l1). lia. Qed.

Lemma png_rows_total n : forall fuel data line0 buf, (length data <= fuel)%nat ->
  match png_rows fuel n data line0 buf with
  | Ok o => (length o <= length buf + length data)%nat
  | Err e => e = ValueError
  end.
Proof.
  induction fuel as [|fuel IH]; intros data line0 buf Hf.
  - destruct data; [|cbn in Hf; lia]. cbn. lia.
  - destruct data as [|ft rest]; [cbn; lia|]. cbn [png_rows]. cbn [length] in Hf.
    assert (Hsum : (length (firstn n rest) + length (skipn n rest) = length rest)%nat).
    { rewrite <- app_length, firstn_skipn. reflexivity. }
    assert (Hstep : forall l2 l0, (length l2 <= length (firstn n rest))%nat ->
       match png_rows fuel n (skipn n rest) l0 (buf ++ l2) with
       | Ok o => (length o <= length buf + length (ft :: rest))%nat | Err e => e = ValueError end).
    { intros l2 l0 Hl. specialize (IH (skipn n rest) l0 (buf ++ l2) ltac:(lia)).
      destruct (png_rows _ _ _ _ _); [|assumption]. rewrite app_length in IH. cbn [length]. lia. }
    destruct (ft =? 0). { apply Hstep. lia. }
    destruct (ft =? 1). { apply Hstep. rewrite png_sub_length. lia. }
    destruct (ft =? 2). { apply Hstep. apply png_up_length. }
    destruct (ft =? 3). { apply Hstep. apply png_avg_length. }
    reflexivity.
Qed.

Lemma png_total_lemma colors columns bpc data :
  match apply_png_predictor colors columns bpc data with
  | Ok o => (length o <= length data)%nat
  | Err e => e = ValueError
  end.
Proof.
  unfold apply_png_predictor. destruct (negb (bpc =? 8)); [reflexivity|]. cbv zeta.
  destruct (_ =? 0); [reflexivity|]. destruct (_ <? 0); [cbn; lia|].
  pose proof (png_rows_total (Z.to_nat (colors * columns * bpc / 8)) (length data) data (repeat 0 (Z.to_nat columns)) [] (le_n _)) as H.
  destruct (png_rows _ _ _ _ _); [|assumption]. cbn in H. exact H.
Qed.

(* ---- nunpack ---- *)

Lemma be_val_snoc l x : be_val (l ++ [x]) = be_val l * 256 + x.
Proof. unfold be_val. rewrite fold_left_app. reflexivity. Qed.

Lemma be_val_encode n : forall v, 0 <= v < 256 ^ Z.of_nat n -> be_val (be_encode n v) = v.
Proof.
  induction n as [|n IH]; intros v Hv.
  - change (256 ^ Z.of_nat 0) with 1 in Hv. cbn. lia.
  - cbn [be_encode]. rewrite be_val_snoc, IH.
    + pose proof (Z.div_mod v 256). lia.
    + rewrite Nat2Z.inj_succ, Z.pow_succ_r in Hv by lia.
      split; [apply Z.div_pos; lia|]. apply Z.div_lt_upper_bound; lia.
Qed.

Lemma be_encode_length n : forall v, length (be_encode n v) = n.
Proof. induction n as [|n IH]; intros v; cbn; [reflexivity|]. rewrite app_length, IH. cbn. lia. Qed.

Lemma nunpack_lemma n v d : In n [1;2;3;4;8]%nat -> 0 <= v < 256 ^ Z.of_nat n ->
  nunpack (be_encode n v) d = Ok v.
Proof.
  intros Hn Hv. unfold nunpack. rewrite be_encode_length, be_val_encode by assumption.
  cbn in Hn. repeat destruct Hn as [<-|Hn]; try reflexivity. destruct Hn.
Qed.

Lemma nunpack_positional_lemma s d v : bytes s -> nunpack s d = Ok v -> s <> [] ->
  v = be_val s /\ 0 <= v < 256 ^ Z.of_nat (length s).
Proof.
  intros Hb H Hs.
  assert (Hr : 0 <= be_val s < 256 ^ Z.of_nat (length s)).
  { clear H Hs. induction s as [|x s IH] using rev_ind; [cbn; lia|].
    unfold bytes in Hb. apply Forall_app in Hb as [Hb Hx]. inversion_clear Hx as [|? ? Hx' _].
    rewrite be_val_snoc, app_length. cbn [length]. rewrite Nat.add_1_r, Nat2Z.inj_succ, Z.pow_succ_r by lia.
    specialize (IH Hb). unfold is_byte in Hx'. lia. }
  unfold nunpack in H. destruct s as [|x s]; [congruence|].
  cbn [length] in H. destruct (length s) as [|[|[|[|[|[|[|[|?]]]]]]]]; try discriminate; injection H as <-; split; auto.
Qed.
