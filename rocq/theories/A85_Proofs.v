From Verif Require Import Base A85_Model A85_Spec.
From Coq Require Import ZifyBool ZifyNat.
Ltac Zify.zify_post_hook ::= Z.div_mod_to_equations.

(* ---------- ASCII85 ---------- *)

Lemma pack_word a b c d :
  is_byte a -> is_byte b -> is_byte c -> is_byte d ->
  pack_L (word a b c d) = Ok [a; b; c; d].
Proof.
  unfold is_byte, pack_L, word; intros Ha Hb Hc Hd.
  destruct ((0 <=? ((a * 256 + b) * 256 + c) * 256 + d) &&
            (((a * 256 + b) * 256 + c) * 256 + d <? 2 ^ 32)) eqn:E; [|lia].
  f_equal. f_equal; [lia|]. f_equal; [lia|]. f_equal; [lia|]. f_equal; lia.
Qed.

Lemma word_range a b c d :
  is_byte a -> is_byte b -> is_byte c -> is_byte d -> 0 <= word a b c d < 2 ^ 32.
Proof. unfold is_byte, word; lia. Qed.

(* a run of digits consumed by the loop *)
Lemma a85_digit c rest n b out :
  33 <= c <= 117 -> (n < 4)%nat ->
  a85_go (c :: rest) n b out = a85_go rest (S n) (b * 85 + (c - 33)) out.
Proof.
  intros Hc Hn. cbn [a85_go].
  replace ((33 <=? c) && (c <=? 117)) with true by lia.
  destruct (Nat.eqb_spec (S n) 5); [lia|reflexivity].
Qed.

Lemma a85_digit5 c rest b out :
  33 <= c <= 117 ->
  a85_go (c :: rest) 4 b out = do w <- pack_L (b * 85 + (c - 33)); a85_go rest 0 0 (out ++ w).
Proof.
  intros Hc. cbn [a85_go].
  replace ((33 <=? c) && (c <=? 117)) with true by lia. reflexivity.
Qed.

Lemma a85_skip c rest n b out :
  a85_ignorable c -> a85_go (c :: rest) n b out = a85_go rest n b out.
Proof.
  intros (H1 & H2 & H3). cbn [a85_go].
  destruct ((33 <=? c) && (c <=? 117)) eqn:E1; [lia|].
  destruct (c =? 122) eqn:E2; [lia|]. destruct (c =? 126) eqn:E3; [lia|]. reflexivity.
Qed.

(* ignorable characters are transparent *)
Lemma a85_spread e e' :
  spread a85_ignorable e e' -> forall n b out tail,
  a85_go (e' ++ tail) n b out = a85_go (e ++ tail) n b out.
Proof.
  induction 1 as [|c e e' H IH|c e e' Hc H IH]; intros n b out tail.
  - reflexivity.
  - cbn [app a85_go].
    destruct ((33 <=? c) && (c <=? 117)).
    + destruct (Nat.eqb (S n) 5); [|apply IH].
      destruct (pack_L _); cbn [bind]; [apply IH|reflexivity].
    + destruct (c =? 122). { destruct (Nat.eqb n 0); [apply IH|reflexivity]. }
      destruct (c =? 126); [reflexivity|apply IH].
  - cbn [app]. rewrite a85_skip by assumption. apply IH.
Qed.

Lemma digits85_ok v : 0 <= v < 2 ^ 32 ->
  exists d0 d1 d2 d3 d4,
    digits85 v = [d0; d1; d2; d3; d4] /\
    33 <= d0 <= 117 /\ 33 <= d1 <= 117 /\ 33 <= d2 <= 117 /\ 33 <= d3 <= 117 /\ 33 <= d4 <= 117 /\
    ((((d0 - 33) * 85 + (d1 - 33)) * 85 + (d2 - 33)) * 85 + (d3 - 33)) * 85 + (d4 - 33) = v.
Proof.
  intros Hv. unfold digits85. do 5 eexists. split; [reflexivity|].
  pose proof (Z.mod_pos_bound (v / 614125) 85 ltac:(lia)).
  pose proof (Z.mod_pos_bound (v / 7225) 85 ltac:(lia)).
  pose proof (Z.mod_pos_bound (v / 85) 85 ltac:(lia)).
  pose proof (Z.mod_pos_bound v 85 ltac:(lia)).
  assert (0 <= v / 52200625 <= 82) by lia.
  splits; try lia.
Qed.

Lemma a85_group_go a b c d rest out :
  is_byte a -> is_byte b -> is_byte c -> is_byte d ->
  a85_go (digits85 (word a b c d) ++ rest) 0 0 out = a85_go rest 0 0 (out ++ [a; b; c; d]).
Proof.
  intros Ha Hb Hc Hd.
  destruct (digits85_ok (word a b c d)) as (d0&d1&d2&d3&d4&E&H0&H1&H2&H3&H4&Hv).
  { apply word_range; assumption. }
  rewrite E. cbn [app].
  rewrite 4 a85_digit by (assumption || lia). rewrite a85_digit5 by assumption.
  rewrite Z.mul_0_l, Z.add_0_l, Hv, pack_word by assumption. reflexivity.
Qed.

Lemma pack_firstn v a b c d k x :
  pack_L v = Ok [a; b; c; d] -> (do w <- pack_L v; Ok (x ++ firstn k w)) = Ok (x ++ firstn k [a;b;c;d]).
Proof. intros ->; reflexivity. Qed.

(* padding the k high digits of v with 84s keeps its leading k-1 bytes *)
Lemma pack_prefix_1 a v r : is_byte a -> 0 <= r < 2 ^ 24 -> v = a * 2 ^ 24 + r ->
  exists b c d, pack_L v = Ok [a; b; c; d].
Proof.
  unfold is_byte, pack_L; intros Ha Hr ->.
  destruct ((0 <=? a * 2 ^ 24 + r) && (a * 2 ^ 24 + r <? 2 ^ 32)) eqn:E; [|lia].
  do 3 eexists. f_equal. f_equal. lia.
Qed.
Lemma pack_prefix_2 a b v r : is_byte a -> is_byte b -> 0 <= r < 2 ^ 16 ->
  v = (a * 256 + b) * 2 ^ 16 + r -> exists c d, pack_L v = Ok [a; b; c; d].
Proof.
  unfold is_byte, pack_L; intros Ha Hb Hr ->.
  destruct ((0 <=? (a * 256 + b) * 2 ^ 16 + r) && ((a * 256 + b) * 2 ^ 16 + r <? 2 ^ 32)) eqn:E; [|lia].
  do 2 eexists. f_equal. f_equal; [lia|]. f_equal. lia.
Qed.
Lemma pack_prefix_3 a b c v r : is_byte a -> is_byte b -> is_byte c -> 0 <= r < 2 ^ 8 ->
  v = ((a * 256 + b) * 256 + c) * 2 ^ 8 + r -> exists d, pack_L v = Ok [a; b; c; d].
Proof.
  unfold is_byte, pack_L; intros Ha Hb Hc Hr ->.
  destruct ((0 <=? ((a * 256 + b) * 256 + c) * 2 ^ 8 + r) && (((a * 256 + b) * 256 + c) * 2 ^ 8 + r <? 2 ^ 32)) eqn:E; [|lia].
  eexists. f_equal. f_equal; [lia|]. f_equal; [lia|]. f_equal. lia.
Qed.

Lemma a85_end n b out tail : (n <> 0)%nat ->
  a85_go (126 :: tail) n b out = do w <- pack_L (a85_pad (5 - n) b); Ok (out ++ firstn (n - 1) w).
Proof.
  intros Hn. cbn [a85_go]. destruct (Nat.eqb_spec n 0); [lia|]. reflexivity.
Qed.

Lemma a85_go_enc s e : A85 s e -> bytes s -> forall out tail,
  a85_go (e ++ 126 :: tail) 0 0 out = Ok (out ++ s).
Proof.
  induction 1 as [|a b c d s e H IH|s e H IH|a|a b|a b c]; intros Hs out tail.
  - rewrite app_nil_r. reflexivity.
  - inversion_clear Hs as [|? ? Ha Hs1]. inversion_clear Hs1 as [|? ? Hb Hs2].
    inversion_clear Hs2 as [|? ? Hc Hs3]. inversion_clear Hs3 as [|? ? Hd Hs4].
    rewrite <- app_assoc, a85_group_go by assumption. rewrite IH by assumption.
    rewrite <- app_assoc. reflexivity.
  - do 4 (apply Forall_inv_tail in Hs).
    change (a85_go (e ++ 126 :: tail) 0 0 (out ++ [0;0;0;0]) = Ok (out ++ 0 :: 0 :: 0 :: 0 :: s)).
    rewrite IH by assumption. rewrite <- app_assoc. reflexivity.
  - inversion_clear Hs as [|? ? Ha _].
    pose proof (word_range a 0 0 0 Ha ltac:(unfold is_byte; lia) ltac:(unfold is_byte; lia) ltac:(unfold is_byte; lia)) as Hr.
    destruct (digits85_ok _ Hr) as (d0&d1&d2&d3&d4&E&H0&H1&H2&H3&H4&Hv).
    rewrite E. cbn [firstn app]. rewrite 2 a85_digit by (assumption || lia).
    rewrite a85_end by lia. cbn [a85_pad Nat.sub].
    match goal with |- context [pack_L ?v] => destruct (pack_prefix_1 a v (v - a * 2 ^ 24)) as (x&y&z&Ep) end.
    { assumption. } { unfold word in Hv. unfold is_byte in Ha. lia. } { lia. }
    rewrite Ep. reflexivity.
  - inversion_clear Hs as [|? ? Ha Hs1]. inversion_clear Hs1 as [|? ? Hb _].
    pose proof (word_range a b 0 0 Ha Hb ltac:(unfold is_byte; lia) ltac:(unfold is_byte; lia)) as Hr.
    destruct (digits85_ok _ Hr) as (d0&d1&d2&d3&d4&E&H0&H1&H2&H3&H4&Hv).
    rewrite E. cbn [firstn app]. rewrite 3 a85_digit by (assumption || lia).
    rewrite a85_end by lia. cbn [a85_pad Nat.sub].
    match goal with |- context [pack_L ?v] => destruct (pack_prefix_2 a b v (v - (a * 256 + b) * 2 ^ 16)) as (y&z&Ep) end.
    { assumption. } { assumption. } { unfold word in Hv. unfold is_byte in *. lia. } { lia. }
    rewrite Ep. reflexivity.
  - inversion_clear Hs as [|? ? Ha Hs1]. inversion_clear Hs1 as [|? ? Hb Hs2].
    inversion_clear Hs2 as [|? ? Hc _].
    pose proof (word_range a b c 0 Ha Hb Hc ltac:(unfold is_byte; lia)) as Hr.
    destruct (digits85_ok _ Hr) as (d0&d1&d2&d3&d4&E&H0&H1&H2&H3&H4&Hv).
    rewrite E. cbn [firstn app]. rewrite 4 a85_digit by (assumption || lia).
    rewrite a85_end by lia. cbn [a85_pad Nat.sub].
    match goal with |- context [pack_L ?v] => destruct (pack_prefix_3 a b c v (v - ((a * 256 + b) * 256 + c) * 2 ^ 8)) as (z&Ep) end.
    { assumption. } { assumption. } { assumption. } { unfold word in Hv. unfold is_byte in *. lia. } { lia. }
    rewrite Ep. reflexivity.
Qed.

Lemma ascii85_roundtrip_lemma s e e' tail :
  bytes s -> A85 s e -> spread a85_ignorable e e' ->
  ascii85decode (e' ++ 126 :: tail) = Ok s.
Proof.
  intros Hs He Hsp. unfold ascii85decode.
  rewrite (a85_spread e e' Hsp). rewrite (a85_go_enc s e He Hs). reflexivity.
Qed.

Fixpoint a85_encode_A85_n (n : nat) (s : list Z) {struct n} :
  (length s <= n)%nat -> bytes s -> A85 s (a85_encode s).
Proof.
  destruct n as [|n].
  - intros Hn Hs. destruct s; [constructor|cbn in Hn; lia].
  - intros Hn Hs. destruct s as [|a [|b [|c [|d r]]]]; cbn [a85_encode]; try constructor.
    assert (Hr : A85 r (a85_encode r)).
    { apply (a85_encode_A85_n n); [cbn in Hn; lia|]. do 4 (apply Forall_inv_tail in Hs). exact Hs. }
    destruct (word a b c d =? 0) eqn:E.
    + inversion_clear Hs as [|? ? Ha Hs1]. inversion_clear Hs1 as [|? ? Hb Hs2].
      inversion_clear Hs2 as [|? ? Hc Hs3]. inversion_clear Hs3 as [|? ? Hd Hs4].
      unfold word, is_byte in *.
      replace a with 0 by lia. replace b with 0 by lia. replace c with 0 by lia. replace d with 0 by lia.
      cbn [app]. constructor. exact Hr.
    + constructor. exact Hr.
Qed.

Lemma a85_encode_A85 s : bytes s -> A85 s (a85_encode s).
Proof. apply (a85_encode_A85_n (length s)). lia. Qed.

(* ---------- ASCIIHex ---------- *)

Lemma HexDigit_model c v : HexDigit c v ->
  is_hex c = true /\ hexval c = v /\ is_space c = false /\ c <> 62.
Proof.
  unfold is_hex, hexval, is_space, is_digit.
  intros [w Hw|w Hw|w Hw]; splits; try lia.
  all: repeat match goal with |- context [if ?b then _ else _] => destruct b eqn:? end; lia.
Qed.

Lemma white_model c : white c -> is_space c = true /\ is_hex c = false.
Proof. unfold white, is_space, is_hex, is_digit; intros H; split; lia. Qed.

Lemma hex_pairs_cons a b r : hex_pairs (a :: b :: r) =
  if is_hex a && is_hex b then (16 * hexval a + hexval b) :: hex_pairs r else hex_pairs (b :: r).
Proof. reflexivity. Qed.

Lemma hex_pairs_skip a r : is_hex a = false -> hex_pairs (a :: r) = hex_pairs r.
Proof. intros H. destruct r as [|b r]; [reflexivity|]. rewrite hex_pairs_cons, H. reflexivity. Qed.

(* pairs before anything else *)
Lemma hex_pairs_text s e : HexPairText s e -> forall t, hex_pairs (e ++ t) = s ++ hex_pairs t.
Proof.
  induction 1 as [|c s e Hc H IH|c1 c2 h l s e H1 H2 H IH]; intros t.
  - reflexivity.
  - cbn [app]. rewrite hex_pairs_skip by apply (white_model c Hc). apply IH.
  - cbn [app]. rewrite hex_pairs_cons.
    apply HexDigit_model in H1 as (-> & -> & _). apply HexDigit_model in H2 as (-> & -> & _).
    cbn [andb]. rewrite IH. reflexivity.
Qed.

Definition tailchar (c : Z) : Prop := white c \/ c = 62.

Lemma tailchar_model c : tailchar c -> is_space c || (c =? 62) = true /\ is_hex c = false.
Proof.
  intros [H| ->]; [|split; reflexivity].
  apply white_model in H as [-> ->]. split; reflexivity.
Qed.

Lemma hex_pairs_tail t : Forall tailchar t -> hex_pairs t = [].
Proof.
  induction 1 as [|c t Hc H IH]; [reflexivity|].
  rewrite hex_pairs_skip by apply (tailchar_model c Hc). exact IH.
Qed.

Lemma hex_pairs_odd c t : is_hex c = true -> Forall tailchar t -> hex_pairs (c :: t) = [].
Proof.
  intros Hc Ht. destruct t as [|d t]; [reflexivity|]. rewrite hex_pairs_cons.
  inversion_clear Ht as [|? ? Hd Ht']. rewrite (proj2 (tailchar_model d Hd)), andb_false_r.
  rewrite hex_pairs_skip by apply (tailchar_model d Hd). apply hex_pairs_tail. assumption.
Qed.

Lemma drop_tail_app t r : Forall tailchar t -> drop_tail_rev (rev t ++ r) = drop_tail_rev r.
Proof.
  intros H. apply Forall_rev in H. induction H as [|c l Hc H IH]; [reflexivity|].
  cbn [app drop_tail_rev]. rewrite (proj1 (tailchar_model c Hc)). exact IH.
Qed.

Lemma pairs_or_space_text s e : HexPairText s e -> pairs_or_space e = true.
Proof.
  induction 1 as [|c s e Hc H IH|c1 c2 h l s e H1 H2 H IH]; cbn [pairs_or_space].
  - reflexivity.
  - rewrite (proj1 (white_model c Hc)). exact IH.
  - apply HexDigit_model in H1 as (-> & _ & -> & _). apply HexDigit_model in H2 as (-> & _).
    exact IH.
Qed.

(* a text of whole bytes cannot be read as whole bytes plus one digit *)
Lemma pairs_or_space_odd s e : HexPairText s e -> forall pre c,
  is_hex c = true -> is_space c = false -> e = pre ++ [c] -> pairs_or_space pre = false.
Proof.
  induction 1 as [|w s e Hw H IH|c1 c2 h l s e H1 H2 H IH]; intros pre c Hc Hs He.
  - destruct pre; discriminate.
  - destruct pre as [|w' pre]; cbn [app] in He.
    + injection He as -> ->. apply white_model in Hw as [Hw _]. congruence.
    + injection He as <- ->. cbn [pairs_or_space]. rewrite (proj1 (white_model w Hw)).
      apply (IH _ c Hc Hs eq_refl).
  - apply HexDigit_model in H1 as (Hh1 & _ & Hs1 & _). apply HexDigit_model in H2 as (Hh2 & _ & Hs2 & _).
    destruct pre as [|x [|y pre]]; cbn [app] in He.
    + discriminate.
    + injection He as <- <- ->. cbn [pairs_or_space]. rewrite Hs1. reflexivity.
    + injection He as <- <- ->. cbn [pairs_or_space]. rewrite Hs1, Hh1, Hh2.
      cbn [andb]. apply (IH _ c Hc Hs eq_refl).
Qed.

(* if the text ends (after dropping blanks) at some digit, that prefix is again a text *)
Lemma HexPairText_rstrip s e : HexPairText s e ->
  (s = [] /\ Forall white e) \/
  exists e0 t c, HexPairText s (e0 ++ [c]) /\ Forall white t /\ e = e0 ++ c :: t /\
                 is_hex c = true /\ is_space c = false /\ c <> 62.
Proof.
  induction 1 as [|w s e Hw H IH|c1 c2 h l s e H1 H2 H IH].
  - left. split; constructor.
  - destruct IH as [[-> IH]|(e0&t&c&Hp&Ht&->&Hc)].
    + left. split; [reflexivity|]. constructor; assumption.
    + right. exists (w :: e0), t, c. split; [constructor; assumption|]. split; [assumption|].
      split; [reflexivity|assumption].
  - right. pose proof (HexDigit_model _ _ H2) as (Ha&_&Hb&Hd).
    destruct IH as [[-> IH]|(e0&t&c&Hp&Ht&->&Hc)].
    + exists [c1], e, c2. split; [cbn [app]; constructor; [assumption|assumption|constructor]|].
      split; [assumption|]. split; [reflexivity|]. splits; assumption.
    + exists (c1 :: c2 :: e0), t, c. split; [cbn [app]; constructor; assumption|].
      split; [assumption|]. split; [reflexivity|assumption].
Qed.

Lemma white_tailchar t : Forall white t -> Forall tailchar t.
Proof. apply Forall_impl. intros a Ha; left; exact Ha. Qed.

Lemma drop_tail_nil : forall t, Forall tailchar t -> drop_tail_rev (rev t) = [].
Proof. intros t H. rewrite <- (app_nil_r (rev t)). rewrite drop_tail_app by assumption. reflexivity. Qed.

Lemma trail_digit_even s e t : HexPairText s e -> Forall tailchar t -> trail_digit (e ++ t) = None.
Proof.
  intros He Ht. unfold trail_digit. rewrite rev_app_distr, drop_tail_app by assumption.
  destruct (HexPairText_rstrip s e He) as [[-> Hw]|(e0&w&c&Hp&Hw&->&Hc&Hs&Hn)].
  - rewrite drop_tail_nil by (apply white_tailchar; assumption). reflexivity.
  - change (e0 ++ c :: w) with (e0 ++ [c] ++ w). rewrite app_assoc, rev_app_distr.
    rewrite drop_tail_app by (apply white_tailchar; assumption).
    rewrite rev_app_distr. cbn [rev app drop_tail_rev]. rewrite Hs.
    destruct (c =? 62) eqn:E; [lia|]. cbn [orb]. rewrite Hc, rev_involutive.
    rewrite (pairs_or_space_odd s (e0 ++ [c]) Hp e0 c Hc Hs eq_refl). reflexivity.
Qed.

Lemma trail_digit_odd s e c v t : HexPairText s e -> HexDigit c v -> Forall tailchar t ->
  trail_digit (e ++ c :: t) = Some c.
Proof.
  intros He Hc Ht. unfold trail_digit. change (c :: t) with ([c] ++ t).
  rewrite app_assoc, rev_app_distr, drop_tail_app by assumption.
  rewrite rev_app_distr. cbn [rev app drop_tail_rev].
  apply HexDigit_model in Hc as (Hh&_&Hs&Hn). rewrite Hs.
  destruct (c =? 62) eqn:E; [lia|]. cbn [orb]. rewrite Hh, rev_involutive.
  rewrite (pairs_or_space_text s e He). reflexivity.
Qed.

Lemma asciihex_even_lemma s e t :
  HexPairText s e -> Forall (fun c => white c \/ c = 62) t -> asciihexdecode (e ++ t) = s.
Proof.
  intros He Ht. unfold asciihexdecode. rewrite (trail_digit_even s e t He Ht).
  rewrite (hex_pairs_text s e He). rewrite hex_pairs_tail by exact Ht. rewrite !app_nil_r. reflexivity.
Qed.

Lemma asciihex_odd_lemma s e c v t :
  HexPairText s e -> HexDigit c v -> Forall (fun c => white c \/ c = 62) t ->
  asciihexdecode (e ++ c :: t) = s ++ [16 * v].
Proof.
  intros He Hc Ht. unfold asciihexdecode. rewrite (trail_digit_odd s e c v t He Hc Ht).
  rewrite (hex_pairs_text s e He). pose proof (HexDigit_model c v Hc) as (Hh&->&_).
  rewrite hex_pairs_odd by assumption. rewrite app_nil_r. reflexivity.
Qed.

(* ---------- RunLength ---------- *)

Lemma rl_go_fuel_more : forall f data out f',
  (length data <= f)%nat -> (length data <= f')%nat -> rl_go f data out = rl_go f' data out.
Proof.
  induction f as [|f IH]; intros data out f' H H'.
  - destruct data; [|cbn in H; lia]. destruct f'; reflexivity.
  - destruct data as [|len rest]; [destruct f'; reflexivity|].
    destruct f' as [|f']; [cbn in H'; lia|]. cbn [rl_go].
    destruct (len =? 128); [reflexivity|].
    destruct ((0 <=? len) && (len <? 128)).
    + destruct (Nat.ltb _ _); [reflexivity|]. apply IH; rewrite skipn_length; cbn in H, H'; lia.
    + destruct rest as [|b rest]; [reflexivity|]. apply IH; cbn in H, H'; lia.
Qed.

Lemma rl_go_run r data out f :
  run_ok r -> (length (run_write r ++ data) <= f)%nat ->
  rl_go f (run_write r ++ data) out = rl_go f data (out ++ run_mean r).
Proof.
  intros Hr Hf. destruct f as [|f]; [destruct r; cbn in Hf; lia|].
  destruct r as [l|n b]; cbn [run_write run_mean run_ok] in *.
  - rewrite (rl_go_fuel_more (S f) data (out ++ l) f) by (cbn [app length] in Hf; rewrite app_length in Hf; lia).
    cbn [app rl_go].
    destruct (Z.of_nat (length l) - 1 =? 128) eqn:E; [lia|].
    replace ((0 <=? Z.of_nat (length l) - 1) && (Z.of_nat (length l) - 1 <? 128)) with true by lia.
    replace (Z.to_nat (Z.of_nat (length l) - 1 + 1)) with (length l) by lia.
    destruct (Nat.ltb_spec (length (l ++ data)) (length l)) as [H|H]; [rewrite app_length in H; lia|].
    rewrite skipn_app, skipn_all, Nat.sub_diag, firstn_app, firstn_all, Nat.sub_diag. cbn [skipn firstn app].
    rewrite app_nil_r. reflexivity.
  - rewrite (rl_go_fuel_more (S f) data _ f) by (cbn [app length] in Hf; lia).
    cbn [app rl_go].
    destruct (257 - n =? 128) eqn:E; [lia|].
    destruct ((0 <=? 257 - n) && (257 - n <? 128)) eqn:E2; [lia|].
    replace (Z.to_nat (257 - (257 - n))) with (Z.to_nat n) by lia.
    reflexivity.
Qed.

Lemma rl_go_runs rs : Forall run_ok rs -> forall data out f,
  (length (flat_map run_write rs ++ data) <= f)%nat ->
  rl_go f (flat_map run_write rs ++ data) out = rl_go f data (out ++ flat_map run_mean rs).
Proof.
  induction 1 as [|r rs Hr H IH]; intros data out f Hf; cbn [flat_map] in *.
  - rewrite app_nil_r. reflexivity.
  - rewrite <- app_assoc in *. rewrite rl_go_run by assumption.
    rewrite IH by (rewrite app_length in Hf; lia). rewrite <- app_assoc. reflexivity.
Qed.

Lemma rldecode_runs_lemma rs tail : Forall run_ok rs ->
  rldecode (flat_map run_write rs) = Ok (flat_map run_mean rs) /\
  rldecode (flat_map run_write rs ++ 128 :: tail) = Ok (flat_map run_mean rs).
Proof.
  intros H. split; unfold rldecode.
  - rewrite <- (app_nil_r (flat_map run_write rs)). rewrite rl_go_runs by (assumption || lia).
    destruct (length _); reflexivity.
  - rewrite rl_go_runs by (assumption || lia). rewrite app_length. cbn [length].
    rewrite Nat.add_succ_r. reflexivity.
Qed.

(* what a decodable input looks like *)
Lemma rl_go_shape : forall f data out o, bytes data -> (length data <= f)%nat ->
  (rl_go f data out = Ok o ->
     exists rs tail, Forall run_ok rs /\ o = out ++ flat_map run_mean rs /\
       (data = flat_map run_write rs \/ data = flat_map run_write rs ++ 128 :: tail)) /\
  (forall e, rl_go f data out = Err e -> e = IndexError).
Proof.
  induction f as [|f IH]; intros data out o Hb Hf.
  - destruct data; [|cbn in Hf; lia]. split; [|discriminate].
    intros H; injection H as <-. exists [], []. cbn. rewrite app_nil_r. splits; auto.
  - destruct data as [|len rest].
    { split; [|discriminate]. intros H; injection H as <-. exists [], []. cbn. rewrite app_nil_r. splits; auto. }
    inversion_clear Hb as [|? ? Hl Hrest]. unfold is_byte in Hl. cbn [rl_go]. cbn in Hf.
    destruct (len =? 128) eqn:E1.
    { split; [|discriminate]. intros H; injection H as <-. exists [], rest. cbn. rewrite app_nil_r.
      splits; auto. right. f_equal. lia. }
    destruct ((0 <=? len) && (len <? 128)) eqn:E2.
    + destruct (Nat.ltb_spec (length rest) (Z.to_nat (len + 1))) as [H1|H1].
      { split; [discriminate|]. intros e He; congruence. }
      assert (Hb' : bytes (skipn (Z.to_nat (len + 1)) rest)).
      { unfold bytes. rewrite <- (firstn_skipn (Z.to_nat (len+1)) rest) in Hrest.
        apply Forall_app in Hrest. tauto. }
      destruct (IH (skipn (Z.to_nat (len + 1)) rest) (out ++ firstn (Z.to_nat (len + 1)) rest) o Hb') as [I1 I2].
      { rewrite skipn_length. lia. }
      split; [|exact I2]. intros H. apply I1 in H as (rs&tail&Hr&->&Hd).
      assert (Hlen : length (firstn (Z.to_nat (len + 1)) rest) = Z.to_nat (len + 1)) by (rewrite firstn_length; lia).
      exists (Literal (firstn (Z.to_nat (len + 1)) rest) :: rs), tail.
      split. { constructor; [|assumption]. cbn [run_ok]. rewrite Hlen. lia. }
      split. { cbn [flat_map run_mean]. rewrite app_assoc. reflexivity. }
      cbn [flat_map run_write]. rewrite Hlen. replace (Z.of_nat (Z.to_nat (len + 1)) - 1) with len by lia.
      cbn [app]. destruct Hd as [Hd|Hd].
      * left. f_equal. rewrite <- Hd. rewrite firstn_skipn. reflexivity.
      * right. f_equal. rewrite <- app_assoc, <- Hd. rewrite firstn_skipn. reflexivity.
    + destruct rest as [|b rest]. { split; [discriminate|]. intros e He; congruence. }
      inversion_clear Hrest as [|? ? Hb Hrest'].
      destruct (IH rest (out ++ repeat b (Z.to_nat (257 - len))) o Hrest') as [I1 I2]. { cbn in Hf; lia. }
      split; [|exact I2]. intros H. apply I1 in H as (rs&tail&Hr&->&Hd).
      exists (Repeat (257 - len) b :: rs), tail.
      split. { constructor; [|assumption]. cbn [run_ok]. lia. }
      split. { cbn [flat_map run_mean]. rewrite app_assoc. reflexivity. }
      cbn [flat_map run_write app]. replace (257 - (257 - len)) with len by lia.
      destruct Hd as [-> | ->]; auto.
Qed.

Lemma rldecode_shape_lemma data out : bytes data -> rldecode data = Ok out ->
  exists rs tail, Forall run_ok rs /\ out = flat_map run_mean rs /\
    (data = flat_map run_write rs \/ data = flat_map run_write rs ++ 128 :: tail).
Proof.
  intros Hb H. destruct (rl_go_shape (length data) data [] out Hb (le_n _)) as [I _].
  apply I in H. exact H.
Qed.

Lemma rldecode_err_lemma data e : bytes data -> rldecode data = Err e -> e = IndexError.
Proof. intros Hb. apply (rl_go_shape (length data) data [] [] Hb (le_n _)). Qed.

Lemma rldecode_truncated_lemma rs r p q : Forall run_ok rs -> run_ok r ->
  run_write r = p ++ q -> p <> [] -> q <> [] ->
  rldecode (flat_map run_write rs ++ p) = Err IndexError.
Proof.
  intros Hrs Hr E Hp Hq. unfold rldecode. rewrite rl_go_runs by (assumption || lia).
  rewrite app_length. destruct p as [|len p]; [congruence|]. cbn [length]. rewrite Nat.add_succ_r.
  destruct r as [l|n b]; cbn [run_write run_ok] in *; cbn [app] in E; injection E as E1 E2.
  - cbn [rl_go]. subst len. destruct (Z.of_nat (length l) - 1 =? 128) eqn:E; [lia|].
    replace ((0 <=? Z.of_nat (length l) - 1) && (Z.of_nat (length l) - 1 <? 128)) with true by lia.
    destruct (Nat.ltb_spec (length p) (Z.to_nat (Z.of_nat (length l) - 1 + 1))) as [H|H]; [reflexivity|].
    subst l. rewrite app_length in H. destruct q; [congruence|]. cbn in H. lia.
  - cbn [rl_go]. subst len. destruct (257 - n =? 128) eqn:E; [lia|].
    destruct ((0 <=? 257 - n) && (257 - n <? 128)) eqn:E3; [lia|].
    destruct p as [|x p]; [reflexivity|]. cbn [app] in E2. injection E2 as -> E2.
    destruct p; [|discriminate]. cbn in E2. congruence.
Qed.
