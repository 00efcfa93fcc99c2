(* Encryption: C48 (decryption), C49 (passwords), C50 (permissions). *)
From Coq Require Import String.
From Verif Require Import Base Lex_Model Obj Stream_Model Stream_Spec Stream_Props Page_Model RC4 Sec_Model Sec_Spec.
From Coq Require Import ZifyBool ZifyNat.
Open Scope Z_scope.

(* C50. The three flags are bits 3, 4 and 5 (counted from 1) of P, for every integer *)
Lemma land_bit p k : 0 <= k -> negb (Z.land p (2 ^ k) =? 0) = Z.testbit p k.
Proof.
  intros Hk. destruct (Z.testbit p k) eqn:E.
  - apply negb_true_iff, Z.eqb_neq. intros H. assert (T : Z.testbit (Z.land p (2 ^ k)) k = false) by (rewrite H; apply Z.bits_0).
    rewrite Z.land_spec, E, Z.pow2_bits_true in T by assumption. discriminate.
  - apply negb_false_iff, Z.eqb_eq. apply Z.bits_inj'. intros i Hi. rewrite Z.land_spec, Z.bits_0, Z.pow2_bits_eqb by assumption.
    destruct (k =? i) eqn:F; [apply Z.eqb_eq in F; subst i; rewrite E; reflexivity|apply andb_false_r].
Qed.
Theorem C50_permissions : forall h,
  is_printable h = Z.testbit (h_p h) 2 /\ is_modifiable h = Z.testbit (h_p h) 3 /\ is_extractable h = Z.testbit (h_p h) 4.
Proof. intros h. splits; [apply (land_bit _ 2)|apply (land_bit _ 3)|apply (land_bit _ 4)]; lia. Qed.
Example C50_example : let h := mkH [] 1 2 (-44) [] [] 40 false [] [] [] [] [] in
  (is_printable h, is_modifiable h, is_extractable h) = (true, false, true).
Proof. reflexivity. Qed.

(* bytes *)
Lemma low_le n : forall v, low_bytes n v = le_bytes n v.
Proof.
  unfold low_bytes. induction n as [|n IH]; intros v; [reflexivity|]. cbn [seq map le_bytes]. f_equal.
  - change 255 with (Z.ones 8). rewrite Z.land_ones by lia. rewrite Z.mul_0_r, Z.shiftr_0_r. reflexivity.
  - rewrite <- IH, <- seq_shift, map_map. apply map_ext. intros i. f_equal. rewrite Nat2Z.inj_succ.
    replace (8 * Z.succ (Z.of_nat i)) with (8 + 8 * Z.of_nat i) by lia. rewrite <- Z.shiftr_shiftr by lia. f_equal.
    rewrite Z.shiftr_div_pow2 by lia. reflexivity.
Qed.
Lemma le_first n m v : (n <= m)%nat -> firstn n (le_bytes m v) = le_bytes n v.
Proof. revert m v. induction n as [|n IH]; intros [|m] v H; try reflexivity; try lia. cbn [le_bytes firstn]. rewrite IH by lia. reflexivity. Qed.
Lemma le_length n : forall v, length (le_bytes n v) = n.
Proof. induction n; intros; cbn; auto. Qed.

Section s.
  Context (md5 : list Z -> list Z) (md5_len : forall d, length (md5 d) = 16%nat).

  Lemma iter_md5_iter f : forall k d, iter_md5 md5 k f d = Nat.iter k (fun h => md5 (f h)) d.
  Proof.
    assert (G : forall k d, Nat.iter k (fun h => md5 (f h)) (md5 (f d)) = md5 (f (Nat.iter k (fun h => md5 (f h)) d))).
    { induction k as [|k IH]; intros d; [reflexivity|]. cbn [Nat.iter nat_rect]. unfold Nat.iter in *. cbn [nat_rect]. rewrite IH. reflexivity. }
    induction k as [|k IH]; intros d; [reflexivity|]. cbn [iter_md5]. rewrite IH, G. reflexivity.
  Qed.
  Lemma slice_nat n d : slice_to (Z.of_nat n) d = firstn n d.
  Proof. unfold slice_to. replace (0 <=? Z.of_nat n) with true by lia. rewrite Nat2Z.id. reflexivity. Qed.
  Lemma iter_len k f d : length d = 16%nat -> length (Nat.iter k (fun h => md5 (f h)) d) = 16%nat.
  Proof. destruct k; intros H; [exact H|]. apply md5_len. Qed.
  Lemma xor_len k i : length (xor_key k i) = length k. Proof. apply map_length. Qed.
  Lemma arc4_ok k d : (5 <= length k <= 16)%nat -> arc4 k d = Ok (rc4 k d).
  Proof. intros H. unfold arc4. replace ((5 <=? length k) && (length k <=? 256))%nat with true by lia. reflexivity. Qed.
  Lemma rounds_ok k is : (5 <= length k <= 16)%nat -> forall d, rc4_rounds k is d = Ok (fold_left (fun d i => rc4 (xored k i) d) is d).
  Proof.
    intros H. induction is as [|i is IH]; intros d; [reflexivity|]. cbn [rc4_rounds fold_left].
    rewrite arc4_ok by (rewrite xor_len; exact H). cbn [bind]. rewrite IH. reflexivity.
  Qed.
  (* the rounds undone in the opposite order *)
  Lemma rounds_undo k is : forall d, fold_left (fun d i => rc4 (xored k i) d) (rev is) (fold_left (fun d i => rc4 (xored k i) d) is d) = d.
  Proof.
    induction is as [|i is IH]; intros d; [reflexivity|]. cbn [rev fold_left]. rewrite fold_left_app, IH. cbn [fold_left]. apply rc4_involutive.
  Qed.
  Lemma rounds_len k is : forall d, length (fold_left (fun d i => rc4 (xored k i) d) is d) = length d.
  Proof. induction is as [|i is IH]; intros d; [reflexivity|]. cbn [fold_left]. rewrite IH. apply rc4_length. Qed.
  Lemma xored_0 k : xored k 0 = k.
  Proof. unfold xored. rewrite <- (map_id k) at 2. apply map_ext. intros c. apply Z.lxor_0_r. Qed.
  Lemma pad_len p : length (pad p) = 32%nat.
  Proof. unfold pad. rewrite firstn_length, app_length. cbn [PAD length]. lia. Qed.
  Lemma pad_pad p : pad (pad p) = pad p.
  Proof. unfold pad at 1. rewrite firstn_app, pad_len, Nat.sub_diag, firstn_O, app_nil_r. apply firstn_all2. rewrite pad_len. lia. Qed.

  (* the revisions of the handlers with RC4 keys *)
  Definition good (R L : Z) (n : nat) : Prop := R = 2 /\ n = 5%nat \/ (R = 3 \/ R = 4) /\ (5 <= n <= 16)%nat /\ L = 8 * Z.of_nat n.
  Definition like (h : handler) (R L P : Z) (id : list Z) (meta : bool) (O U : list Z) : Prop :=
    h_r h = R /\ h_length h = L /\ h_p h = P /\ (exists t, h_docid h = OStr id :: t) /\ h_meta h = meta /\ h_o h = O /\ h_u h = U.
  Lemma doc_id_ok h R L P id meta O U : like h R L P id meta O U -> doc_id h = Ok id.
  Proof. intros (_ & _ & _ & (t & E) & _). unfold doc_id. rewrite E. reflexivity. Qed.
  Lemma doc_key_len R L n O P id meta pw : good R L n -> length (document_key md5 R n O P id meta pw) = n.
  Proof.
    intros G. unfold document_key. rewrite firstn_length. assert (n <= 16)%nat by (destruct G as [[_ ->]|(_ & G & _)]; lia).
    destruct (3 <=? R); [rewrite (iter_len 50 (firstn n)) by apply md5_len|rewrite md5_len]; lia.
  Qed.
  Lemma compute_key_ok h R L n P id meta O U pw : like h R L P id meta O U -> good R L n -> -2147483648 <= P < 2147483648 ->
    compute_key md5 h pw = Ok (document_key md5 R n O P id meta pw).
  Proof.
    intros HL HG HP. pose proof (doc_id_ok _ _ _ _ _ _ _ _ HL) as HD. destruct HL as (HR & HLe & HPp & _ & HM & HO & _).
    unfold compute_key. rewrite HPp. unfold pack_l. replace ((-2147483648 <=? P) && (P <? 2147483648)) with true by lia. cbn [bind]. rewrite HD. cbn [bind].
    rewrite HR, HM, HO, HLe. unfold document_key. rewrite low_le. unfold pad. change PAD with PADDING.
    destruct HG as [[-> ->]|(HR' & Hn & ->)].
    - reflexivity.
    - replace (3 <=? R) with true by lia. replace (8 * Z.of_nat n / 8) with (Z.of_nat n) by (rewrite Z.mul_comm, Z.div_mul by lia; reflexivity).
      rewrite slice_nat, iter_md5_iter. f_equal. f_equal.
      assert (X : forall d, Nat.iter 50 (fun x => md5 (slice_to (Z.of_nat n) x)) d = Nat.iter 50 (fun x => md5 (firstn n x)) d).
      { intros d. generalize 50%nat. induction n0 as [|k IH]; [reflexivity|]. cbn [Nat.iter nat_rect]. unfold Nat.iter in IH. rewrite IH, slice_nat. reflexivity. }
      rewrite X. reflexivity.
  Qed.
  Lemma U_len R id key : length (U_entry md5 R id key) = if 3 <=? R then 16%nat else 32%nat.
  Proof. unfold U_entry. destruct (3 <=? R); [rewrite rounds_len, rc4_length, md5_len|rewrite rc4_length]; reflexivity. Qed.
  Lemma verify_ok h R L n P id meta O U key : like h R L P id meta O U -> good R L n -> length key = n ->
    exists b, verify md5 h key = Ok b /\ (b = true <-> (if 3 <=? R then firstn 16 U = U_entry md5 R id key else U = U_entry md5 R id key)).
  Proof.
    intros HL HG Hk. pose proof (doc_id_ok _ _ _ _ _ _ _ _ HL) as HD. destruct HL as (HR & _ & _ & _ & _ & _ & HU).
    assert (HK : (5 <= length key <= 16)%nat) by (destruct HG as [[_ ->]|(_ & G & _)]; lia).
    unfold verify, compute_u. rewrite HR, HU, HD. pose proof (U_len R id key) as HUl. unfold U_entry in *. change PADDING with PAD.
    destruct HG as [[-> ->]|(HR' & _)].
    - change (2 =? 2) with true. change (3 <=? 2) with false in *. cbv iota in *. rewrite arc4_ok by exact HK. cbn [bind]. eexists. split; [reflexivity|].
      rewrite list_eqb_eq. split; intros; congruence.
    - replace (R =? 2) with false by lia. replace (3 <=? R) with true in * by lia. cbn [bind]. rewrite arc4_ok by exact HK. cbn [bind].
      rewrite rounds_ok by exact HK. cbn [bind]. eexists. split; [reflexivity|]. rewrite list_eqb_eq.
      change (up 1 19) with one_to_19. rewrite firstn_app, HUl. change (16 - 16)%nat with 0%nat. rewrite firstn_O, app_nil_r, firstn_all2 by (rewrite HUl; lia).
      split; intros; congruence.
  Qed.
  (* what the user check tests *)
  Definition user_ok (R : Z) (n : nat) (P : Z) (id : list Z) (meta : bool) (O U pw : list Z) : Prop :=
    let k := document_key md5 R n O P id meta pw in
    if 3 <=? R then firstn 16 U = U_entry md5 R id k else U = U_entry md5 R id k.
  Lemma user_ok_dec R n P id meta O U pw : {user_ok R n P id meta O U pw} + {~ user_ok R n P id meta O U pw}.
  Proof. unfold user_ok. destruct (3 <=? R); apply (list_eq_dec Z.eq_dec). Qed.
  Lemma auth_user_ok h R L n P id meta O U pw : like h R L P id meta O U -> good R L n -> -2147483648 <= P < 2147483648 ->
    (user_ok R n P id meta O U pw -> auth_user md5 h pw = Ok (Some (document_key md5 R n O P id meta pw))) /\
    (~ user_ok R n P id meta O U pw -> auth_user md5 h pw = Ok None).
  Proof.
    intros HL HG HP. unfold auth_user. rewrite (compute_key_ok _ _ _ _ _ _ _ _ _ pw HL HG HP). cbn [bind].
    destruct (verify_ok _ _ _ _ _ _ _ _ _ (document_key md5 R n O P id meta pw) HL HG (doc_key_len _ _ _ _ _ _ _ _ HG)) as (b & -> & Hb). cbn [bind].
    unfold user_ok. split; intros H; rewrite <- Hb in H; destruct b; try reflexivity; try discriminate H; congruence.
  Qed.
  (* the user password recovered with an owner password *)
  Definition recovered (R : Z) (n : nat) (O owner : list Z) : list Z :=
    let k := owner_key md5 R n owner in
    if 3 <=? R then rc4 k (fold_left (fun d i => rc4 (xored k i) d) (rev one_to_19) O) else rc4 k O.
  Lemma recovered_ok R n owner user : recovered R n (O_entry md5 R n owner user) owner = pad user.
  Proof.
    unfold recovered, O_entry. destruct (3 <=? R); [|apply rc4_involutive]. rewrite rounds_undo. apply rc4_involutive.
  Qed.
  Lemma auth_owner_ok h R L n P id meta O U pw : like h R L P id meta O U -> good R L n ->
    auth_owner md5 h pw = auth_user md5 h (recovered R n O pw).
  Proof.
    intros HL HG. destruct HL as (HR & HLe & _ & _ & _ & HO & _). unfold auth_owner, recovered, owner_key. rewrite HR, HO, HLe.
    unfold pad. change PAD with PADDING. set (x := md5 (firstn 32 (pw ++ PADDING))).
    assert (Hx : length x = 16%nat) by apply md5_len.
    destruct HG as [[-> ->]|(HR' & Hn & ->)].
    - change (2 =? 2) with true. change (3 <=? 2) with false. cbv iota. change 5 with (Z.of_nat 5). rewrite slice_nat.
      rewrite arc4_ok by (rewrite firstn_length, Hx; cbn; lia). reflexivity.
    - replace (R =? 2) with false by lia. replace (3 <=? R) with true by lia. replace (8 * Z.of_nat n / 8) with (Z.of_nat n) by (rewrite Z.mul_comm, Z.div_mul by lia; reflexivity).
      rewrite slice_nat, iter_md5_iter.
      assert (HK : (5 <= length (firstn n (Nat.iter 50 (fun h0 => md5 h0) x)) <= 16)%nat) by (rewrite firstn_length, (iter_len 50 (fun x => x)) by exact Hx; lia).
      rewrite rounds_ok by exact HK. change (rev (up 0 20)) with (rev one_to_19 ++ [0]). rewrite fold_left_app. cbn [fold_left bind]. rewrite xored_0. reflexivity.
  Qed.
End s.

(* the encryption dictionary of the handlers with V 1 or 2, and 4 *)
Definition Common (param : dict) (V R P L : Z) (O U : list Z) : Prop :=
  dget param "Filter" = Some (ON "Standard") /\ dget param "V" = Some (OInt V) /\ dget param "R" = Some (OInt R) /\
  dget param "P" = Some (OInt P) /\ dget param "O" = Some (OStr O) /\ dget param "U" = Some (OStr U) /\
  (dget param "Length" = Some (OInt L) \/ dget param "Length" = None /\ L = 40).
Definition methods (V : Z) : list (list Z) := if V =? 5 then [bs "AESV3"] else [bs "V2"; bs "AESV2"].
Definition crypt_filter (V : Z) (e : obj * obj) : Prop :=
  exists k f n, e = (OName k, ODict f) /\ dget f "CFM" = Some (OName n) /\ In n (methods V).
(* V 4 and 5: crypt filters with the methods V2 and AESV2, or AESV3; strings and streams use the same filter *)
Definition Filters (V : Z) (param : dict) (meta : bool) (name : list Z) : Prop :=
  exists cf, dget param "CF" = Some (ODict cf) /\ Forall (crypt_filter V) cf /\
    dget param "StmF" = Some (OName name) /\ dget param "StrF" = Some (OName name) /\
    (name = bs "Identity" \/ exists f, In (OName name, ODict f) cf) /\
    (dget param "EncryptMetadata" = Some (OBool meta) \/ dget param "EncryptMetadata" = None /\ meta = true).

Section open.
  Context (md5 sha256 : list Z -> list Z) (md5_len : forall d, length (md5 d) = 16%nat).
  Context (aes : list Z -> list Z -> list Z -> res (list Z)) (getobj : Z -> option obj) (depth : nat) (Hdepth : (0 < depth)%nat).
  Notation open_with := (open_with md5 sha256 aes getobj depth).

  (* the supported combinations: V 1 or 2 with R 2 (40-bit keys) or 3, V 4 with R 4 (128-bit keys) *)
  Inductive Supported (param : dict) : Z -> Z -> Z -> nat -> bool -> list Z -> list Z -> Prop :=
  | Sup_old : forall V R P L O U n, Common param V R P L O U -> V = 1 \/ V = 2 -> R = 2 /\ n = 5%nat \/ R = 3 /\ (5 <= n <= 16)%nat /\ L = 8 * Z.of_nat n ->
      Supported param V R P n false O U
  | Sup_v4 : forall P L O U meta name, Common param 4 4 P L O U -> Filters 4 param meta name -> Supported param 4 4 P 16 meta O U.

  Lemma iv_int z : iv getobj depth (OInt z) = Ok z.
  Proof. unfold iv, Stream_Model.int_value. destruct depth; [lia|reflexivity]. Qed.
  Lemma sv_str s : sv getobj depth (OStr s) = Ok s.
  Proof. unfold sv, resolved. destruct depth; [lia|reflexivity]. Qed.
  Lemma base_params_ok docid param V R P L O U : Common param V R P L O U ->
    base_params getobj depth docid param = Ok (mkH docid V R P O U L false [] [] [] [] []).
  Proof.
    intros (_ & HV & HR & HP & HO & HU & HL). unfold base_params, need. rewrite HV, HR, HP, HO, HU. cbn [bind]. rewrite !iv_int, !sv_str. cbn [bind].
    destruct HL as [ -> | [-> ->] ]; rewrite iv_int; reflexivity.
  Qed.
  Lemma find_cfm_in l n : (exists m, In (n, m) l) -> exists m, find_cfm l n = Some m.
  Proof.
    intros (m & H). induction l as [|[k x] l IH]; [destruct H|]. cbn [find_cfm]. destruct (list_eqb k n) eqn:E; [eauto|].
    destruct H as [H|H]; [injection H as -> ->; rewrite list_eqb_refl in E; discriminate|auto].
  Qed.
  Lemma cfms_ok V cf : V = 4 \/ V = 5 -> Forall (crypt_filter V) cf -> exists l, cfms V cf = Ok l /\ forall k f, In (OName k, ODict f) cf -> exists m, In (k, m) l.
  Proof.
    intros HV H. induction H as [|e cf (k & f & n & -> & Hn & Hm) Hcf (l & El & Hl)].
    - exists []. split; [reflexivity|]. intros k f [].
    - cbn [cfms lit_name bind]. unfold need. rewrite Hn. cbn [bind]. rewrite El.
      assert (X : exists m, method_of V n = Some m).
      { unfold methods in Hm. destruct HV as [HV|HV]; rewrite HV in *; cbn in Hm; destruct Hm as [Hm|Hm]; try (rewrite <- Hm; eexists; reflexivity); [|destruct Hm].
        destruct Hm as [Hm|Hm]; [rewrite <- Hm; eexists; reflexivity|destruct Hm]. }
      cbn [lit_name bind]. destruct X as (m & ->). cbn [bind].
      eexists. split; [reflexivity|]. intros k' f' [X|X]; [injection X as -> ->; exists m; left; reflexivity|].
      destruct (Hl _ _ X) as (m' & HI). exists m'. right. exact HI.
  Qed.
  Lemma v4_params_ok docid param V R P L O U meta name : V = 4 \/ V = 5 -> Common param V R P L O U -> Filters V param meta name ->
    exists l, v4_params getobj depth docid param = Ok (mkH docid V R P O U 128 meta ((bs "Identity", M_identity) :: l) name [] [] []).
  Proof.
    intros HV HC HF. pose proof (base_params_ok docid _ _ _ _ _ _ _ HC) as HB. destruct HF as (cf & HCF & Hcf & HSm & HSr & HN & HM).
    destruct (cfms_ok _ _ HV Hcf) as (l & El & Hl).
    assert (X : exists m, find_cfm ((bs "Identity", M_identity) :: l) name = Some m).
    { apply find_cfm_in. destruct HN as [ -> | (f & HN) ]; [exists M_identity; left; reflexivity|]. destruct (Hl _ _ HN) as (m & HI). exists m. right. exact HI. }
    destruct X as (m & Hm). exists l.
    unfold v4_params. rewrite HB. cbn [bind]. rewrite HCF. unfold dict_value, resolved. destruct depth as [|d]; [lia|]. cbn [resolve1 bind]. unfold need.
    rewrite HSm, HSr. cbn [bind lit_name h_v h_r h_p h_o h_u]. rewrite list_eqb_refl. cbn [negb]. rewrite El. cbn [bind]. rewrite Hm.
    destruct HM as [ -> | [-> ->] ]; [|reflexivity]. destruct meta; reflexivity.
  Qed.
  (* opening is authentication by a handler that has read the dictionary *)
  Lemma open_lemma param V R P n meta O U id docid pw : Supported param V R P n meta O U -> docid = OStr id :: tl docid ->
    exists h L, like h R L P id meta O U /\ good R L n /\ h_v h = V /\ open_with docid param pw = init_key h (authenticate md5 h pw).
  Proof.
    intros HS HD. destruct HS as [V R P L O U n HC HV HR|P L O U meta name HC HF].
    - exists (mkH docid V R P O U L false [] [] [] [] []), L. splits.
      + unfold like. cbn. splits; try reflexivity. exists (tl docid). exact HD.
      + unfold good. destruct HR as [HR|HR]; [left; exact HR|right; intuition lia].
      + reflexivity.
      + unfold Sec_Model.open_with. pose proof (base_params_ok docid _ _ _ _ _ _ _ HC) as HB. destruct HC as (HFi & HVv & _). rewrite HFi, HVv. cbn [ON].
        rewrite list_eqb_refl, iv_int. cbn [bind]. replace ((V =? 1) || (V =? 2)) with true by lia. rewrite HB. cbn [bind h_r].
        replace ((R =? 2) || (R =? 3)) with true by lia. reflexivity.
    - destruct (v4_params_ok docid _ _ _ _ _ _ _ _ _ (or_introl eq_refl) HC HF) as (l & HP4).
      exists (mkH docid 4 4 P O U 128 meta ((bs "Identity", M_identity) :: l) name [] [] []), 128. splits.
      + unfold like. cbn. splits; try reflexivity. exists (tl docid). exact HD.
      + unfold good. right. splits; lia.
      + reflexivity.
      + unfold Sec_Model.open_with. destruct HC as (HFi & HVv & _). rewrite HFi, HVv. cbn [ON].
        rewrite list_eqb_refl, iv_int. cbn [bind]. change ((4 =? 1) || (4 =? 2)) with false. change (4 =? 4) with true. cbv iota. rewrite HP4. cbn [bind h_r]. reflexivity.
  Qed.
  Definition latin1_password (pw : list Z) : Prop := Forall (fun c => 0 <= c < 256) pw.
  Lemma enc_ok pw : latin1_password pw -> enc_latin1 pw = Ok pw.
  Proof.
    intros H. unfold enc_latin1. replace (forallb (fun c => c <? 256) pw) with true; [reflexivity|]. symmetry. apply forallb_forall.
    intros c Hc. apply (proj1 (Forall_forall _ _) H) in Hc. lia.
  Qed.

  (* C49. In a document protected with an owner and a user password, the user password opens it with the key of the document; *)
  Theorem C49_user_partial : forall param V R P n meta O U id docid owner user key,
    Supported param V R P n meta O U -> Protected md5 R n P id meta owner user O U key -> -2147483648 <= P < 2147483648 ->
    docid = OStr id :: tl docid -> latin1_password user ->
    exists h, open_with docid param user = Ok h /\ h_key h = key /\ h_p h = P /\ h_v h = V.
  Proof.
    intros param V R P n meta O U id docid owner user key HS (HO & HK & HU) HP HD HL.
    destruct (open_lemma _ _ _ _ _ _ _ _ _ _ user HS HD) as (h & L & Hl & Hg & HV & ->). unfold authenticate. rewrite (enc_ok _ HL). cbn [bind].
    assert (X : user_ok md5 R n P id meta O U user).
    { unfold user_ok, U_matches in *. rewrite HK in HU. pose proof (U_len md5 md5_len R id (document_key md5 R n O P id meta user)) as HUl.
      destruct (3 <=? R); [|exact HU]. destruct HU as (rest & ->). rewrite firstn_app, HUl. change (16 - 16)%nat with 0%nat. rewrite firstn_O, app_nil_r.
      apply firstn_all2. rewrite HUl. lia. }
    rewrite (proj1 (auth_user_ok md5 md5_len _ _ _ _ _ _ _ _ _ user Hl Hg HP) X). cbn [bind init_key]. eexists. splits; [reflexivity| | |]; cbn; [congruence|apply Hl|exact HV].
  Qed.
  (* and so does the owner password, if it does not pass itself for the user password *)
  Theorem C49_owner_partial : forall param V R P n meta O U id docid owner user key,
    Supported param V R P n meta O U -> Protected md5 R n P id meta owner user O U key -> -2147483648 <= P < 2147483648 ->
    docid = OStr id :: tl docid -> latin1_password owner ->
    ~ U_matches md5 R id (document_key md5 R n O P id meta owner) U ->
    exists h, open_with docid param owner = Ok h /\ h_key h = key /\ h_p h = P /\ h_v h = V.
  Proof.
    intros param V R P n meta O U id docid owner user key HS (HO & HK & HU) HP HD HL HN.
    destruct (open_lemma _ _ _ _ _ _ _ _ _ _ owner HS HD) as (h & L & Hl & Hg & HV & ->). unfold authenticate. rewrite (enc_ok _ HL). cbn [bind].
    assert (X : ~ user_ok md5 R n P id meta O U owner).
    { intros X. apply HN. unfold user_ok, U_matches in *. destruct (3 <=? R); [|exact X]. exists (skipn 16 U). rewrite <- X. symmetry. apply firstn_skipn. }
    rewrite (proj2 (auth_user_ok md5 md5_len _ _ _ _ _ _ _ _ _ owner Hl Hg HP) X). cbn [bind].
    rewrite (auth_owner_ok md5 md5_len _ _ _ _ _ _ _ _ _ _ Hl Hg). replace (recovered md5 R n O owner) with (pad user) by (rewrite HO; symmetry; apply recovered_ok).
    assert (DK : document_key md5 R n O P id meta (pad user) = key) by (rewrite HK; unfold document_key; rewrite (pad_pad md5 md5_len); reflexivity).
    assert (Y : user_ok md5 R n P id meta O U (pad user)).
    { unfold user_ok, U_matches in *. rewrite DK. pose proof (U_len md5 md5_len R id key) as HUl.
      destruct (3 <=? R); [|exact HU]. destruct HU as (rest & ->). rewrite firstn_app, HUl. change (16 - 16)%nat with 0%nat. rewrite firstn_O, app_nil_r.
      apply firstn_all2. rewrite HUl. lia. }
    rewrite (proj1 (auth_user_ok md5 md5_len _ _ _ _ _ _ _ _ _ (pad user) Hl Hg HP) Y), DK. cbn [bind init_key]. eexists. splits; [reflexivity|reflexivity|apply Hl|exact HV].
  Qed.
  (* A password that is neither is refused, but with NameError: PDFPasswordIncorrect is not imported *)
  Theorem C49_wrong_refuted : forall param V R P n meta O U id docid pw,
    Supported param V R P n meta O U -> -2147483648 <= P < 2147483648 -> docid = OStr id :: tl docid -> latin1_password pw ->
    ~ U_matches md5 R id (document_key md5 R n O P id meta pw) U ->
    ~ U_matches md5 R id (document_key md5 R n O P id meta (recovered md5 R n O pw)) U ->
    open_with docid param pw = Err NameError.
  Proof.
    intros param V R P n meta O U id docid pw HS HP HD HL HN1 HN2.
    destruct (open_lemma _ _ _ _ _ _ _ _ _ _ pw HS HD) as (h & L & Hl & Hg & HV & ->). unfold authenticate. rewrite (enc_ok _ HL). cbn [bind].
    assert (X : forall q, ~ U_matches md5 R id (document_key md5 R n O P id meta q) U -> ~ user_ok md5 R n P id meta O U q).
    { intros q HN X. apply HN. unfold user_ok, U_matches in *. destruct (3 <=? R); [|exact X]. exists (skipn 16 U). rewrite <- X. symmetry. apply firstn_skipn. }
    rewrite (proj2 (auth_user_ok md5 md5_len _ _ _ _ _ _ _ _ _ pw Hl Hg HP) (X _ HN1)). cbn [bind].
    rewrite (auth_owner_ok md5 md5_len _ _ _ _ _ _ _ _ _ _ Hl Hg).
    rewrite (proj2 (auth_user_ok md5 md5_len _ _ _ _ _ _ _ _ _ _ Hl Hg HP) (X _ HN2)). reflexivity.
  Qed.
  (* Permissions written as an unsigned number make every password fail with struct.error *)
  Theorem C49_unsigned_refuted : forall param V R P n meta O U id docid pw,
    Supported param V R P n meta O U -> 2147483648 <= P -> docid = OStr id :: tl docid -> latin1_password pw ->
    open_with docid param pw = Err StructError.
  Proof.
    intros param V R P n meta O U id docid pw HS HP HD HL.
    destruct (open_lemma _ _ _ _ _ _ _ _ _ _ pw HS HD) as (h & L & Hl & Hg & HV & ->). unfold authenticate. rewrite (enc_ok _ HL). cbn [bind].
    destruct Hl as (_ & _ & HPp & _). unfold auth_user, compute_key, pack_l. rewrite HPp. replace ((-2147483648 <=? P) && (P <? 2147483648)) with false by lia. reflexivity.
  Qed.

  (* ---------- C48 ---------- *)
  Lemma object_key_ok key i g salt : 0 <= i < 4294967296 -> 0 <= g < 4294967296 ->
    obj_key md5 key i g salt = Ok (object_key md5 key i g salt).
  Proof.
    intros Hi Hg. unfold obj_key, pack_L. replace ((0 <=? i) && (i <? 4294967296)) with true by lia. replace ((0 <=? g) && (g <? 4294967296)) with true by lia.
    cbn [bind]. unfold object_key. rewrite !low_le, !le_first by lia. f_equal. f_equal. rewrite !app_length, !le_length. lia.
  Qed.
  (* C48. What RC4 with the key of an object encrypts, decrypting that object gives back, whatever the handler's key *)
  Definition uses_rc4 (h : handler) : Prop := h_v h <> 4 /\ h_v h <> 5 \/ (h_v h = 4 /\ find_cfm (h_cfm h) (h_strf h) = Some M_rc4).
  Theorem C48_rc4 : forall h i g data attrs, uses_rc4 h -> 0 <= i < 4294967296 -> 0 <= g < 4294967296 ->
    (h_meta h = true \/ attrs = None \/ h_v h <> 4) ->
    decrypt md5 aes h i g (rc4 (object_key md5 (h_key h) i g []) data) attrs = Ok data /\
    length (rc4 (object_key md5 (h_key h) i g []) data) = length data.
  Proof.
    intros h i g data attrs HU Hi Hg HM. split; [|apply rc4_length].
    assert (HR : decrypt_rc4 md5 h i g (rc4 (object_key md5 (h_key h) i g []) data) = Ok data).
    { unfold decrypt_rc4. rewrite object_key_ok by assumption. cbn [bind]. rewrite (arc4_ok md5 md5_len); [rewrite rc4_involutive; reflexivity|].
      unfold object_key. rewrite firstn_length, md5_len. cbn [length]. lia. }
    unfold decrypt. destruct HU as [[H4 H5]|[H4 HF]].
    - replace ((h_v h =? 4) || (h_v h =? 5)) with false by lia. exact HR.
    - rewrite H4. change ((4 =? 4) || (4 =? 5)) with true. cbv iota. rewrite HF. cbn [run_method]. rewrite HR.
      destruct HM as [ -> | [ -> | HM ] ]; [reflexivity| |congruence]. rewrite andb_false_r. reflexivity.
  Qed.
  (* the same for all strings of an object: when each string in it, at any depth, has been encrypted with the key of the object *)
  Theorem C48_objects_partial : forall key i g plain stored,
    Encrypted (rc4 (object_key md5 key i g [])) plain stored ->
    Stream_Model.decipher_all (rc4 (object_key md5 key i g [])) stored = plain.
  Proof.
    intros key i g plain. set (f := rc4 (object_key md5 key i g [])). assert (Hf : forall s, f (f s) = s) by (intros s; apply rc4_involutive).
    revert plain. apply (obj_ind2 (fun plain => forall stored, Encrypted f plain stored -> decipher_all f stored = plain)).
    - intros []; try exact Logic.I; intros stored HE; inversion HE; subst; try reflexivity. cbn [decipher_all]. rewrite Hf. reflexivity.
    - intros l Hl stored HE. inversion HE as [|? l' HF| | | | | | |]; subst. cbn [decipher_all]. f_equal. clear HE.
      induction HF as [|x y l l' Hx HF IH]; [reflexivity|]. inversion Hl as [|? ? H1 H2]; subst. cbn [map]. rewrite (H1 _ Hx), (IH H2). reflexivity.
    - intros d Hd stored HE. inversion HE as [| |? d' HF| | | | | |]; subst. cbn [decipher_all]. f_equal. clear HE.
      induction HF as [|x y l l' Hx HF IH]; [reflexivity|]. inversion Hd as [|? ? H1 H2]; subst. cbn [map]. destruct Hx as [E1 E2]. rewrite (proj2 H1 _ E2), <- E1, (IH H2).
      destruct x; reflexivity.
    - intros d r _ stored HE. inversion HE.
  Qed.

  (* ---------- revision 5 (AES with 256-bit keys) ---------- *)
  Context (sha_len : forall d, length (sha256 d) = 32%nat) (aes_encrypt : list Z -> list Z -> list Z -> list Z)
    (aes_ok : forall k iv d, length k = 16%nat \/ length k = 32%nat -> length iv = 16%nat -> (length d mod 16 = 0)%nat -> aes k iv (aes_encrypt k iv d) = Ok d).
  Definition Supported5 (param : dict) (P : Z) (O U OE UE : list Z) : Prop :=
    (exists L, Common param 5 5 P L O U) /\ (exists meta name, Filters 5 param meta name) /\
    dget param "OE" = Some (OStr OE) /\ dget param "UE" = Some (OStr UE).
  Lemma open5_lemma param P O U OE UE docid pw : Supported5 param P O U OE UE ->
    exists h, open_with docid param pw = init_key h (authenticate5 sha256 aes h pw) /\ h_p h = P /\ h_o h = O /\ h_u h = U /\ h_oe h = OE /\ h_ue h = UE.
  Proof.
    intros ((L & HC) & (meta & name & HF) & HOE & HUE).
    destruct (v4_params_ok docid _ _ _ _ _ _ _ _ _ (or_intror eq_refl) HC HF) as (l & HP4).
    exists (mkH docid 5 5 P O U 256 meta ((bs "Identity", M_identity) :: l) name OE UE []). splits; try reflexivity.
    unfold Sec_Model.open_with. destruct HC as (HFi & HVv & _). rewrite HFi, HVv. cbn [ON].
    rewrite list_eqb_refl, iv_int. cbn [bind]. change ((5 =? 1) || (5 =? 2)) with false. change (5 =? 4) with false. change (5 =? 5) with true. cbv iota.
    unfold v5_params. rewrite HP4. cbn [bind]. unfold need. rewrite HOE, HUE. cbn [bind]. rewrite !sv_str. cbn [bind h_r]. reflexivity.
  Qed.
  Lemma parts (h v k : list Z) : length h = 32%nat -> length v = 8%nat ->
    firstn 32 (h ++ v ++ k) = h /\ firstn (40 - 32) (skipn 32 (h ++ v ++ k)) = v /\ skipn 40 (h ++ v ++ k) = k.
  Proof.
    intros Hh Hv. splits.
    - rewrite firstn_app, Hh, Nat.sub_diag, firstn_O, app_nil_r. apply firstn_all2. lia.
    - rewrite skipn_app, Hh, Nat.sub_diag, skipn_all2 by lia. cbn [skipn app]. change (40 - 32)%nat with 8%nat.
      rewrite firstn_app, Hv, Nat.sub_diag, firstn_O, app_nil_r. apply firstn_all2. lia.
    - rewrite skipn_app, Hh, skipn_all2 by lia. change (40 - 32)%nat with 8%nat. rewrite skipn_app, Hv, Nat.sub_diag, skipn_all2 by lia. reflexivity.
  Qed.
  (* C49, revision 5. The owner password (its first 127 bytes in UTF-8) opens the document with its key; *)
  Theorem C49_owner5_partial : forall param P O U OE UE docid owner user key pw text,
    Supported5 param P O U OE UE -> Protected5 sha256 aes_encrypt owner user O U OE UE key -> (length key mod 16 = 0)%nat ->
    enc_utf8 pw = Ok text -> owner = firstn 127 text ->
    exists h, open_with docid param pw = Ok h /\ h_key h = key /\ h_p h = P.
  Proof.
    intros param P O U OE UE docid owner user key pw text HS (uv & uk & ov & ok & L1 & L2 & L3 & L4 & HU & HUE & HO & HOE) Hk HT Hpw.
    destruct (open5_lemma _ _ _ _ _ _ docid pw HS) as (h & -> & HP & Ho & Hu & Hoe & Hue). unfold authenticate5. rewrite HT. cbn [bind]. rewrite <- Hpw, Ho, Hu, Hoe.
    destruct (parts (sha256 (owner ++ ov ++ U)) ov ok (sha_len _) L3) as (E1 & E2 & E3). rewrite <- HO in E1, E2, E3. rewrite E1, E2, E3, list_eqb_refl.
    rewrite HOE, aes_ok by (try apply repeat_length; auto using sha_len). cbn [bind init_key]. eexists. splits; [reflexivity..|exact HP].
  Qed.
  (* and the user password, if it does not pass itself for the owner password *)
  Theorem C49_user5_partial : forall param P O U OE UE docid owner user key pw text,
    Supported5 param P O U OE UE -> Protected5 sha256 aes_encrypt owner user O U OE UE key -> (length key mod 16 = 0)%nat ->
    enc_utf8 pw = Ok text -> user = firstn 127 text ->
    (forall ov, sha256 (user ++ ov ++ U) <> firstn 32 O) ->
    exists h, open_with docid param pw = Ok h /\ h_key h = key /\ h_p h = P.
  Proof.
    intros param P O U OE UE docid owner user key pw text HS (uv & uk & ov & ok & L1 & L2 & L3 & L4 & HU & HUE & HO & HOE) Hk HT Hpw HN.
    destruct (open5_lemma _ _ _ _ _ _ docid pw HS) as (h & -> & HP & Ho & Hu & Hoe & Hue). unfold authenticate5. rewrite HT. cbn [bind]. rewrite <- Hpw, Ho, Hu, Hue.
    match goal with |- context [list_eqb ?x (firstn 32 O)] => destruct (list_eqb x (firstn 32 O)) eqn:E end; [apply list_eqb_eq in E; exfalso; apply (HN _ E)|].
    destruct (parts (sha256 (user ++ uv)) uv uk (sha_len _) L1) as (E1 & E2 & E3). rewrite <- HU in E1, E2, E3. rewrite E1, E2, E3, list_eqb_refl.
    rewrite HUE, aes_ok by (try apply repeat_length; auto using sha_len). cbn [bind init_key]. eexists. splits; [reflexivity..|exact HP].
  Qed.
  (* another password: NameError *)
  Theorem C49_wrong5_refuted : forall param P O U OE UE docid pw text,
    Supported5 param P O U OE UE -> enc_utf8 pw = Ok text ->
    (forall salt, sha256 (firstn 127 text ++ salt ++ U) <> firstn 32 O) -> (forall salt, sha256 (firstn 127 text ++ salt) <> firstn 32 U) ->
    open_with docid param pw = Err NameError.
  Proof.
    intros param P O U OE UE docid pw text HS HT N1 N2.
    destruct (open5_lemma _ _ _ _ _ _ docid pw HS) as (h & -> & HP & Ho & Hu & Hoe & Hue). unfold authenticate5. rewrite HT. cbn [bind]. rewrite Ho, Hu.
    match goal with |- context [list_eqb ?x (firstn 32 O)] => destruct (list_eqb x (firstn 32 O)) eqn:E end; [apply list_eqb_eq in E; exfalso; apply (N1 _ E)|].
    match goal with |- context [list_eqb ?x (firstn 32 U)] => destruct (list_eqb x (firstn 32 U)) eqn:F end; [apply list_eqb_eq in F; exfalso; apply (N2 _ F)|].
    reflexivity.
  Qed.

  (* C48 with AES: what comes back is the text with the padding still at its end, so never the text that was encrypted *)
  Definition uses_aes (h : handler) (i g : Z) (k : list Z) : Prop :=
    h_v h = 4 /\ find_cfm (h_cfm h) (h_strf h) = Some M_aes128 /\ (7 <= length (h_key h))%nat /\ k = object_key md5 (h_key h) i g (bs "sAlT") \/
    h_v h = 5 /\ find_cfm (h_cfm h) (h_strf h) = Some M_aes256 /\ length (h_key h) = 32%nat /\ k = h_key h.
  Lemma padded_blocks plain : (length (aes_padded plain) mod 16 = 0)%nat.
  Proof.
    unfold aes_padded. rewrite app_length, repeat_length. pose proof (Nat.div_mod (length plain) 16 ltac:(lia)) as E. pose proof (Nat.mod_upper_bound (length plain) 16 ltac:(lia)).
    replace (length plain + (16 - length plain mod 16))%nat with ((length plain / 16 + 1) * 16)%nat by lia. apply Nat.mod_mul. lia.
  Qed.
  Lemma padded_not plain : aes_padded plain <> plain.
  Proof.
    intros E. apply (f_equal (@length Z)) in E. unfold aes_padded in E. rewrite app_length, repeat_length in E. pose proof (Nat.mod_upper_bound (length plain) 16 ltac:(lia)). lia.
  Qed.
  Theorem C48_aes_refuted : forall h i g k ivec plain attrs, uses_aes h i g k -> length ivec = 16%nat -> 0 <= i < 4294967296 -> 0 <= g < 4294967296 ->
    (h_meta h = true \/ attrs = None) ->
    decrypt md5 aes h i g (ivec ++ aes_encrypt k ivec (aes_padded plain)) attrs = Ok (aes_padded plain) /\ aes_padded plain <> plain.
  Proof.
    intros h i g k ivec plain attrs HU Hv Hi Hg HM. split; [|apply padded_not].
    assert (F : firstn 16 (ivec ++ aes_encrypt k ivec (aes_padded plain)) = ivec) by (rewrite firstn_app, Hv, Nat.sub_diag, firstn_O, app_nil_r; apply firstn_all2; lia).
    assert (K : skipn 16 (ivec ++ aes_encrypt k ivec (aes_padded plain)) = aes_encrypt k ivec (aes_padded plain)) by (rewrite skipn_app, Hv, Nat.sub_diag, skipn_all2 by lia; reflexivity).
    unfold decrypt. assert (M : negb (h_meta h) && match attrs with Some a => match dget a "Type" with Some (OName n) => list_eqb n (bs "Metadata") | _ => false end | None => false end = false)
      by (destruct HM as [ -> | -> ]; [reflexivity|apply andb_false_r]). rewrite M.
    destruct HU as [(HV & HF & HK & Ek)|(HV & HF & HK & Ek)]; rewrite HV, HF; cbn [run_method Z.eqb orb Pos.eqb]; unfold decrypt_aes128, decrypt_aes256; rewrite F, K.
    - change [115; 65; 108; 84] with (bs "sAlT"). rewrite object_key_ok by assumption. cbn [bind]. rewrite <- Ek. apply aes_ok; [|exact Hv|apply padded_blocks].
      left. rewrite Ek. unfold object_key. rewrite firstn_length, md5_len. cbn [bs length]. change (length (bs "sAlT")) with 4%nat. lia.
    - rewrite <- Ek. apply aes_ok; [|exact Hv|apply padded_blocks]. right. rewrite Ek. exact HK.
  Qed.
End open.
