(* Documents that meet the hypotheses of C48 and C49, with short functions in the place of MD5, SHA-256 and AES. *)
From Coq Require Import String.
From Verif Require Import Base Lex_Model Obj Stream_Model Stream_Spec Stream_Props Page_Model RC4 Sec_Model Sec_Spec Sec_Props.
From Coq Require Import ZifyBool ZifyNat.
Open Scope Z_scope.

Definition toy (n : nat) (d : list Z) : list Z := map (fun i => fold_left (fun a c => (a * a + 3 * c + 17 * Z.of_nat i + 1) mod 65521) d (7 + Z.of_nat i) mod 256) (seq 0 n).
Lemma toy_len n d : length (toy n d) = n. Proof. unfold toy. rewrite map_length. apply seq_length. Qed.
Definition none : Z -> option obj := fun _ => None.
Definition noaes : list Z -> list Z -> list Z -> res (list Z) := fun _ _ _ => Err ValueError.
Definition w_id := [1; 2; 3; 4].
Definition w_O R n := O_entry (toy 16) R n (bs "owner") (bs "user").
Definition w_key R n meta := document_key (toy 16) R n (w_O R n) (-44) w_id meta (bs "user").
Definition w_U R n meta := U_entry (toy 16) R w_id (w_key R n meta) ++ (if 3 <=? R then repeat 0 16 else []).
(* V 2, revision 3, keys of 128 bits *)
Definition w_param : dict := [(ON "Filter", ON "Standard"); (ON "V", OInt 2); (ON "R", OInt 3); (ON "Length", OInt 128); (ON "P", OInt (-44));
  (ON "O", OStr (w_O 3 16)); (ON "U", OStr (w_U 3 16 false))].
Example w_supported : Supported w_param 2 3 (-44) 16 false (w_O 3 16) (w_U 3 16 false).
Proof. apply (Sup_old _ 2 3 (-44) 128); [|right; reflexivity|right; splits; try reflexivity; lia]. unfold Common. splits; try reflexivity. left. reflexivity. Qed.
Example w_protected : Protected (toy 16) 3 16 (-44) w_id false (bs "owner") (bs "user") (w_O 3 16) (w_U 3 16 false) (w_key 3 16 false).
Proof. unfold Protected. splits; [reflexivity|reflexivity|]. exists (repeat 0 16). reflexivity. Qed.
Lemma front key U : U_matches (toy 16) 3 w_id key U -> firstn 16 U = U_entry (toy 16) 3 w_id key.
Proof.
  intros (rest & ->). pose proof (U_len (toy 16) (toy_len 16) 3 w_id key) as HU. change (3 <=? 3) with true in HU. cbv iota in HU.
  rewrite firstn_app, HU, Nat.sub_diag, firstn_O, app_nil_r. apply firstn_all2. rewrite HU. lia.
Qed.
Example C49_witness :
  (exists h, open_with (toy 16) (toy 32) noaes none 5 [OStr w_id; OStr []] w_param (bs "user") = Ok h /\ h_key h = w_key 3 16 false) /\
  (exists h, open_with (toy 16) (toy 32) noaes none 5 [OStr w_id; OStr []] w_param (bs "owner") = Ok h /\ h_key h = w_key 3 16 false) /\
  open_with (toy 16) (toy 32) noaes none 5 [OStr w_id; OStr []] w_param (bs "other") = Err NameError.
Proof.
  assert (HL : forall s, forallb (fun c => (0 <=? c) && (c <? 256)) (bs s) = true -> latin1_password (bs s)).
  { intros s H. apply Forall_forall. intros c Hc. pose proof (proj1 (forallb_forall _ _) H c Hc). lia. }
  assert (N : forall q, list_eqb (firstn 16 (w_U 3 16 false)) (U_entry (toy 16) 3 w_id (document_key (toy 16) 3 16 (w_O 3 16) (-44) w_id false q)) = false ->
              ~ U_matches (toy 16) 3 w_id (document_key (toy 16) 3 16 (w_O 3 16) (-44) w_id false q) (w_U 3 16 false)).
  { intros q Hq HM. apply front in HM. rewrite HM, list_eqb_refl in Hq. exact (Bool.diff_true_false Hq). }
  split; [|split].
  - destruct (C49_user_partial (toy 16) (toy 32) (toy_len 16) noaes none 5 ltac:(lia) _ _ _ _ _ _ _ _ w_id [OStr w_id; OStr []] _ _ _ w_supported w_protected ltac:(lia) eq_refl (HL "user"%string eq_refl)) as (h & E & K & _).
    exists h. split; assumption.
  - edestruct (C49_owner_partial (toy 16) (toy 32) (toy_len 16) noaes none 5 ltac:(lia) _ _ _ _ _ _ _ _ w_id [OStr w_id; OStr []] _ _ _ w_supported w_protected ltac:(lia) eq_refl (HL "owner"%string eq_refl)) as (h & E & K & _).
    + apply N. vm_compute. reflexivity.
    + exists h. split; assumption.
  - apply (C49_wrong_refuted (toy 16) (toy 32) (toy_len 16) noaes none 5 ltac:(lia) _ _ _ _ _ _ _ _ w_id [OStr w_id; OStr []] _ w_supported ltac:(lia) eq_refl (HL "other"%string eq_refl)); apply N; vm_compute; reflexivity.
Qed.
(* V 4 with a crypt filter, metadata not encrypted *)
Definition w_param4 : dict := [(ON "Filter", ON "Standard"); (ON "V", OInt 4); (ON "R", OInt 4); (ON "Length", OInt 128); (ON "P", OInt (-44));
  (ON "O", OStr (w_O 4 16)); (ON "U", OStr (w_U 4 16 false)); (ON "StmF", ON "StdCF"); (ON "StrF", ON "StdCF"); (ON "EncryptMetadata", OBool false);
  (ON "CF", ODict [(ON "StdCF", ODict [(ON "CFM", ON "AESV2"); (ON "Length", OInt 16)])])].
Example w_supported4 : Supported w_param4 4 4 (-44) 16 false (w_O 4 16) (w_U 4 16 false).
Proof.
  apply (Sup_v4 _ (-44) 128 _ _ false (bs "StdCF")); [unfold Common; splits; try reflexivity; left; reflexivity|].
  eexists. splits; [reflexivity| |reflexivity|reflexivity| |left; reflexivity].
  - apply Forall_cons; [|apply Forall_nil]. exists (bs "StdCF"). eexists. exists (bs "AESV2"). splits; [reflexivity|reflexivity|]. right. left. reflexivity.
  - right. eexists. left. reflexivity.
Qed.
Example C49_witness4 : exists h, open_with (toy 16) (toy 32) noaes none 5 [OStr w_id; OStr []] w_param4 (bs "owner") = Ok h /\ h_key h = w_key 4 16 false /\ find_cfm (h_cfm h) (h_strf h) = Some M_aes128.
Proof. eexists. split; [vm_compute; reflexivity|]. split; vm_compute; reflexivity. Qed.

(* V 5 *)
Definition taes (k iv d : list Z) : list Z := map (fun c => Z.lxor (Z.lxor c (hd 0 k)) (hd 0 iv)) d.
Definition taes_d (k iv d : list Z) : res (list Z) := Ok (taes k iv d).
Lemma taes_ok k iv d : length k = 16%nat \/ length k = 32%nat -> length iv = 16%nat -> (length d mod 16 = 0)%nat -> taes_d k iv (taes k iv d) = Ok d.
Proof.
  intros _ _ _. unfold taes_d, taes. rewrite map_map. f_equal. rewrite <- (map_id d) at 2. apply map_ext. intros c.
  rewrite !Z.lxor_assoc, (Z.lxor_comm (hd 0 iv)), !Z.lxor_assoc, Z.lxor_nilpotent, Z.lxor_0_r, Z.lxor_nilpotent. apply Z.lxor_0_r.
Qed.
Definition x_key := repeat 77 32.
Definition x_us := [1; 2; 3; 4; 5; 6; 7; 8].
Definition x_U := toy 32 (bs "user" ++ x_us) ++ x_us ++ rev x_us.
Definition x_UE := taes (toy 32 (bs "user" ++ rev x_us)) (repeat 0 16) x_key.
Definition x_O := toy 32 (bs "owner" ++ x_us ++ x_U) ++ x_us ++ rev x_us.
Definition x_OE := taes (toy 32 (bs "owner" ++ rev x_us ++ x_U)) (repeat 0 16) x_key.
Definition x_param : dict := [(ON "Filter", ON "Standard"); (ON "V", OInt 5); (ON "R", OInt 5); (ON "Length", OInt 256); (ON "P", OInt (-44));
  (ON "O", OStr x_O); (ON "U", OStr x_U); (ON "OE", OStr x_OE); (ON "UE", OStr x_UE); (ON "StmF", ON "StdCF"); (ON "StrF", ON "StdCF");
  (ON "CF", ODict [(ON "StdCF", ODict [(ON "CFM", ON "AESV3")])])].
Example x_supported : Supported5 x_param (-44) x_O x_U x_OE x_UE.
Proof.
  unfold Supported5. splits; [exists 256; unfold Common; splits; try reflexivity; left; reflexivity| |reflexivity|reflexivity].
  exists true, (bs "StdCF"). eexists. splits; [reflexivity| |reflexivity|reflexivity| |right; split; reflexivity].
  - apply Forall_cons; [|apply Forall_nil]. exists (bs "StdCF"). eexists. exists (bs "AESV3"). splits; [reflexivity|reflexivity|]. left. reflexivity.
  - right. eexists. left. reflexivity.
Qed.
Example x_protected : Protected5 (toy 32) taes (bs "owner") (bs "user") x_O x_U x_OE x_UE x_key.
Proof. exists x_us, (rev x_us), x_us, (rev x_us). splits; reflexivity. Qed.
Example C49_witness5 :
  (exists h, open_with (toy 16) (toy 32) taes_d none 5 [] x_param (bs "owner") = Ok h /\ h_key h = x_key) /\
  (exists h, open_with (toy 16) (toy 32) taes_d none 5 [] x_param (bs "user") = Ok h /\ h_key h = x_key) /\
  open_with (toy 16) (toy 32) taes_d none 5 [] x_param (bs "other") = Err NameError.
Proof.
  split; [|split].
  - destruct (C49_owner5_partial (toy 16) (toy 32) (toy_len 16) taes_d none 5 ltac:(lia) (toy_len 32) taes taes_ok _ _ _ _ _ _ [] _ _ _ (bs "owner") (bs "owner") x_supported x_protected eq_refl eq_refl eq_refl) as (h & A & B & _).
    exists h. split; assumption.
  - eexists. split; [vm_compute; reflexivity|]. reflexivity.
  - vm_compute. reflexivity.
Qed.
(* C48: a string of an object of that document *)
Example C48_witness : exists h, open_with (toy 16) (toy 32) noaes none 5 [OStr w_id; OStr []] w_param (bs "user") = Ok h /\ uses_rc4 h /\
  decrypt (toy 16) noaes h 12 0 (rc4 (object_key (toy 16) (w_key 3 16 false) 12 0 []) (bs "Title")) None = Ok (bs "Title") /\
  rc4 (object_key (toy 16) (w_key 3 16 false) 12 0 []) (bs "Title") <> bs "Title".
Proof. eexists. split; [vm_compute; reflexivity|]. split; [left; split; discriminate|split; [vm_compute; reflexivity|vm_compute; discriminate]]. Qed.
Example C48_witness_aes : exists h, open_with (toy 16) (toy 32) taes_d none 5 [] x_param (bs "user") = Ok h /\ uses_aes (toy 16) h 12 0 x_key /\
  decrypt (toy 16) taes_d h 12 0 (repeat 9 16 ++ taes x_key (repeat 9 16) (aes_padded (bs "Title"))) None = Ok (bs "Title" ++ repeat 11 11).
Proof. eexists. split; [vm_compute; reflexivity|]. split; [right; split; [|split; [|split]]; vm_compute; reflexivity|vm_compute; reflexivity]. Qed.
