(* Properties C04, C05: the LZW filter. *)
From Coq Require Import String.
From Verif Require Import Base LZW_Model LZW_Spec LZW_Proofs.

(* C04. Decoding what the standard (greedy) encoder writes for s gives s, for every s and every policy for
   clearing the table that keeps codes within 12 bits. *)
Theorem C04_lzw_roundtrip : forall full s,
  clears_in_time full -> bytes s -> lzwdecode (lzw_encode full s) = Ok s.
Proof. exact lzw_roundtrip_lemma. Qed.
Print Assumptions C04_lzw_roundtrip.

(* C04. More generally for every encoder, greedy or not, that writes dictionary codes after an initial Clear. *)
Theorem C04_lzw_any_encoder : forall s cs,
  bytes s -> LzwSeq [] None s cs -> lzwdecode (pack (write_codes 0 (256 :: cs))) = Ok s.
Proof. exact lzwdecode_seq_lemma. Qed.
Print Assumptions C04_lzw_any_encoder.

(* hypotheses are met; the code bytes are those of the example in the PDF reference, with the KwKwK case *)
Example C04_example :
  clears_in_time (fun m => Nat.ltb 3836 m) /\
  lzw_encode (fun m => Nat.ltb 3836 m) (bs "-----A---B") = [128; 11; 96; 80; 34; 12; 12; 133; 1] /\
  lzwdecode [128; 11; 96; 80; 34; 12; 12; 133; 1] = Ok (bs "-----A---B").
Proof.
  split; [|vm_compute; split; reflexivity].
  intros m Hm. apply Nat.ltb_lt. lia.
Qed.

(* a case that widens the codes and clears the table repeatedly *)
Example C04_example_long :
  let s := flat_map (fun n => [Z.of_nat n mod 7; (Z.of_nat n * Z.of_nat n / 5) mod 11]) (seq 0 400) in
  lzwdecode (lzw_encode (fun m => Nat.ltb 300 m) s) = Ok s.
Proof. vm_compute. reflexivity. Qed.

(* C05. More data never changes what was already decoded. *)
Theorem C05_lzw_prefix_partial : forall data tail o1 o2,
  lzwdecode data = Ok o1 -> lzwdecode (data ++ tail) = Ok o2 -> exists c, o2 = o1 ++ c.
Proof. exact lzwdecode_prefix_lemma. Qed.
Print Assumptions C05_lzw_prefix_partial.

(* C05. On arbitrary data the decoder always ends, and the only exceptions that escape are TypeError and
   IndexError (raised when the data does not start with Clear, or uses a code above 257 right after one);
   a code beyond the table is not one of them. *)
Theorem C05_lzw_errors : forall data e,
  bytes data -> lzwdecode data = Err e -> e = TypeError \/ e = IndexError.
Proof. exact lzwdecode_errors_lemma. Qed.
Print Assumptions C05_lzw_errors.

Example C05_example :
  lzwdecode [128; 11; 96; 80; 34; 12] = Ok (bs "-----A") /\
  (* a code beyond the table (511 after "-") ends the output *)
  lzwdecode (pack (write_codes 0 [256; 45; 511; 45])) = Ok (bs "-") /\
  lzwdecode [0; 0] = Err TypeError /\ lzwdecode (pack (write_codes 0 [256; 300])) = Err IndexError.
Proof. vm_compute. repeat split; reflexivity. Qed.

(* C05 limit: EOD does not stop the decoder; two bytes after the encoded data add output. *)
Theorem C05_lzw_after_eod_refuted : exists s tail,
  bytes s /\ bytes tail /\
  lzwdecode (lzw_encode (fun m => Nat.ltb 3836 m) s ++ tail) <> Ok s.
Proof.
  exists (bs "ab"), [13; 10].
  split; [vm_compute; repeat (constructor; [split; [discriminate|reflexivity]|]); constructor|].
  split; [vm_compute; repeat (constructor; [split; [discriminate|reflexivity]|]); constructor|].
  vm_compute. discriminate.
Qed.
Print Assumptions C05_lzw_after_eod_refuted.
