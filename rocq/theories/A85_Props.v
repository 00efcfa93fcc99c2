(* Properties C01, C02, C03: the ASCII85, ASCIIHex and RunLength filters. *)
From Verif Require Import Base A85_Model A85_Spec A85_Proofs.
From Coq Require Import String.

(* C01. Decoding any ASCII85 encoding of s gives s back, whatever ignorable characters are interspersed
   and whatever follows the terminator '~'. *)
Theorem C01_ascii85_roundtrip : forall s e e' tail,
  bytes s -> A85 s e -> spread a85_ignorable e e' ->
  ascii85decode (e' ++ 126 :: tail) = Ok s.
Proof. exact ascii85_roundtrip_lemma. Qed.
Print Assumptions C01_ascii85_roundtrip.

(* every byte string has such an encoding *)
Theorem C01_ascii85_encodable : forall s, bytes s -> A85 s (a85_encode s).
Proof. exact a85_encode_A85. Qed.
Print Assumptions C01_ascii85_encodable.

Example C01_example :
  let s := [77; 97; 110; 32; 0; 0; 0; 0; 115; 117; 114] in
  ascii85decode (a85_encode s ++ bs "~>"%string) = Ok s /\ a85_encode s = bs "9jqo^zF*2L"%string.
Proof. vm_compute. split; reflexivity. Qed.

(* C02 (part). With the two digits of each byte adjacent, any white space elsewhere, either case, an optional
   odd last digit, and a tail of '>' and white space, the decoder returns the bytes.  Missing from the full
   property: white space between the two digits of a byte, and data after '>' (both refuted below). *)
Theorem C02_asciihex_even_partial : forall s e t,
  HexPairText s e -> Forall (fun c => white c \/ c = 62) t -> asciihexdecode (e ++ t) = s.
Proof. exact asciihex_even_lemma. Qed.
Print Assumptions C02_asciihex_even_partial.

Theorem C02_asciihex_odd_partial : forall s e c v t,
  HexPairText s e -> HexDigit c v -> Forall (fun c => white c \/ c = 62) t ->
  asciihexdecode (e ++ c :: t) = s ++ [16 * v].
Proof. exact asciihex_odd_lemma. Qed.
Print Assumptions C02_asciihex_odd_partial.

Example C02_example : asciihexdecode (bs "61 62 2e6364   657>"%string) = bs "ab.cdep"%string.
Proof. reflexivity. Qed.

(* C02 refuted in general: white space may separate the two digits of a byte *)
Theorem C02_asciihex_split_refuted : exists s e,
  bytes s /\ HexText (nibbles s) e /\ asciihexdecode (e ++ [62]) <> s.
Proof.
  exists [97], (bs "6 1"%string). split; [repeat constructor; unfold is_byte; lia|]. split.
  - vm_compute nibbles. vm_compute bs.
    apply (HT_digit 54 6); [apply (HD_num 6); lia|]. apply HT_ws; [left; reflexivity|].
    apply (HT_digit 49 1); [apply (HD_num 1); lia|]. constructor.
  - vm_compute. discriminate.
Qed.
Print Assumptions C02_asciihex_split_refuted.

(* C02 refuted: '>' does not end the data *)
Theorem C02_asciihex_eod_refuted : exists s e tail,
  HexPairText s e /\ asciihexdecode (e ++ 62 :: tail) <> s.
Proof.
  exists [97], (bs "61"%string), (bs "62"%string). split.
  - apply (HP_byte 54 49 6 1 [] []); [apply (HD_num 6); lia|apply (HD_num 1); lia|constructor].
  - vm_compute. discriminate.
Qed.
Print Assumptions C02_asciihex_eod_refuted.

(* C03. Any sequence of runs decodes to its meaning, with or without the end marker 128, and what follows
   the marker is ignored. *)
Theorem C03_runlength_roundtrip : forall rs tail, Forall run_ok rs ->
  rldecode (flat_map run_write rs) = Ok (flat_map run_mean rs) /\
  rldecode (flat_map run_write rs ++ 128 :: tail) = Ok (flat_map run_mean rs).
Proof. exact rldecode_runs_lemma. Qed.
Print Assumptions C03_runlength_roundtrip.

(* C03. Conversely, data that decodes is a sequence of runs, so nothing else is silently accepted. *)
Theorem C03_runlength_only_runs : forall data out, bytes data -> rldecode data = Ok out ->
  exists rs tail, Forall run_ok rs /\ out = flat_map run_mean rs /\
    (data = flat_map run_write rs \/ data = flat_map run_write rs ++ 128 :: tail).
Proof. exact rldecode_shape_lemma. Qed.
Print Assumptions C03_runlength_only_runs.

(* C03. A record cut short is reported with IndexError, the only error the decoder raises. *)
Theorem C03_runlength_truncated : forall rs r p q, Forall run_ok rs -> run_ok r ->
  run_write r = p ++ q -> p <> [] -> q <> [] ->
  rldecode (flat_map run_write rs ++ p) = Err IndexError.
Proof. exact rldecode_truncated_lemma. Qed.
Print Assumptions C03_runlength_truncated.

Theorem C03_runlength_only_error : forall data e, bytes data -> rldecode data = Err e -> e = IndexError.
Proof. exact rldecode_err_lemma. Qed.
Print Assumptions C03_runlength_only_error.

Example C03_example : Forall run_ok [Literal [1;2;3]; Repeat 5 7] /\
  rldecode (flat_map run_write [Literal [1;2;3]; Repeat 5 7] ++ [128; 9]) = Ok [1;2;3;7;7;7;7;7] /\
  rldecode [2; 1; 2] = Err IndexError.
Proof. split; [repeat constructor; cbn; lia|]. split; reflexivity. Qed.
