(* How a document is protected with the standard security handler: ISO 32000-1, 7.6.2 (algorithm 1) and 7.6.3 (algorithms 2 to 5),
   and Adobe Supplement to ISO 32000, ExtensionLevel 3 (revision 5).  Written from the standard, independent of the code. *)
From Coq Require Import String.
From Verif Require Import Base Obj RC4.
Open Scope Z_scope.

Definition PAD : list Z :=
  [0x28; 0xBF; 0x4E; 0x5E; 0x4E; 0x75; 0x8A; 0x41; 0x64; 0x00; 0x4E; 0x56; 0xFF; 0xFA; 0x01; 0x08;
   0x2E; 0x2E; 0x00; 0xB6; 0xD0; 0x68; 0x3E; 0x80; 0x2F; 0x0C; 0xA9; 0xFE; 0x64; 0x53; 0x69; 0x7A].
Definition pad (password : list Z) : list Z := firstn 32 (password ++ PAD).
(* the n low-order bytes, low-order byte first *)
Definition low_bytes (n : nat) (v : Z) : list Z := map (fun i => Z.land (Z.shiftr v (8 * Z.of_nat i)) 255) (seq 0 n).
Definition xored (key : list Z) (i : Z) : list Z := map (fun c => Z.lxor c i) key.
Definition one_to_19 : list Z := map Z.of_nat (seq 1 19).

Section spec.
  Context (md5 : list Z -> list Z).
  (* algorithm 2: the key of the document, n bytes long; R is the revision *)
  Definition document_key (R : Z) (n : nat) (O : list Z) (P : Z) (id : list Z) (metadata_encrypted : bool) (user : list Z) : list Z :=
    let start := md5 (pad user ++ O ++ low_bytes 4 P ++ id ++
                      (if (4 <=? R) && negb metadata_encrypted then [0xFF; 0xFF; 0xFF; 0xFF] else [])) in
    firstn n (if 3 <=? R then Nat.iter 50 (fun h => md5 (firstn n h)) start else start).
  (* algorithm 3: the entry O *)
  Definition owner_key (R : Z) (n : nat) (owner : list Z) : list Z :=
    firstn n (if 3 <=? R then Nat.iter 50 md5 (md5 (pad owner)) else md5 (pad owner)).
  Definition O_entry (R : Z) (n : nat) (owner user : list Z) : list Z :=
    let k := owner_key R n owner in
    let x := rc4 k (pad user) in
    if 3 <=? R then fold_left (fun d i => rc4 (xored k i) d) one_to_19 x else x.
  (* algorithms 4 and 5: the entry U; from revision 3 on its first 16 bytes, 16 arbitrary ones follow *)
  Definition U_entry (R : Z) (id key : list Z) : list Z :=
    if 3 <=? R then fold_left (fun d i => rc4 (xored key i) d) one_to_19 (rc4 key (md5 (PAD ++ id))) else rc4 key PAD.
  Definition U_matches (R : Z) (id key U : list Z) : Prop :=
    if 3 <=? R then exists rest, U = U_entry R id key ++ rest else U = U_entry R id key.
  (* algorithm 1: the key of one object *)
  Definition object_key (key : list Z) (objid genno : Z) (salt : list Z) : list Z :=
    firstn (min (length key + 5 + length salt) 16) (md5 (key ++ low_bytes 3 objid ++ low_bytes 2 genno ++ salt)).
End spec.
(* a document protected with the passwords owner and user: its entries O and U, and its key *)
Definition Protected (md5 : list Z -> list Z) (R : Z) (n : nat) (P : Z) (id : list Z) (meta : bool) (owner user O U key : list Z) : Prop :=
  O = O_entry md5 R n owner user /\ key = document_key md5 R n O P id meta user /\ U_matches md5 R id key U.

(* an object all of whose strings, at any depth of arrays and dictionaries, are stored encrypted by e; names, numbers and
   the keys of dictionaries are not encrypted *)
Inductive Encrypted (e : list Z -> list Z) : obj -> obj -> Prop :=
| Enc_string : forall s, Encrypted e (OStr s) (OStr (e s))
| Enc_array : forall l l', Forall2 (Encrypted e) l l' -> Encrypted e (OArr l) (OArr l')
| Enc_dict : forall d d', Forall2 (fun a b => fst a = fst b /\ Encrypted e (snd a) (snd b)) d d' -> Encrypted e (ODict d) (ODict d')
| Enc_null : Encrypted e ONull ONull
| Enc_bool : forall b, Encrypted e (OBool b) (OBool b)
| Enc_int : forall z, Encrypted e (OInt z) (OInt z)
| Enc_real : forall t, Encrypted e (OReal t) (OReal t)
| Enc_name : forall n, Encrypted e (OName n) (OName n)
| Enc_ref : forall r, Encrypted e (ORef r) (ORef r).

(* Adobe Supplement to ISO 32000, ExtensionLevel 3, algorithms 3.8 and 3.9: U is the hash of the password and an 8-byte
   validation salt, then that salt, then an 8-byte key salt; UE is the key of the document encrypted under the hash of
   the password and the key salt (AES in CBC mode, zero initialisation vector, no padding); O and OE also hash U *)
Definition Protected5 (sha256 : list Z -> list Z) (aes_encrypt : list Z -> list Z -> list Z -> list Z)
    (owner user O U OE UE key : list Z) : Prop :=
  exists uv uk ov ok, length uv = 8%nat /\ length uk = 8%nat /\ length ov = 8%nat /\ length ok = 8%nat /\
    U = sha256 (user ++ uv) ++ uv ++ uk /\ UE = aes_encrypt (sha256 (user ++ uk)) (repeat 0 16) key /\
    O = sha256 (owner ++ ov ++ U) ++ ov ++ ok /\ OE = aes_encrypt (sha256 (owner ++ ok ++ U)) (repeat 0 16) key.
(* 7.6.2: text encrypted with AES is preceded by the initialisation vector and padded to blocks with bytes that each
   give the length of the padding *)
Definition aes_padded (plain : list Z) : list Z := let k := (16 - length plain mod 16)%nat in plain ++ repeat (Z.of_nat k) k.
