(* Model of pdfmajor/parser/PDFDocument/PDFSecurityHandler.py and of PDFDocument._initialize_password (__init__.py:110-126).
   MD5, SHA-256 and AES in CBC mode (hashlib, PyCryptodome) are parameters; RC4 is RC4.v.  PDFEncryptionError and
   PDFPasswordIncorrect are used but not imported in these files: raising them raises NameError. *)
From Coq Require Import String.
From Verif Require Import Base Lex_Model Obj Stream_Model Stream_Spec Page_Model RC4.
From Coq Require Import ZifyBool ZifyNat.
Open Scope Z_scope.

(* struct.pack('<L', n) and struct.pack('<l', n) *)
Fixpoint le_bytes (n : nat) (v : Z) : list Z := match n with O => [] | S k => v mod 256 :: le_bytes k (v / 256) end.
Definition pack_L (v : Z) : res (list Z) := if (0 <=? v) && (v <? 4294967296) then Ok (le_bytes 4 v) else Err StructError.
Definition pack_l (v : Z) : res (list Z) := if (-2147483648 <=? v) && (v <? 2147483648) then Ok (le_bytes 4 v) else Err StructError.
(* ARC4.new(key): the key must have 5 to 256 bytes *)
Definition arc4 (key data : list Z) : res (list Z) :=
  if ((5 <=? length key) && (length key <=? 256))%nat then Ok (rc4 key data) else Err ValueError.
(* 16-17 PASSWORD_PADDING *)
Definition PADDING : list Z :=
  [40; 191; 78; 94; 78; 117; 138; 65; 100; 0; 78; 86; 255; 250; 1; 8; 46; 46; 0; 182; 208; 104; 62; 128; 47; 12; 169; 254; 100; 83; 105; 122].
(* b''.join(int2byte(c ^ i) for c in iter(key)) *)
Definition xor_key (key : list Z) (i : Z) : list Z := map (fun c => Z.lxor c i) key.
(* for i in range(a, b) / range(b-1, a-1, -1), as lists of i *)
Definition up (a n : nat) : list Z := map Z.of_nat (seq a n).
Fixpoint rc4_rounds (key : list Z) (is : list Z) (data : list Z) : res (list Z) :=
  match is with [] => Ok data | i :: r => do d <- arc4 (xor_key key i) data; rc4_rounds key r d end.
Fixpoint iter_md5 (md5 : list Z -> list Z) (k : nat) (f : list Z -> list Z) (d : list Z) : list Z :=
  match k with O => d | S k' => iter_md5 md5 k' f (md5 (f d)) end.
(* result[:n] of Python, n possibly negative *)
Definition slice_to (n : Z) (d : list Z) : list Z := if 0 <=? n then firstn (Z.to_nat n) d else firstn (length d - Z.to_nat (- n)) d.

(* str.encode('latin1') and str.encode('utf-8') of a string given by its code points *)
Definition enc_latin1 (s : list Z) : res (list Z) := if forallb (fun c => c <? 256) s then Ok s else Err UnicodeError.
Definition utf8_char (c : Z) : res (list Z) :=
  if c <? 128 then Ok [c]
  else if c <? 2048 then Ok [192 + c / 64; 128 + c mod 64]
  else if (55296 <=? c) && (c <? 57344) then Err UnicodeError
  else if c <? 65536 then Ok [224 + c / 4096; 128 + c / 64 mod 64; 128 + c mod 64]
  else Ok [240 + c / 262144; 128 + c / 4096 mod 64; 128 + c / 64 mod 64; 128 + c mod 64].
Fixpoint enc_utf8 (s : list Z) : res (list Z) :=
  match s with [] => Ok [] | c :: r => do a <- utf8_char c; do b <- enc_utf8 r; Ok (a ++ b) end.

Section handlers.
  Context (md5 sha256 : list Z -> list Z).
  Context (aes : list Z -> list Z -> list Z -> res (list Z)).   (* AES.new(key, MODE_CBC, IV=iv).decrypt(data); raises ValueError *)
  Context (getobj : Z -> option obj) (depth : nat).

  Inductive method := M_identity | M_rc4 | M_aes128 | M_aes256.
  (* attributes of the handler object *)
  Record handler := mkH {
    h_docid : list obj; h_v : Z; h_r : Z; h_p : Z; h_o : list Z; h_u : list Z; h_length : Z;
    h_meta : bool;                                   (* encrypt_metadata *)
    h_cfm : list (list Z * method); h_strf : list Z; (* crypt filters (V4, V5) *)
    h_oe : list Z; h_ue : list Z;                    (* V5 *)
    h_key : list Z }.

  (* self.docid[0]: bytes for hash.update *)
  Definition doc_id (h : handler) : res (list Z) :=
    match h_docid h with [] => Err IndexError | OStr s :: _ => Ok s | _ => Err TypeError end.
  (* 55-70 compute_u *)
  Definition compute_u (h : handler) (key : list Z) : res (list Z) :=
    if h_r h =? 2 then arc4 key PADDING
    else do id <- doc_id h;
         do d0 <- arc4 key (md5 (PADDING ++ id));
         do d <- rc4_rounds key (up 1 19) d0;
         Ok (d ++ d).
  (* 72-88 compute_encryption_key *)
  Definition compute_key (h : handler) (password : list Z) : res (list Z) :=
    do p <- pack_l (h_p h);
    do id <- doc_id h;
    let r0 := md5 (firstn 32 (password ++ PADDING) ++ h_o h ++ p ++ id ++ (if (4 <=? h_r h) && negb (h_meta h) then [255; 255; 255; 255] else [])) in
    if 3 <=? h_r h then
      let n := h_length h / 8 in
      Ok (slice_to n (iter_md5 md5 50 (slice_to n) r0))
    else Ok (slice_to 5 r0).
  (* 104-109 verify_encryption_key *)
  Definition verify (h : handler) (key : list Z) : res bool :=
    do u <- compute_u h key;
    Ok (if h_r h =? 2 then list_eqb u (h_u h) else list_eqb (firstn 16 u) (firstn 16 (h_u h))).
  (* 97-102 authenticate_user_password *)
  Definition auth_user (h : handler) (password : list Z) : res (option (list Z)) :=
    do key <- compute_key h password; do b <- verify h key; Ok (if b : bool then Some key else None).
  (* 111-129 authenticate_owner_password *)
  Definition auth_owner (h : handler) (password : list Z) : res (option (list Z)) :=
    let h0 := md5 (firstn 32 (password ++ PADDING)) in
    let h1 := if 3 <=? h_r h then iter_md5 md5 50 (fun x => x) h0 else h0 in
    let key := slice_to (if 3 <=? h_r h then h_length h / 8 else 5) h1 in
    do up <- (if h_r h =? 2 then arc4 key (h_o h) else rc4_rounds key (rev (up 0 20)) (h_o h));
    auth_user h up.
  (* 90-95 authenticate *)
  Definition authenticate (h : handler) (password : list Z) : res (option (list Z)) :=
    do pw <- enc_latin1 password;
    do k <- auth_user h pw;
    match k with Some _ => Ok k | None => auth_owner h pw end.
  (* 205-224 PDFStandardSecurityHandlerV5.authenticate *)
  Definition authenticate5 (h : handler) (password : list Z) : res (option (list Z)) :=
    do pw0 <- enc_utf8 password;
    let pw := firstn 127 pw0 in
    let part a b l := firstn (b - a) (skipn a l) in
    if list_eqb (sha256 (pw ++ part 32 40 (h_o h) ++ h_u h)%nat) (firstn 32 (h_o h)) then
      do k <- aes (sha256 (pw ++ skipn 40 (h_o h) ++ h_u h)) (repeat 0 16) (h_oe h); Ok (Some k)
    else if list_eqb (sha256 (pw ++ part 32 40 (h_u h))%nat) (firstn 32 (h_u h)) then
      do k <- aes (sha256 (pw ++ skipn 40 (h_u h))) (repeat 0 16) (h_ue h); Ok (Some k)
    else Ok None.

  (* 46-53 *)
  Definition is_printable (h : handler) : bool := negb (Z.land (h_p h) 4 =? 0).
  Definition is_modifiable (h : handler) : bool := negb (Z.land (h_p h) 8 =? 0).
  Definition is_extractable (h : handler) : bool := negb (Z.land (h_p h) 16 =? 0).

  (* 134-138 decrypt_rc4: the key of one object *)
  Definition obj_key (key : list Z) (objid genno : Z) (salt : list Z) : res (list Z) :=
    do a <- pack_L objid; do b <- pack_L genno;
    let k := key ++ firstn 3 a ++ firstn 2 b ++ salt in
    Ok (firstn (min (length k) 16) (md5 k)).
  Definition decrypt_rc4 (h : handler) (objid genno : Z) (data : list Z) : res (list Z) :=
    do k <- obj_key (h_key h) objid genno []; arc4 k data.
  (* 183-187 decrypt_aes128, 226-227 decrypt_aes256 *)
  Definition decrypt_aes128 (h : handler) (objid genno : Z) (data : list Z) : res (list Z) :=
    do k <- obj_key (h_key h) objid genno [115; 65; 108; 84]; aes k (firstn 16 data) (skipn 16 data).
  Definition decrypt_aes256 (h : handler) (data : list Z) : res (list Z) := aes (h_key h) (firstn 16 data) (skipn 16 data).
  Definition run_method (h : handler) (m : method) (objid genno : Z) (data : list Z) : res (list Z) :=
    match m with
    | M_identity => Ok data | M_rc4 => decrypt_rc4 h objid genno data
    | M_aes128 => decrypt_aes128 h objid genno data | M_aes256 => decrypt_aes256 h data
    end.
  Fixpoint find_cfm (l : list (list Z * method)) (n : list Z) : option method :=
    match l with [] => None | (k, m) :: r => if list_eqb k n then Some m else find_cfm r n end.
  (* 131-132 decrypt; 169-176 the same of V4 and V5.  attrs: the dictionary of a stream *)
  Definition decrypt (h : handler) (objid genno : Z) (data : list Z) (attrs : option dict) : res (list Z) :=
    if (h_v h =? 4) || (h_v h =? 5) then
      let metadata := match attrs with Some a => match dget a "Type" with Some (OName n) => list_eqb n (bs "Metadata") | _ => false end | None => false end in
      if negb (h_meta h) && metadata then Ok data
      else match find_cfm (h_cfm h) (h_strf h) with Some m => run_method h m objid genno data | None => Err KeyError end
    else decrypt_rc4 h objid genno data.

  (* 34-41, 146-162, 194-204 init_params.  Entries that must be there are looked up with []: KeyError *)
  Definition need (d : dict) (k : string) : res obj := match dget d k with Some o => Ok o | None => Err KeyError end.
  Definition iv (o : obj) : res Z := Stream_Model.int_value getobj depth o.
  (* str_value gives the str of no characters for anything that is not a string; here the bytes of no characters *)
  Definition sv (o : obj) : res (list Z) := do x <- resolved getobj depth o; Ok (match x with OStr s => s | _ => [] end).
  Definition lit_name (o : obj) : res (list Z) := match o with OName n => Ok n | _ => Ok (0 :: bs "?") end.  (* a key no dictionary has *)
  Definition method_of (v : Z) (n : list Z) : option method :=
    if v =? 5 then (if list_eqb n (bs "AESV3") then Some M_aes256 else None)
    else if list_eqb n (bs "V2") then Some M_rc4 else if list_eqb n (bs "AESV2") then Some M_aes128 else None.
  (* v['CFM']: v is a crypt filter dictionary; references are not followed *)
  Fixpoint cfms (v : Z) (d : dict) : res (list (list Z * method)) :=
    match d with
    | [] => Ok []
    | (k, f) :: r =>
        do kn <- lit_name k;
        do fd <- (match f with ODict x => Ok x | _ => Err TypeError end);
        do c <- need fd "CFM"; do cn <- lit_name c;
        match method_of v cn with
        | None => Err NameError
        | Some m => do rest <- cfms v r; Ok ((kn, m) :: rest)
        end
    end.
  Definition base_params (docid : list obj) (param : dict) : res handler :=
    do v <- iv (match dget param "V" with Some x => x | None => OInt 0 end);
    do r <- (do x <- need param "R"; iv x);
    do p <- (do x <- need param "P"; iv x);
    do o <- (do x <- need param "O"; sv x);
    do u <- (do x <- need param "U"; sv x);
    do len <- iv (match dget param "Length" with Some x => x | None => OInt 40 end);
    Ok (mkH docid v r p o u len false [] [] [] [] []).
  Definition v4_params (docid : list obj) (param : dict) : res handler :=
    do h <- base_params docid param;
    do cf <- dict_value getobj depth (match dget param "CF" with Some x => x | None => ONull end);
    do stmf <- (do x <- need param "StmF"; lit_name x);
    do strf <- (do x <- need param "StrF"; lit_name x);
    let meta := match dget param "EncryptMetadata" with Some x => truthy x | None => true end in
    if negb (list_eqb stmf strf) then Err NameError
    else
      do l <- cfms (h_v h) cf;
      let l' := (bs "Identity", M_identity) :: l in
      match find_cfm l' strf with
      | None => Err NameError
      | Some _ => Ok (mkH docid (h_v h) (h_r h) (h_p h) (h_o h) (h_u h) 128 meta l' strf [] [] [])
      end.
  Definition v5_params (docid : list obj) (param : dict) : res handler :=
    do h <- v4_params docid param;
    do oe <- (do x <- need param "OE"; sv x);
    do ue <- (do x <- need param "UE"; sv x);
    Ok (mkH docid (h_v h) (h_r h) (h_p h) (h_o h) (h_u h) 256 (h_meta h) (h_cfm h) (h_strf h) oe ue []).
  (* 22-33, 43-46 __init__ *)
  Definition with_key (h : handler) (k : list Z) : handler :=
    mkH (h_docid h) (h_v h) (h_r h) (h_p h) (h_o h) (h_u h) (h_length h) (h_meta h) (h_cfm h) (h_strf h) (h_oe h) (h_ue h) k.
  Definition init_key (h : handler) (k : res (option (list Z))) : res handler :=
    do x <- k; match x with Some key => Ok (with_key h key) | None => Err NameError end.
  (* __init__.py:110-126 _initialize_password: the handler of the document *)
  Definition open_with (docid : list obj) (param : dict) (password : list Z) : res handler :=
    if match dget param "Filter" with Some (OName n) => list_eqb n (bs "Standard") | _ => false end then
      do v <- iv (match dget param "V" with Some x => x | None => OInt 0 end);
      if (v =? 1) || (v =? 2) then
        do h <- base_params docid param;
        if (h_r h =? 2) || (h_r h =? 3) then init_key h (authenticate h password) else Err NameError
      else if v =? 4 then
        do h <- v4_params docid param;
        if h_r h =? 4 then init_key h (authenticate h password) else Err NameError
      else if v =? 5 then
        do h <- v5_params docid param;
        if h_r h =? 5 then init_key h (authenticate5 h password) else Err NameError
      else Err NameError
    else Err NameError.
End handlers.
