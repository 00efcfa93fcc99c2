(* Model of pdfmajor/parser/cmapdb/__init__.py, parser/EncodingDB.py, utils/encoding/__init__.py (name2unicode) and
   interpreter/commands/state/PDFTextState/PDFFont/Type1FontHeaderParser.py.  settings.STRICT is False.
   Texts (Python str) are lists of code points.  Glyph names are their bytes (names that are not ASCII are not modelled). *)
From Coq Require Import String.
From Verif Require Import Base Lex_Model PNG_Model Obj Stack_Model Geom_Model.

(* Python dictionaries with int keys, of which only lookups are made: the last assignment comes first *)
Definition imap (A : Type) := list (Z * A).
Fixpoint iget {A} (d : imap A) (k : Z) : option A :=
  match d with [] => None | (k', v) :: r => if k' =? k then Some v else iget r k end.
Definition iput {A} (d : imap A) (k : Z) (v : A) : imap A := (k, v) :: d.

(* PSStackParser/__init__.py:104-163 nextobject, for a parser whose results are consumed as they come: the tokens one after the
   other.  flush is PSBaseParser.flush, which does nothing. *)
Fixpoint feed {P : Type} (kw : P -> stk -> Z -> list Z -> res (P * stk)) (p : P) (s : stk) (ts : list (Z * token)) : res (P * stk) :=
  match ts with [] => Ok (p, s) | (pos, t) :: r => do (p', s') <- step kw p s pos t; feed kw p' s' r end.

(* ---------- CMap ---------- *)
(* code2cid: nested dictionaries with ints at the leaves *)
Inductive trie := Leaf (cid : Z) | Node (d : list (Z * trie)).
Fixpoint tget (d : list (Z * trie)) (k : Z) : option trie :=
  match d with [] => None | (k', v) :: r => if k' =? k then Some v else tget r k end.
Fixpoint tset (d : list (Z * trie)) (k : Z) (v : trie) : list (Z * trie) :=
  match d with [] => [(k, v)] | (k', v') :: r => if k' =? k then (k', v) :: r else (k', v') :: tset r k v end.
(* __init__.py:84-95 CMap.decode: root is self.code2cid, d the current dictionary *)
Fixpoint cmap_decode (root d : list (Z * trie)) (code : list Z) : list Z :=
  match code with
  | [] => []
  | i :: r => match tget d i with
              | Some (Leaf cid) => cid :: cmap_decode root root r
              | Some (Node d') => cmap_decode root d' r
              | None => cmap_decode root root r
              end
  end.
(* 113-120 IdentityCMap.decode: struct.unpack('>nH', code) needs exactly 2n bytes *)
Fixpoint pairs16 (code : list Z) : list Z :=
  match code with a :: b :: r => a * 256 + b :: pairs16 r | _ => [] end.
Definition identity_decode (code : list Z) : res (list Z) :=
  match (length code / 2)%nat with
  | O => Ok []
  | n => if Nat.eqb (length code) (2 * n) then Ok (pairs16 code) else Err StructError
  end.
(* 147-161 FileCMap.add_code2cid, the code given by the ordinals of its characters: indexing an int is a TypeError *)
Fixpoint add_code2cid (d : list (Z * trie)) (code : list Z) (cid : Z) : res (list (Z * trie)) :=
  match code with
  | [] => Err IndexError
  | [c] => Ok (tset d c (Leaf cid))
  | c :: r => match tget d c with
              | Some (Leaf _) => Err TypeError
              | Some (Node d') => do d2 <- add_code2cid d' r cid; Ok (tset d c (Node d2))
              | None => do d2 <- add_code2cid [] r cid; Ok (tset d c (Node d2))
              end
  end.

(* ---------- Unicode maps ---------- *)
(* bytes.decode('UTF-16BE', 'ignore') *)
Definition high_surrogate (u : Z) : bool := (55296 <=? u) && (u <? 56320).
Definition low_surrogate (u : Z) : bool := (56320 <=? u) && (u <? 57344).
Fixpoint units_text (us : list Z) : list Z :=
  match us with
  | [] => []
  | u :: r =>
      if high_surrogate u then
        match r with
        | v :: r' => if low_surrogate v then 65536 + (u - 55296) * 1024 + (v - 56320) :: units_text r' else units_text r
        | [] => []
        end
      else if low_surrogate u then units_text r
      else u :: units_text r
  end.
Definition utf16 (b : list Z) : list Z := units_text (pairs16 b).

Section names.
  Context (glyphs : list Z -> option (list Z)).   (* glyphname2unicode *)
  (* utils/encoding/__init__.py:9-16: the first run of digits, read in decimal.  chr above 0x10FFFF: ValueError *)
  Fixpoint first_digits (n : list Z) : list Z :=
    match n with [] => [] | c :: r => if is_digit c then fst (span (fun c => negb (is_digit c)) (c :: r)) else first_digits r end.
  Definition name2unicode (n : list Z) : res (list Z) :=
    match glyphs n with
    | Some t => Ok t
    | None => match first_digits n with
              | [] => Err KeyError
              | ds => let v := fold_left (fun a c => a * 10 + (c - 48)) ds 0 in
                      if v <=? 1114111 then Ok [v] else Err ValueError
              end
    end.

  Definition umap := imap (list Z).
  (* 165-179 FileUnicodeMap.add_cid2unichr with the kinds of code the parser passes *)
  Definition add_cid2unichr (m : umap) (cid : Z) (code : obj) : res umap :=
    match code with
    | OName n => do t <- name2unicode n; Ok (iput m cid t)
    | OStr b => Ok (iput m cid (utf16 b))
    | OInt v => if (0 <=? v) && (v <=? 1114111) then Ok (iput m cid [v]) else Err ValueError
    | OBool b => Ok (iput m cid [if b then 1 else 0])
    | _ => Err TypeError
    end.

  (* ---------- CMapParser, filling a FileUnicodeMap ---------- *)
  (* struct.pack('>L', v) *)
  Definition pack4 (v : Z) : res (list Z) :=
    if (0 <=? v) && (v <? 2 ^ 32) then Ok [v / 2 ^ 24; v / 2 ^ 16 mod 256; v / 2 ^ 8 mod 256; v mod 256] else Err StructError.
  (* s[-n:], with s[-0:] = s *)
  Definition tail_n (n : nat) (s : list Z) : list Z := match n with O => s | _ => skipn (length s - n) s end.
  (* 380-381 and 387-389: the loops of endbfrange *)
  Fixpoint range_array (m : umap) (c : Z) (n : nat) (codes : list obj) : res umap :=
    match n with
    | O => Ok m
    | S n' => match codes with
              | [] => Err IndexError
              | x :: r => do m' <- add_cid2unichr m c x; range_array m' (c + 1) n' r
              end
    end.
  Fixpoint range_bytes (m : umap) (c : Z) (n : nat) (prefix : list Z) (base : Z) (vlen : nat) : res umap :=
    match n with
    | O => Ok m
    | S n' => do p <- pack4 base; do m' <- add_cid2unichr m c (OStr (prefix ++ tail_n vlen p));
              range_bytes m' (c + 1) n' prefix (base + 1) vlen
    end.
  (* 371-390 one triple of endbfrange *)
  Definition bfrange1 (m : umap) (t : list obj) : res umap :=
    match t with
    | [OStr s; OStr e; code] =>
        if negb (Nat.eqb (length s) (length e)) then Ok m else
        do s1 <- nunpack s 0; do e1 <- nunpack e 0;
        let n := Z.to_nat (e1 - s1 + 1) in
        match code with
        | OArr l => range_array m s1 n l
        | OStr b => let var := skipn (length b - 4) b in
                    do base <- nunpack var 0;
                    range_bytes m s1 n (firstn (length b - 4) b) base (length var)
        | _ => Err TypeError
        end
    | _ => Ok m
    end.
  (* 395-400 one pair of endbfchar *)
  Definition bfchar1 (m : umap) (t : list obj) : res umap :=
    match t with
    | [OStr cid; OStr code] => do c <- nunpack cid 0; add_cid2unichr m c (OStr code)
    | _ => Ok m
    end.
  Fixpoint fold_m {A B} (f : A -> B -> res A) (a : A) (l : list B) : res A :=
    match l with [] => Ok a | x :: r => do a' <- f a x; fold_m f a' r end.

  (* self._in_cmap and the map; the other attributes of the map (def) are never read from a ToUnicode map *)
  Record cmst := mkCm { in_cmap : bool; cm_map : umap }.
  Definition popall (s : stk) : list obj * stk := (map snd (curstack s), mkStk (context s) (curtype s) [] (results s)).
  (* 290-408 do_keyword.  usecmap on a FileUnicodeMap looks the CMap up and does nothing with it; a missing CMap is ignored. *)
  Definition cmap_keyword (c : cmst) (s : stk) (pos : Z) (k : list Z) : res (cmst * stk) :=
    let is n := list_eqb k (bs n) in
    let clear := let (_, s') := popall s in Ok (c, s') in
    if is "begincmap"%string then let (_, s') := popall s in Ok (mkCm true (cm_map c), s')
    else if is "endcmap"%string then Ok (mkCm false (cm_map c), s)
    else if negb (in_cmap c) then Ok (c, s)
    else if is "def"%string then
      let (ops, s1) := pop s 2 in
      match ops with
      | [(_, k'); _] => if hashable k' then Ok (c, s1) else Err TypeError
      | _ => Err ValueError
      end
    else if is "usecmap"%string then
      let (ops, s1) := pop s 1 in
      match ops with
      | [(_, OName _)] => Ok (c, s1)
      | [(_, OStr _)] | [(_, OArr _)] | [(_, ODict _)] => Err TypeError
      | [_] => Err AttributeError
      | _ => Err ValueError
      end
    else if is "begincodespacerange"%string || is "endcodespacerange"%string || is "begincidrange"%string || is "begincidchar"%string
         || is "beginbfrange"%string || is "beginbfchar"%string || is "beginnotdefrange"%string || is "endnotdefrange"%string then clear
    (* 338-356 and 361-366: the tests isinstance(s, str) are never true of the bytes the parser reads *)
    else if is "endcidrange"%string || is "endcidchar"%string then clear
    else if is "endbfrange"%string then
      let (objs, s') := popall s in do m <- fold_m bfrange1 (cm_map c) (choplist 3 objs); Ok (mkCm true m, s')
    else if is "endbfchar"%string then
      let (objs, s') := popall s in do m <- fold_m bfchar1 (cm_map c) (choplist 2 objs); Ok (mkCm true m, s')
    else Ok (c, push s (pos, OKwd k)).
  (* 261-266 run.  add_results is never called, so nextobject goes on until the tokens end; PSEOF is caught. *)
  Definition cmap_tokens := feed cmap_keyword.
  Definition cmap_run (bufsiz : nat) (data : list Z) : res umap :=
    let (ts, e) := tokens (open_at 0 (read_chunks bufsiz data)) in
    do (c, _) <- cmap_tokens (mkCm true []) stk0 ts;
    match e with PSEOF => Ok (cm_map c) | _ => Err e end.

  (* ---------- Type1FontHeaderParser ---------- *)
  (* 40-46 do_keyword; the pairs of add_results come out as they are added, in get_encoding (26-37).  A name that is not known
     is skipped; a ValueError of name2unicode escapes. *)
  Definition header_keyword (m : umap) (s : stk) (pos : Z) (k : list Z) : res (umap * stk) :=
    if list_eqb k (bs "put") then
      let (ops, s1) := pop s 2 in
      match ops with
      | [(_, key); (_, value)] =>
          match key, value with
          | OInt i, OName n => match name2unicode n with Ok t => Ok (iput m i t, s1) | Err KeyError => Ok (m, s1) | Err e => Err e end
          | OBool b, OName n => match name2unicode n with Ok t => Ok (iput m (if b then 1 else 0) t, s1) | Err KeyError => Ok (m, s1) | Err e => Err e end
          | _, _ => Ok (m, s1)
          end
      | _ => Err ValueError
      end
    else Ok (m, s).
  Definition header_tokens := feed header_keyword.
  Definition header_encoding (bufsiz : nat) (data : list Z) : res umap :=
    let (ts, e) := tokens (open_at 0 (read_chunks bufsiz data)) in
    do (m, _) <- header_tokens [] stk0 ts;
    match e with PSEOF => Ok m | _ => Err e end.

  (* ---------- EncodingDB ---------- *)
  (* EncodingDB.py:6-26: the class holds four dictionaries, built from the table of names with their codes (None or 0: absent).
     They are Python objects: heap is the list of dictionaries, an address its index. *)
  Definition latin := list (list Z * option Z * option Z * option Z * option Z).
  Fixpoint build_encoding (sel : list Z * option Z * option Z * option Z * option Z -> option Z) (m : umap) (l : latin) : res umap :=
    match l with
    | [] => Ok m
    | e :: r => let '(n, _, _, _, _) := e in
                do t <- name2unicode n;
                build_encoding sel (match sel e with Some c => if c =? 0 then m else iput m c t | None => m end) r
    end.
  Definition enc_std e : option Z := let '(_, a, _, _, _) := (e : list Z * option Z * option Z * option Z * option Z) in a.
  Definition enc_mac e : option Z := let '(_, _, a, _, _) := (e : list Z * option Z * option Z * option Z * option Z) in a.
  Definition enc_win e : option Z := let '(_, _, _, a, _) := (e : list Z * option Z * option Z * option Z * option Z) in a.
  Definition enc_pdf e : option Z := let '(_, _, _, _, a) := (e : list Z * option Z * option Z * option Z * option Z) in a.
  Definition encodings (l : latin) : res (list umap) :=
    do a <- build_encoding enc_std [] l; do b <- build_encoding enc_mac [] l;
    do c <- build_encoding enc_win [] l; do d <- build_encoding enc_pdf [] l; Ok [a; b; c; d].
  (* 21-26 klass.encodings.get(name, klass.std2unicode) *)
  Definition base_addr (name : list Z) : nat :=
    if list_eqb name (bs "MacRomanEncoding") then 1 else if list_eqb name (bs "WinAnsiEncoding") then 2
    else if list_eqb name (bs "PDFDocEncoding") then 3 else 0.
  (* 33-43 the loop over the differences *)
  Fixpoint apply_diff (m : umap) (cid : Z) (diff : list obj) : res umap :=
    match diff with
    | [] => Ok m
    | OInt i :: r => apply_diff m i r
    | OBool b :: r => apply_diff m (if b then 1 else 0) r
    | OName n :: r => match name2unicode n with
                      | Ok t => apply_diff (iput m cid t) (cid + 1) r
                      | Err KeyError => apply_diff m (cid + 1) r
                      | Err e => Err e
                      end
    | _ :: r => apply_diff m cid r
    end.
  (* 28-44: the address of the encoding, and the heap afterwards *)
  Definition get_encoding (heap : list umap) (name : list Z) (diff : list obj) : res (nat * list umap) :=
    let a := base_addr name in
    match diff with
    | [] => Ok (a, heap)
    | _ => do m <- apply_diff (nth a heap []) 0 diff; Ok (length heap, heap ++ [m])
    end.
End names.
