(* Model of pdfmajor/interpreter/commands/state/PDFTextState/PDFFont/CFFFont.py: the reader of Compact Font Format programs.  The
   file is a byte string with a position, as io.BytesIO.  No module of the package imports CFFFont, but the class can be used. *)
From Coq Require Import String Qcanon.
From Verif Require Import Base Num PNG_Model.
Open Scope Z_scope.

(* ---------- the file ---------- *)
(* BytesIO.read(n): what is there, everything if n is negative; and the position after it *)
Definition fread (data : list Z) (pos n : Z) : list Z * Z :=
  let s := if n <? 0 then skipn (Z.to_nat pos) data else firstn (Z.to_nat n) (skipn (Z.to_nat pos) data) in
  (s, pos + Z.of_nat (length s)).
(* BytesIO.seek(p) *)
Definition fseek (p : Z) : res Z := if p <? 0 then Err ValueError else Ok p.
(* struct.unpack of n unsigned bytes ('B'*n), or of n unsigned 16-bit numbers ('>'+'H'*n; none for n < 0) *)
Definition unpack_bytes (n : Z) (s : list Z) : res (list Z) := if Z.of_nat (length s) =? Z.max n 0 then Ok s else Err StructError.
Fixpoint pairs_of (s : list Z) : list Z := match s with a :: b :: r => be_val [a; b] :: pairs_of r | _ => [] end.
Definition unpack_shorts (n : Z) (s : list Z) : res (list Z) := if Z.of_nat (length s) =? 2 * Z.max n 0 then Ok (pairs_of s) else Err StructError.
(* d[k] = v on a dict: the order is that of the first assignment *)
Fixpoint dset {K A} (eqb : K -> K -> bool) (d : list (K * A)) (k : K) (v : A) : list (K * A) :=
  match d with [] => [(k, v)] | (k', v') :: r => if eqb k' k then (k, v) :: r else (k', v') :: dset eqb r k v end.
Fixpoint dget {K A} (eqb : K -> K -> bool) (d : list (K * A)) (k : K) : option A :=
  match d with [] => None | (k', v) :: r => if eqb k' k then Some v else dget eqb r k end.

(* ---------- getdict ---------- *)
(* int and float; rounding and overflow of floats are not modelled *)
Inductive cnum := CInt (z : Z) | CReal (q : num).
(* 9 NIBBLES: the characters of a nibble; None (13) cannot be added to a str; 15 ends the number (34-37) *)
Definition nibble (n : Z) : res (list Z * bool) :=
  if n =? 15 then Ok ([], true)
  else if n =? 13 then Err TypeError
  else Ok (if n <=? 9 then [48 + n] else if n =? 10 then [46] else if n =? 11 then [101] else if n =? 12 then [101; 45] else [45], false).
(* 31-37: both nibbles of a byte are taken before the end is noticed; ord(b'') is a TypeError *)
Fixpoint real_text (s : list Z) : res (list Z * list Z) :=
  match s with
  | [] => Err TypeError
  | b :: r =>
      do (t1, stop1) <- nibble (Z.shiftr b 4); do (t2, stop2) <- nibble (Z.land b 15);
      if stop1 || stop2 then Ok (t1 ++ t2, r) else do (t, r') <- real_text r; Ok (t1 ++ t2 ++ t, r')
  end.
Fixpoint span_digits (s : list Z) : list Z * list Z :=
  match s with c :: r => if is_digit c then let '(d, r') := span_digits r in (c :: d, r') else ([], s) | [] => ([], []) end.
Definition digits_val (d : list Z) : Z := fold_left (fun v c => v * 10 + (c - 48)) d 0.
Definition ten_to (k : Z) : num := if 0 <=? k then qz (10 ^ k) else (/ qz (10 ^ (- k)))%Qc.
(* float(s) of Python on texts of digits, '.', 'e', '-' (38) *)
Definition minus_sign (t : list Z) : bool * list Z := match t with c :: r => if c =? 45 then (true, r) else (false, t) | [] => (false, []) end.
Definition py_float (t : list Z) : res num :=
  let '(neg, t1) := minus_sign t in
  let '(ip, t2) := span_digits t1 in
  let '(fp, t3) := match t2 with c :: r => if c =? 46 then span_digits r else ([], t2) | [] => ([], []) end in
  if (length (ip ++ fp) =? 0)%nat then Err ValueError else
  let m := if neg then - digits_val (ip ++ fp) else digits_val (ip ++ fp) in
  let value e := Ok (qz m * ten_to (e - Z.of_nat (length fp)))%Qc in
  match t3 with
  | [] => value 0
  | c :: r =>
      if c =? 101 then
        let '(eneg, r1) := minus_sign r in
        let '(ed, rest) := span_digits r1 in
        if ((length ed =? 0) || negb (length rest =? 0))%nat then Err ValueError else value (if eneg then - digits_val ed else digits_val ed)
      else Err ValueError
  end.
(* ord(fp.read(1)) *)
Definition byte1 (s : list Z) : res (Z * list Z) := match s with b :: r => Ok (b, r) | [] => Err TypeError end.
(* 29-50 the value that begins with b0 > 21 *)
Definition operand (b0 : Z) (s : list Z) : res (cnum * list Z) :=
  if b0 =? 30 then do (t, r) <- real_text s; do q <- py_float t; Ok (CReal q, r)
  else if (32 <=? b0) && (b0 <=? 246) then Ok (CInt (b0 - 139), s)
  else
    do (b1, s1) <- byte1 s;
    if (247 <=? b0) && (b0 <=? 250) then Ok (CInt (Z.shiftl (b0 - 247) 8 + b1 + 108), s1)
    else if (251 <=? b0) && (b0 <=? 254) then Ok (CInt (- Z.shiftl (b0 - 251) 8 - b1 - 108), s1)
    else
      do (b2, s2) <- byte1 s1;
      let b1' := if 128 <=? b1 then b1 - 256 else b1 in
      if b0 =? 28 then Ok (CInt (Z.lor (Z.shiftl b1' 8) b2), s2)
      else
        let h := firstn 2 s2 in
        if (length h =? 2)%nat then Ok (CInt (Z.lor (Z.lor (Z.shiftl b1' 24) (Z.shiftl b2 16)) (be_val h)), skipn 2 s2) else Err StructError.
(* 11-52 *)
Fixpoint getdict_go (fuel : nat) (s : list Z) (d : list (Z * list cnum)) (stack : list cnum) : res (list (Z * list cnum)) :=
  match fuel with
  | O => Err OutOfFuel
  | S f =>
      match s with
      | [] => Ok d
      | b0 :: r =>
          if b0 <=? 21 then getdict_go f r (dset Z.eqb d b0 stack) []
          else do (v, r') <- operand b0 r; getdict_go f r' d (stack ++ [v])
      end
  end.
Definition getdict (data : list Z) : res (list (Z * list cnum)) := getdict_go (S (length data)) data [] [].

(* ---------- INDEX (138-161) ---------- *)
Record index := mkIndex { i_offsets : list Z; i_base : Z }.
(* 144-145 the offsets *)
Fixpoint read_offsets (data : list Z) (n : nat) (offsize pos : Z) : res (list Z * Z) :=
  match n with
  | O => Ok ([], pos)
  | S k => let '(s, pos1) := fread data pos offsize in do o <- nunpack s 0; do (os, pos2) <- read_offsets data k offsize pos1; Ok (o :: os, pos2)
  end.
(* 140-148 __init__, at position pos; also the position it leaves *)
Definition read_index (data : list Z) (pos : Z) : res (index * Z) :=
  let '(h, pos1) := fread data pos 3 in
  match h with
  | [c1; c2; offsize] =>
      do (os, pos2) <- read_offsets data (S (Z.to_nat (be_val [c1; c2]))) offsize pos1;
      do pos3 <- fseek (pos2 - 1 + last os 0);
      Ok (mkIndex os (pos2 - 1), pos3)
  | _ => Err StructError
  end.
(* 153-154 __len__ *)
Definition index_len (ix : index) : Z := Z.of_nat (length (i_offsets ix)) - 1.
(* 156-158 __getitem__ for i >= 0 *)
Definition index_get (data : list Z) (ix : index) (i : nat) : res (list Z * Z) :=
  match nth_error (i_offsets ix) i with
  | None => Err IndexError
  | Some o =>
      do p <- fseek (i_base ix + o);
      match nth_error (i_offsets ix) (S i) with None => Err IndexError | Some o' => Ok (fread data p (o' - o)) end
  end.
(* 160-161 __iter__: list(index) *)
Fixpoint index_from (data : list Z) (ix : index) (i n : nat) : res (list (list Z)) :=
  match n with O => Ok [] | S k => do (s, _) <- index_get data ix i; do r <- index_from data ix (S i) k; Ok (s :: r) end.
Definition index_list (data : list Z) (ix : index) : res (list (list Z)) := index_from data ix 0 (Z.to_nat (index_len ix)).

(* ---------- strings ---------- *)
(* 57-136 STANDARD_STRINGS *)
Definition STANDARD_STRINGS : list string := [
  ".notdef"; "space"; "exclam"; "quotedbl"; "numbersign"; "dollar"; "percent"; "ampersand"; "quoteright"; "parenleft";
  "parenright"; "asterisk"; "plus"; "comma"; "hyphen"; "period"; "slash"; "zero"; "one"; "two"; "three"; "four"; "five"; "six";
  "seven"; "eight"; "nine"; "colon"; "semicolon"; "less"; "equal"; "greater"; "question"; "at"; "A"; "B"; "C"; "D"; "E"; "F";
  "G"; "H"; "I"; "J"; "K"; "L"; "M"; "N"; "O"; "P"; "Q"; "R"; "S"; "T"; "U"; "V"; "W"; "X"; "Y"; "Z"; "bracketleft"; "backslash";
  "bracketright"; "asciicircum"; "underscore"; "quoteleft"; "a"; "b"; "c"; "d"; "e"; "f"; "g"; "h"; "i"; "j"; "k"; "l"; "m"; "n";
  "o"; "p"; "q"; "r"; "s"; "t"; "u"; "v"; "w"; "x"; "y"; "z"; "braceleft"; "bar"; "braceright"; "asciitilde"; "exclamdown";
  "cent"; "sterling"; "fraction"; "yen"; "florin"; "section"; "currency"; "quotesingle"; "quotedblleft"; "guillemotleft";
  "guilsinglleft"; "guilsinglright"; "fi"; "fl"; "endash"; "dagger"; "daggerdbl"; "periodcentered"; "paragraph"; "bullet";
  "quotesinglbase"; "quotedblbase"; "quotedblright"; "guillemotright"; "ellipsis"; "perthousand"; "questiondown"; "grave";
  "acute"; "circumflex"; "tilde"; "macron"; "breve"; "dotaccent"; "dieresis"; "ring"; "cedilla"; "hungarumlaut"; "ogonek";
  "caron"; "emdash"; "AE"; "ordfeminine"; "Lslash"; "Oslash"; "OE"; "ordmasculine"; "ae"; "dotlessi"; "lslash"; "oslash"; "oe";
  "germandbls"; "onesuperior"; "logicalnot"; "mu"; "trademark"; "Eth"; "onehalf"; "plusminus"; "Thorn"; "onequarter"; "divide";
  "brokenbar"; "degree"; "thorn"; "threequarters"; "twosuperior"; "registered"; "minus"; "eth"; "multiply"; "threesuperior";
  "copyright"; "Aacute"; "Acircumflex"; "Adieresis"; "Agrave"; "Aring"; "Atilde"; "Ccedilla"; "Eacute"; "Ecircumflex";
  "Edieresis"; "Egrave"; "Iacute"; "Icircumflex"; "Idieresis"; "Igrave"; "Ntilde"; "Oacute"; "Ocircumflex"; "Odieresis";
  "Ograve"; "Otilde"; "Scaron"; "Uacute"; "Ucircumflex"; "Udieresis"; "Ugrave"; "Yacute"; "Ydieresis"; "Zcaron"; "aacute";
  "acircumflex"; "adieresis"; "agrave"; "aring"; "atilde"; "ccedilla"; "eacute"; "ecircumflex"; "edieresis"; "egrave"; "iacute";
  "icircumflex"; "idieresis"; "igrave"; "ntilde"; "oacute"; "ocircumflex"; "odieresis"; "ograve"; "otilde"; "scaron"; "uacute";
  "ucircumflex"; "udieresis"; "ugrave"; "yacute"; "ydieresis"; "zcaron"; "exclamsmall"; "Hungarumlautsmall"; "dollaroldstyle";
  "dollarsuperior"; "ampersandsmall"; "Acutesmall"; "parenleftsuperior"; "parenrightsuperior"; "twodotenleader";
  "onedotenleader"; "zerooldstyle"; "oneoldstyle"; "twooldstyle"; "threeoldstyle"; "fouroldstyle"; "fiveoldstyle"; "sixoldstyle";
  "sevenoldstyle"; "eightoldstyle"; "nineoldstyle"; "commasuperior"; "threequartersemdash"; "periodsuperior"; "questionsmall";
  "asuperior"; "bsuperior"; "centsuperior"; "dsuperior"; "esuperior"; "isuperior"; "lsuperior"; "msuperior"; "nsuperior";
  "osuperior"; "rsuperior"; "ssuperior"; "tsuperior"; "ff"; "ffi"; "ffl"; "parenleftinferior"; "parenrightinferior";
  "Circumflexsmall"; "hyphensuperior"; "Gravesmall"; "Asmall"; "Bsmall"; "Csmall"; "Dsmall"; "Esmall"; "Fsmall"; "Gsmall";
  "Hsmall"; "Ismall"; "Jsmall"; "Ksmall"; "Lsmall"; "Msmall"; "Nsmall"; "Osmall"; "Psmall"; "Qsmall"; "Rsmall"; "Ssmall";
  "Tsmall"; "Usmall"; "Vsmall"; "Wsmall"; "Xsmall"; "Ysmall"; "Zsmall"; "colonmonetary"; "onefitted"; "rupiah"; "Tildesmall";
  "exclamdownsmall"; "centoldstyle"; "Lslashsmall"; "Scaronsmall"; "Zcaronsmall"; "Dieresissmall"; "Brevesmall"; "Caronsmall";
  "Dotaccentsmall"; "Macronsmall"; "figuredash"; "hypheninferior"; "Ogoneksmall"; "Ringsmall"; "Cedillasmall";
  "questiondownsmall"; "oneeighth"; "threeeighths"; "fiveeighths"; "seveneighths"; "onethird"; "twothirds"; "zerosuperior";
  "foursuperior"; "fivesuperior"; "sixsuperior"; "sevensuperior"; "eightsuperior"; "ninesuperior"; "zeroinferior"; "oneinferior";
  "twoinferior"; "threeinferior"; "fourinferior"; "fiveinferior"; "sixinferior"; "seveninferior"; "eightinferior";
  "nineinferior"; "centinferior"; "dollarinferior"; "periodinferior"; "commainferior"; "Agravesmall"; "Aacutesmall";
  "Acircumflexsmall"; "Atildesmall"; "Adieresissmall"; "Aringsmall"; "AEsmall"; "Ccedillasmall"; "Egravesmall"; "Eacutesmall";
  "Ecircumflexsmall"; "Edieresissmall"; "Igravesmall"; "Iacutesmall"; "Icircumflexsmall"; "Idieresissmall"; "Ethsmall";
  "Ntildesmall"; "Ogravesmall"; "Oacutesmall"; "Ocircumflexsmall"; "Otildesmall"; "Odieresissmall"; "OEsmall"; "Oslashsmall";
  "Ugravesmall"; "Uacutesmall"; "Ucircumflexsmall"; "Udieresissmall"; "Yacutesmall"; "Thornsmall"; "Ydieresissmall"; "001.000";
  "001.001"; "001.002"; "001.003"; "Black"; "Bold"; "Book"; "Light"; "Medium"; "Regular"; "Roman"; "Semibold"
]%string.
(* a str, or the bytes of the String INDEX *)
Inductive cname := CStr (s : string) | CBytes (b : list Z).
Definition cname_eqb (a b : cname) : bool :=
  match a, b with CStr x, CStr y => String.eqb x y | CBytes x, CBytes y => list_eqb x y | _, _ => false end.
(* 243-246 getstr; the position changes if the String INDEX is read *)
Definition getstr (data : list Z) (strings : index) (pos sid : Z) : res (cname * Z) :=
  if sid <? Z.of_nat (length STANDARD_STRINGS) then Ok (CStr (nth (Z.to_nat sid) STANDARD_STRINGS ""%string), pos)
  else do (s, pos1) <- index_get data strings (Z.to_nat sid - length STANDARD_STRINGS); Ok (CBytes s, pos1).

(* ---------- __init__ (163-241) ---------- *)
Definition zset {A} := @dset Z A Z.eqb.
Definition zget {A} := @dget Z A Z.eqb.
Definition nset {A} := @dset cname A cname_eqb.
Definition nget {A} := @dget cname A cname_eqb.
(* code2gid and gid2code *)
Definition codes := (list (Z * Z) * list (Z * Z))%type.
Definition add_code (m : codes) (code gid : Z) : codes := (zset (fst m) code gid, zset (snd m) gid code).
(* 194-196 enumerate *)
Fixpoint enc0 (m : codes) (code : Z) (l : list Z) : codes := match l with [] => m | gid :: r => enc0 (add_code m code gid) (code + 1) r end.
(* 203-206 the codes of one range: for gid in range(first, first+nleft+1) *)
Fixpoint enc1_range (m : codes) (code gid : Z) (n : nat) : codes * Z :=
  match n with O => (m, code) | S k => enc1_range (add_code m code gid) (code + 1) (gid + 1) k end.
(* 201-206 *)
Fixpoint enc1 (data : list Z) (n : nat) (pos code : Z) (m : codes) : res codes :=
  match n with
  | O => Ok m
  | S k => match fread data pos 2 with
           | ([first; nleft], pos1) => let '(m1, code1) := enc1_range m code first (Z.to_nat (nleft + 1)) in enc1 data k pos1 code1 m1
           | _ => Err StructError
           end
  end.
(* 186-208 *)
Definition encodings (data : list Z) (encoding_pos : Z) : res codes :=
  do pos <- fseek encoding_pos;
  let '(format, pos1) := fread data pos 1 in
  match format with
  | [f] =>
      if f =? 0 then
        match fread data pos1 1 with
        | ([n], pos2) => do l <- unpack_bytes n (fst (fread data pos2 n)); Ok (enc0 ([], []) 0 l)
        | _ => Err StructError
        end
      else if f =? 1 then
        match fread data pos1 1 with
        | ([n], pos2) => enc1 data (Z.to_nat n) pos2 0 ([], [])
        | _ => Err StructError
        end
      else Err ValueError
  | _ => Err ValueError
  end.
(* name2gid and gid2name *)
Definition gnames := (list (cname * Z) * list (Z * cname))%type.
Definition add_name (m : gnames) (name : cname) (gid : Z) : gnames := (nset (fst m) name gid, zset (snd m) gid name).
(* 217-221; the numbers were read before *)
Fixpoint charset0 (data : list Z) (strings : index) (m : gnames) (gid : Z) (sids : list Z) : res gnames :=
  match sids with
  | [] => Ok m
  | sid :: r => do (name, _) <- getstr data strings 0 sid; charset0 data strings (add_name m name (gid + 1)) (gid + 1) r
  end.
(* 228-232 *)
Fixpoint charset1_range (data : list Z) (strings : index) (m : gnames) (pos sid gid : Z) (n : nat) : res (gnames * Z * Z) :=
  match n with
  | O => Ok (m, pos, sid)
  | S k => do (name, pos1) <- getstr data strings pos sid; charset1_range data strings (add_name m name gid) pos1 (sid + 1) (gid + 1) k
  end.
(* 226-232 *)
Fixpoint charset1 (data : list Z) (strings : index) (n : nat) (pos sid : Z) (m : gnames) : res gnames :=
  match n with
  | O => Ok m
  | S k => match fread data pos 2 with
           | ([first; nleft], pos1) =>
               do (m1, pos2, sid1) <- charset1_range data strings m pos1 sid first (Z.to_nat (nleft + 1)); charset1 data strings k pos2 sid1 m1
           | _ => Err StructError
           end
  end.
(* 209-237 *)
Definition charsets (data : list Z) (strings : index) (charset_pos nglyphs : Z) : res gnames :=
  do pos <- fseek charset_pos;
  let '(format, pos1) := fread data pos 1 in
  match format with
  | [f] =>
      if f =? 0 then
        let n := nglyphs - 1 in
        do sids <- unpack_shorts n (fst (fread data pos1 (2 * n))); charset0 data strings ([], []) 0 sids
      else if f =? 1 then
        match fread data pos1 1 with
        | ([n], pos2) => charset1 data strings (Z.to_nat n) pos2 0 ([], [])
        | _ => Err StructError
        end
      else if f =? 2 then Err AssertionError
      else Err ValueError
  | _ => Err ValueError
  end.
(* 179-181 (p,) = top_dict.get(op, [0]); a float is a TypeError in seek (here, a little earlier than in the code) *)
Definition one_pos (top : list (Z * list cnum)) (op : Z) : res Z :=
  match zget top op with
  | None => Ok 0
  | Some [CInt z] => Ok z
  | Some [CReal _] => Err TypeError
  | Some _ => Err ValueError
  end.
Record cfont := mkCfont { c_names : index; c_dicts : index; c_strings : index; c_subrs : index; c_top : list (Z * list cnum);
  c_charstrings : index; c_nglyphs : Z; c_code2gid : list (Z * Z); c_gid2code : list (Z * Z); c_name2gid : list (cname * Z); c_gid2name : list (Z * cname) }.
(* 163-241, the file being at its beginning *)
Definition cff_font (data : list Z) : res cfont :=
  match fread data 0 4 with
  | ([_; _; hdrsize; _], pos0) =>
      let pos1 := snd (fread data pos0 (hdrsize - 4)) in
      do (names, pos2) <- read_index data pos1;
      do (dicts, pos3) <- read_index data pos2;
      do (strings, pos4) <- read_index data pos3;
      do (subrs, _) <- read_index data pos4;
      do (topdata, _) <- index_get data dicts 0;
      do top <- getdict topdata;
      do charset_pos <- one_pos top 15;
      do encoding_pos <- one_pos top 16;
      do charstring_pos <- one_pos top 17;
      do p <- fseek charstring_pos;
      do (charstrings, _) <- read_index data p;
      do cs <- encodings data encoding_pos;
      do ns <- charsets data strings charset_pos (index_len charstrings);
      Ok (mkCfont names dicts strings subrs top charstrings (index_len charstrings) (fst cs) (snd cs) (fst ns) (snd ns))
  | _ => Err StructError
  end.
