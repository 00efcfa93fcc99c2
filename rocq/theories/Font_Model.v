(* Model of pdfmajor/interpreter/commands/state/PDFTextState/PDFFont: util.py, PDFFont.py, fonts.py, __init__.py (get_font).
   settings.STRICT is False.  Not modelled: font names, flags, weights (see Weight_Model), the log. *)
From Coq Require Import String.
From Verif Require Import Base Lex_Model Obj Stack_Model Stream_Model Num Geom_Model Page_Model Interp_Model CMap_Model TrueType_Model.
From Coq Require Import Qcanon.
Open Scope Z_scope.

(* Python dictionaries keyed by numbers (2 == 2.0): the last assignment first *)
Definition nmap (A : Type) := list (num * A).
Fixpoint nget {A} (d : nmap A) (k : num) : option A :=
  match d with [] => None | (k', v) :: r => if qeqb k' k then Some v else nget r k end.
Definition nput {A} (d : nmap A) (k : num) (v : A) : nmap A := (k, v) :: d.

(* int objects: range() accepts nothing else *)
Definition int_obj (o : obj) : option Z := match o with OInt z => Some z | OBool b => Some (if b then 1 else 0) | _ => None end.
(* for (i, w) in enumerate(v): widths[char1+i] = w *)
Fixpoint put_list {A} (m : nmap A) (c : num) (l : list A) : nmap A :=
  match l with [] => m | w :: r => put_list (nput m c w) (c + qz 1)%Qc r end.
(* for i in range(char1, char2+1): widths[i] = w *)
Fixpoint put_range {A} (m : nmap A) (c : Z) (n : nat) (w : A) : nmap A :=
  match n with O => m | S n' => put_range (nput m (qz c) w) (c + 1) n' w end.
(* util.py:4-20 get_widths; r is the list of numbers read so far *)
Fixpoint widths_loop (m : nmap obj) (r : list obj) (seq : list obj) : res (nmap obj) :=
  match seq with
  | [] => Ok m
  | v :: t =>
      match v with
      | OArr l => match rev r with
                  | [] => widths_loop m r t
                  | c :: _ => match num_of c with Some q => widths_loop (put_list m q l) [] t | None => Err TypeError end
                  end
      | _ => match num_of v with
             | None => widths_loop m r t
             | Some _ => match r ++ [v] with
                         | [a; b; w] => match int_obj a, int_obj b with
                                        | Some c1, Some c2 => widths_loop (put_range m c1 (Z.to_nat (c2 + 1 - c1)) w) [] t
                                        | _, _ => Err TypeError
                                        end
                         | r' => widths_loop m r' t
                         end
             end
      end
  end.
Definition get_widths (seq : list obj) : res (nmap obj) := widths_loop [] [] seq.
(* util.py:25-43 get_widths2; the triples of choplist(3, v) *)
Definition triples (l : list obj) : list (obj * (obj * obj)) :=
  flat_map (fun t => match t with [w; x; y] => [(w, (x, y))] | _ => [] end) (choplist 3 l).
Fixpoint widths2_loop (m : nmap (obj * (obj * obj))) (r : list obj) (seq : list obj) : res (nmap (obj * (obj * obj))) :=
  match seq with
  | [] => Ok m
  | v :: t =>
      match v with
      | OArr l => match rev r with
                  | [] => widths2_loop m r t
                  | c :: _ => match num_of c with Some q => widths2_loop (put_list m q (triples l)) [] t | None => Err TypeError end
                  end
      | _ => match num_of v with
             | None => widths2_loop m r t
             | Some _ => match r ++ [v] with
                         | [a; b; w; x; y] => match int_obj a, int_obj b with
                                        | Some c1, Some c2 => widths2_loop (put_range m c1 (Z.to_nat (c2 + 1 - c1)) (w, (x, y))) [] t
                                        | _, _ => Err TypeError
                                        end
                         | r' => widths2_loop m r' t
                         end
             end
      end
  end.
Definition get_widths2 (seq : list obj) : res (nmap (obj * (obj * obj))) := widths2_loop [] [] seq.

(* CMapDB.get_cmap: an IdentityCMap or a CMap with its dictionary; the flag is is_vertical() *)
Inductive cmapk := CIdentity (v : bool) | CTable (v : bool) (root : list (Z * trie)).
Definition cmap_vertical (c : cmapk) : bool := match c with CIdentity v | CTable v _ => v end.

(* the font objects *)
Record pfont := mkPF {
  pf_widths : nmap obj; pf_chars : list (list Z * num);   (* widths, by code and (built-in metrics) by character *)
  pf_default : obj;                                        (* default_width *)
  pf_umap : option umap;                                   (* unicode_map *)
  pf_enc : option umap;                                    (* cid2unicode; None: a CID font *)
  pf_cmap : option cmapk;                                  (* the CMap of a CID font *)
  pf_disps : nmap (obj * obj); pf_disp0 : obj;             (* disps; vy of default_disp *)
  pf_hscale : num; pf_vscale : num; pf_ascent : obj; pf_descent : obj; pf_bbox : list obj }.

Fixpoint tfind (l : list (list Z * num)) (t : list Z) : option num :=
  match l with [] => None | (t', w) :: r => if list_eqb t' t then Some w else tfind r t end.

(* PDFFont.py:119-129 and fonts.py:169-175 to_unichr: None is UnicodeNotDefined *)
Definition to_unichr (f : pfont) (cid : Z) : option (list Z) :=
  match (match pf_umap f with Some m => iget m cid | None => None end) with
  | Some t => Some t
  | None => match pf_enc f with Some e => iget e cid | None => None end
  end.
(* o * scale *)
Definition scaled (o : obj) (q : num) : res num := match num_of o with Some w => Ok (w * q)%Qc | None => Err TypeError end.
(* PDFFont.py:73-80 char_width *)
Definition char_width (f : pfont) (cid : Z) : res num :=
  match nget (pf_widths f) (qz cid) with
  | Some w => scaled w (pf_hscale f)
  | None =>
      match (match to_unichr f cid with Some t => tfind (pf_chars f) t | None => None end) with
      | Some w => Ok (w * pf_hscale f)%Qc
      | None => scaled (pf_default f) (pf_hscale f)
      end
  end.
(* PDFFont.py:47-48 and fonts.py:162-163 decode *)
Definition decode (f : pfont) (s : list Z) : res (list Z) :=
  match pf_cmap f with
  | None => Ok s
  | Some (CIdentity _) => identity_decode s
  | Some (CTable _ d) => Ok (cmap_decode d d s)
  end.
Definition is_vertical (f : pfont) : bool := match pf_cmap f with Some c => cmap_vertical c | None => false end.
(* fonts.py:165-167 char_disp of a vertical font: (vx, vy), vx None by default *)
Definition char_disp (f : pfont) (cid : Z) : option obj * obj :=
  match nget (pf_disps f) (qz cid) with Some (x, y) => (Some x, y) | None => (None, pf_disp0 f) end.
(* PDFFont.py:85-86 string_width *)
Definition string_width (f : pfont) (s : list Z) : res num :=
  do cs <- decode f s; fold_m (fun a c => do w <- char_width f c; Ok (a + w)%Qc) (qz 0) cs.

Section fonts.
  Context (getobj : Z -> option obj) (depth : nat).
  Context (glyphs : list Z -> option (list Z)) (bases : list umap)        (* glyphname2unicode; the four encodings of EncodingDB *)
          (metrics : list Z -> option (dict * list (list Z * num)))       (* FONT_METRICS *)
          (load_cmap : list Z -> option (bool * list (Z * trie)))         (* _load_data for CMaps: vertical, CODE2CID *)
          (load_umap : list Z -> bool -> option umap)                     (* _load_data('to-unicode-...') *)
          (get_data : obj -> res (list Z)) (bufsiz : nat).                (* PDFStream.get_data; the read buffer *)

  Definition num_value (o : obj) : res obj := do x <- resolved getobj depth o; Ok (match num_of x with Some _ => x | None => OInt 0 end).
  Definition stream_of (o : obj) : res obj :=
    do x <- resolved getobj depth o; Ok (match x with OStream _ _ => x | _ => OStream [] [] end).
  Definition get_or (d : dict) (k : string) (v : obj) : obj := match dget d k with Some x => x | None => v end.

  (* PDFFont.py:28-41 PDFFont.__init__: the attributes taken from the descriptor.  default_width or MissingWidth: a falsy
     default_width is not used *)
  Definition truthy_w (o : obj) : bool := match num_of o with Some q => negb (qeqb q (qz 0)) | None => truthy o end.
  Definition base_font (d : dict) (w : nmap obj) (cw : list (list Z * num)) (dw : option obj) (um enc : option umap) (cm : option cmapk)
      (disps : nmap (obj * obj)) (disp0 : obj) : res pfont :=
    do asc <- num_value (get_or d "Ascent" (OInt 0));
    do desc <- num_value (get_or d "Descent" (OInt 0));
    do mw <- num_value (get_or d "MissingWidth" (OInt 0));
    do bb <- list_value getobj depth (get_or d "FontBBox" (OArr [OInt 0; OInt 0; OInt 0; OInt 0]));
    let dflt := match dw with Some o => if truthy_w o then o else mw | None => mw end in
    Ok (mkPF w cw dflt um enc cm disps disp0 milli milli asc desc bb).

  (* PDFFont.py:98-115: the encoding and ToUnicode of a simple font *)
  Definition name_of (o : obj) : res (list Z) :=    (* literal_name used as a dictionary key: other objects are unknown names *)
    match o with OName n => Ok n | OArr _ | ODict _ => Err TypeError | _ => Ok (bs "StandardEncoding") end.
  Definition simple_encoding (spec : dict) : res umap :=
    do e <- resolved getobj depth (get_or spec "Encoding" (ON "StandardEncoding"));
    match e with
    | ODict d => do n <- name_of (get_or d "BaseEncoding" (ON "StandardEncoding"));
                 do diff <- list_value getobj depth (get_or d "Differences" (OArr []));
                 do (a, h) <- get_encoding glyphs bases n diff; Ok (nth a h [])
    | _ => do n <- name_of e; do (a, h) <- get_encoding glyphs bases n []; Ok (nth a h [])
    end.
  Definition to_unicode (spec : dict) : res (option umap) :=
    match dget spec "ToUnicode" with
    | None => Ok None
    | Some o => do st <- stream_of o; do data <- get_data st; do m <- cmap_run glyphs bufsiz data; Ok (Some m)
    end.
  Definition simple_font (d : dict) (w : nmap obj) (cw : list (list Z * num)) (spec : dict) : res pfont :=
    do enc <- simple_encoding spec; do um <- to_unicode spec; base_font d w cw None um (Some enc) None [] ONull.

  (* fonts.py:42-45: Widths from FirstChar on; 36-38 the built-in metrics come first *)
  Definition spec_widths (spec : dict) : res (nmap obj) :=
    do fc <- Stream_Model.int_value getobj depth (get_or spec "FirstChar" (OInt 0));
    do ws <- list_value getobj depth (get_or spec "Widths" (OArr (repeat (OInt 0) 256)));
    Ok (put_list [] (qz fc) ws).
  (* fonts.py:26-55 PDFType1Font; also PDFTrueTypeFont *)
  Definition type1_font (spec : dict) : res pfont :=
    do bf <- (match dget spec "BaseFont" with None => Ok (Some (bs "unknown")) | Some (OName n) => Ok (Some n)
              | Some (OArr _) | Some (ODict _) => Err TypeError | Some _ => Ok None end);
    do t <- (match (match bf with Some n => metrics n | None => None end) with
             | Some (d, cw) => Ok (d, [], cw)
             | None => do d <- dict_value getobj depth (get_or spec "FontDescriptor" (ODict []));
                       do w <- spec_widths spec; Ok (d, w, [])
             end);
    let '(d, w, cw) := t in
    do f <- simple_font d w cw spec;
    match dget spec "Encoding", dget d "FontFile" with
    | None, Some ff =>
        do st <- stream_of ff;
        do len <- (match st with OStream a _ => match dget a "Length1" with Some x => Stream_Model.int_value getobj depth x | None => Err KeyError end | _ => Err KeyError end);
        do data <- get_data st;
        do e <- header_encoding glyphs bufsiz (if 0 <=? len then firstn (Z.to_nat len) data else firstn (length data - Z.to_nat (- len)) data);
        Ok (mkPF (pf_widths f) (pf_chars f) (pf_default f) (pf_umap f) (Some e) (pf_cmap f) (pf_disps f) (pf_disp0 f)
                 (pf_hscale f) (pf_vscale f) (pf_ascent f) (pf_descent f) (pf_bbox f))
    | _, _ => Ok f
    end.
  (* fonts.py:70-88 PDFType3Font *)
  Definition type3_font (spec : dict) : res pfont :=
    do w <- spec_widths spec;
    do d <- (match dget spec "FontDescriptor" with
             | Some o => dict_value getobj depth o
             | None => match dget spec "FontBBox" with
                       | Some b => Ok [(ON "Ascent", OInt 0); (ON "Descent", OInt 0); (ON "FontBBox", b)]
                       | None => Err KeyError
                       end
             end);
    do f <- simple_font d w [] spec;
    do m <- list_value getobj depth (get_or spec "FontMatrix" ONull);
    match pf_bbox f with
    | [_; dsc; _; asc] =>
        match m with
        | [_; _; _; _; _; _] =>
            match nums m with
            | Some [a; b; c; d'; _; _] =>
                Ok (mkPF (pf_widths f) (pf_chars f) (pf_default f) (pf_umap f) (pf_enc f) (pf_cmap f) (pf_disps f) (pf_disp0 f)
                         (a + c)%Qc (b + d')%Qc asc dsc (pf_bbox f))
            | _ => Err TypeError
            end
        | _ => Err ValueError
        end
    | _ => Err ValueError
    end.

  (* cmapdb/__init__.py:243-253 CMapDB.get_cmap (the cache only saves work) *)
  Definition get_cmap (name : obj) : res cmapk :=
    match name with
    | OName n => if list_eqb n (bs "Identity-H") then Ok (CIdentity false)
                 else if list_eqb n (bs "Identity-V") then Ok (CIdentity true)
                 else match load_cmap (filter (fun c => negb (c =? 0)) n) with Some (v, d) => Ok (CTable v d) | None => Err CMapNotFound end
    | OArr _ | ODict _ | OStr _ => Err TypeError
    | _ => Err AttributeError
    end.
  Definition latin1 (o : obj) : res (list Z) := match o with OStr s => Ok s | _ => Err AttributeError end.
  (* fonts.py:131-136: the map made from an embedded TrueType program *)
  Definition program_map (ttf : option (list Z)) : res (option umap) :=
    match ttf with
    | None => Ok None
    | Some data => match create_unicode_map data with Ok m => Ok (Some m) | Err CMapNotFound => Ok None | Err e => Err e end
    end.
  (* fonts.py:97-155 PDFCIDFont *)
  Definition cid_font (spec : dict) : res pfont :=
    do info <- dict_value getobj depth (get_or spec "CIDSystemInfo" (ODict []));
    do reg <- resolved getobj depth (get_or info "Registry" (OStr (bs "unknown")));
    do ord <- resolved getobj depth (get_or info "Ordering" (OStr (bs "unknown")));
    do reg' <- latin1 reg; do ord' <- latin1 ord;
    let coding := reg' ++ [45] ++ ord' in
    do cm <- (match get_cmap (get_or spec "Encoding" (ON "unknown")) with Err CMapNotFound => Ok (CTable false []) | x => x end);
    do d <- dict_value getobj depth (get_or spec "FontDescriptor" (ODict []));
    do ttf <- (match dget d "FontFile2" with None => Ok None | Some ff => do st <- stream_of ff; do data <- get_data st; Ok (Some data) end);
    do um <- (match dget spec "ToUnicode" with
              | Some _ => to_unicode spec
              | None => if list_eqb coding (bs "Adobe-Identity") || list_eqb coding (bs "Adobe-UCS") then program_map ttf
                        else Ok (load_umap coding (cmap_vertical cm))
              end);
    if cmap_vertical cm then
      do seq <- list_value getobj depth (get_or spec "W2" (OArr []));
      do w2 <- get_widths2 seq;
      match get_or spec "DW2" (OArr [OInt 880; OInt (-1000)]) with
      | OArr [vy; w] => base_font d (map (fun e => (fst e, fst (snd e))) w2) [] (Some w) um None (Some cm)
                          (map (fun e => (fst e, snd (snd e))) w2) vy
      | OArr _ => Err ValueError
      | _ => Err TypeError
      end
    else
      do seq <- list_value getobj depth (get_or spec "W" (OArr []));
      do w <- get_widths seq;
      base_font d w [] (Some (get_or spec "DW" (OInt 1000))) um None (Some cm) [] ONull.

  (* PDFFont/__init__.py:13-55 get_font, building a font: fuel bounds the nesting of Type0 fonts *)
  Fixpoint make_font (fuel : nat) (spec : dict) : res pfont :=
    let is n := match get_or spec "Subtype" (ON "Type1") with OName s => list_eqb s (bs n) | _ => false end in
    if is "Type1"%string || is "MMType1"%string || is "TrueType"%string then type1_font spec
    else if is "Type3"%string then type3_font spec
    else if is "CIDFontType0"%string || is "CIDFontType2"%string then cid_font spec
    else if is "Type0"%string then
      match fuel with
      | O => Err RecursionError
      | S f =>
          match dget spec "DescendantFonts" with
          | None => Err KeyError
          | Some o =>
              do l <- list_value getobj depth o;
              match l with
              | [] => Err AssertionError
              | x :: _ =>
                  do sub <- dict_value getobj depth x;
                  do sub1 <- (match dget spec "Encoding" with Some e => do r <- resolved getobj depth e; Ok (dict_set sub (ON "Encoding") r) | None => Ok sub end);
                  do sub2 <- (match dget spec "ToUnicode" with Some e => do r <- resolved getobj depth e; Ok (dict_set sub1 (ON "ToUnicode") r) | None => Ok sub1 end);
                  make_font f sub2
              end
          end
      end
    else type1_font spec.

  (* get_font with the cache: objid is Some for a reference (utils.py:38-42); object number 0 is never cached *)
  Definition get_font (fuel : nat) (cache : imap pfont) (o : obj) : res (pfont * imap pfont) :=
    let objid := match o with ORef i => if i =? 0 then None else Some i | _ => None end in
    do spec <- dict_value getobj depth o;
    match (match objid with Some i => iget cache i | None => None end) with
    | Some f => Ok (f, cache)
    | None => do f <- make_font fuel spec; Ok (f, match objid with Some i => iput cache i f | None => cache end)
    end.
End fonts.

(* PDFFont.py:50-71: the measures the interpreter asks for *)
Definition pf_width (f : pfont) : res num :=
  match pf_bbox f with
  | x0 :: _ :: x1 :: _ =>
      match num_of x0, num_of x1 with
      | Some a, Some b => if qeqb (b - a)%Qc (qz 0) then do w <- scaled (pf_default f) (pf_hscale f); Ok (- w)%Qc else Ok ((b - a) * pf_hscale f)%Qc
      | _, _ => Err TypeError
      end
  | _ => Err IndexError
  end.
Definition pf_height (f : pfont) : res num :=
  match pf_bbox f with
  | _ :: y0 :: _ :: y1 :: _ =>
      match num_of y0, num_of y1, num_of (pf_ascent f), num_of (pf_descent f) with
      | Some a, Some b, Some asc, Some desc => if qeqb (b - a)%Qc (qz 0) then Ok ((asc - desc) * pf_vscale f)%Qc else Ok ((b - a) * pf_vscale f)%Qc
      | _, _, _, _ => Err TypeError
      end
  | _ => Err IndexError
  end.
(* The font as the interpreter (Interp_Model) sees it.  There widths and measures are numbers: a font whose dictionary has
   something else in their place, where Python would raise TypeError on use, is given 0 instead. *)
Definition or0 (r : res num) : num := match r with Ok v => v | Err _ => qz 0 end.
Definition num0 (o : obj) : num := match num_of o with Some v => v | None => qz 0 end.
Definition as_font (f : pfont) : font :=
  mkFont (decode f) (to_unichr f) (fun c => or0 (char_width f c))
    (fun c => let (x, y) := char_disp f c in (option_map num0 x, num0 y))
    (is_vertical f) (match pf_cmap f with Some _ => true | None => false end)
    (or0 (pf_width f)) (or0 (pf_height f)) (or0 (scaled (pf_descent f) (pf_vscale f))).
