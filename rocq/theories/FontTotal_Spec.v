(* Well-formed font dictionaries (ISO 32000-1, 9.6-9.8, 9.10), and how strings shown in such a font are read: the codes a string
   is cut into, and the text of each code.  Independent of the code. *)
From Coq Require Import String.
From Verif Require Import Base Lex_Spec Obj Stack_Spec Stream_Spec Num Interp_Model CMap_Model CMap_Spec CMap_Proofs Font_Model Font_Spec Font_Props Total_Spec.
(* of the models only types (numbers, encodings as lists, code trees); of Font_Props only the definitions simple_type (the Subtype is
   that of a simple font), CID (the Subtypes of CID fonts), EncodingOf (what an Encoding entry means) and merged (a CID font with
   the entries it gets from the Type0 font) *)
Open Scope Z_scope.

Section fonts.
  Context (getobj : Z -> option obj).
  Context (glyphs : list Z -> option (list Z)) (bases : list umap)      (* the glyph list; the base encodings *)
          (metrics : list Z -> option (list (obj * obj) * list (list Z * num)))  (* the standard fonts: descriptor and widths *)
          (load_cmap : list Z -> option (bool * list (Z * trie)))       (* the predefined CMaps: vertical, code tree *)
          (load_umap : list Z -> bool -> option umap)                    (* the texts of the characters of a collection *)
          (data : obj -> list Z -> Prop).                                (* the data of a stream after decoding *)
  (* references in the entry k end *)
  Definition EndsAt (d : list (obj * obj)) (k : string) : Prop := forall o, dget d k = Some o -> exists v, Leads getobj ONull o v.
  (* a descriptor: the entries that are looked at *)
  Definition Sound (d : list (obj * obj)) : Prop := Forall (EndsAt d) ["Ascent"; "Descent"; "MissingWidth"; "FontBBox"]%string.
  (* an embedded TrueType program, if there is one, can be decoded (whatever it says) *)
  Definition ProgramRead (d : list (obj * obj)) : Prop := forall ff, dget d "FontFile2" = Some ff ->
    exists a r text, Leads getobj ONull ff (OStream a r) /\ data (OStream a r) text.
  (* the texts assigned by the ToUnicode CMap; none if there is no such CMap *)
  Inductive UnicodeOf (spec : list (obj * obj)) : list (Z * list Z) -> Prop :=
  | UO_none : dget spec "ToUnicode" = None -> UnicodeOf spec []
  | UO_stream : forall o a r text exact ts asg, dget spec "ToUnicode" = Some o -> Leads getobj ONull o (OStream a r) ->
      data (OStream a r) text -> Layout exact 0 ts text -> Program [] (map snd ts) asg -> UnicodeOf spec asg.
  Definition BaseName (spec : list (obj * obj)) (n : list Z) : Prop :=
    dget spec "BaseFont" = Some (OName n) \/ dget spec "BaseFont" = None /\ n = bs "unknown".
  (* the encoding of a simple font with descriptor d: its Encoding entry; without one the standard encoding, but if a Type 1 font
     program is embedded, what its clear text says *)
  Inductive CodesOf (spec d : list (obj * obj)) : (Z -> option (list Z)) -> Prop :=
  | CO_entry : forall e, dget spec "Encoding" <> None \/ dget d "FontFile" = None -> EncodingOf getobj glyphs bases spec e -> CodesOf spec d e
  | CO_program : forall ff a r l1 n text exact ts asg l, dget spec "Encoding" = None -> dget d "FontFile" = Some ff ->
      Leads getobj ONull ff (OStream a r) -> dget a "Length1" = Some l1 -> Leads getobj ONull l1 (OInt (Z.of_nat n)) ->
      data (OStream a r) text -> Layout exact 0 ts (firstn n text) -> Header [] [] (map snd ts) asg -> Texts glyphs asg l ->
      CodesOf spec d (last_for l).

  (* the codes of a string in a simple font are its bytes; in a composite font its CMap says how it is cut into codes *)
  Definition one_byte (s cids : list Z) : Prop := s = cids.
  Definition two_bytes (s cids : list Z) : Prop := s = flat_map (be 2) cids /\ Forall (fun c => 0 <= c < 65536) cids.
  (* CMapOf n vertical codes: the CMap called n, and whether it writes vertically *)
  Inductive CMapOf : list Z -> bool -> (list Z -> list Z -> Prop) -> Prop :=
  | CM_h : CMapOf (bs "Identity-H") false two_bytes
  | CM_v : CMapOf (bs "Identity-V") true two_bytes
  | CM_table : forall n v m root, n <> bs "Identity-H" -> n <> bs "Identity-V" -> Forall (fun c => c <> 0) n -> load_cmap n = Some (v, root) ->
      prefix_free m -> add_codes [] m = Ok root -> CMapOf n v (Seg m).
  (* the character collection *)
  Definition Collection (spec : list (obj * obj)) (c : list Z) : Prop :=
    exists info r o, Value getobj spec "CIDSystemInfo" (ODict []) (ODict info) /\ Value getobj info "Registry" (OStr (bs "unknown")) (OStr r) /\
      Value getobj info "Ordering" (OStr (bs "unknown")) (OStr o) /\ c = r ++ bs "-" ++ o.
  (* the texts of the CIDs: the ToUnicode CMap, or else what is known of the collection *)
  Inductive CidTexts (spec : list (obj * obj)) (v : bool) (c : list Z) : (Z -> option (list Z)) -> Prop :=
  | CT_map : forall asg, dget spec "ToUnicode" <> None -> UnicodeOf spec asg -> CidTexts spec v c (last_for asg)
  | CT_collection : dget spec "ToUnicode" = None -> c <> bs "Adobe-Identity" -> c <> bs "Adobe-UCS" ->
      CidTexts spec v c (fun k => match load_umap c v with Some m => iget m k | None => None end)
  | CT_none : dget spec "ToUnicode" = None -> c = bs "Adobe-Identity" \/ c = bs "Adobe-UCS" -> CidTexts spec v c (fun _ => None).

  (* FontReads spec codes texts: the font dictionary spec is well formed; codes s cids: the string s is cut into the codes cids;
     texts: the text of each code *)
  Inductive FontReads : list (obj * obj) -> (list Z -> list Z -> Prop) -> (Z -> option (list Z)) -> Prop :=
  (* one of the standard 14 fonts *)
  | FR_standard : forall spec n d cw asg e, simple_type spec -> BaseName spec n -> metrics n = Some (d, cw) -> Sound d ->
      UnicodeOf spec asg -> CodesOf spec d e -> FontReads spec one_byte (fun c => match last_for asg c with Some t => Some t | None => e c end)
  (* any other simple font *)
  | FR_simple : forall spec n d asg e, simple_type spec -> BaseName spec n -> metrics n = None ->
      Value getobj spec "FontDescriptor" (ODict []) (ODict d) -> Sound d -> EndsAt spec "FirstChar" -> EndsAt spec "Widths" ->
      UnicodeOf spec asg -> CodesOf spec d e -> FontReads spec one_byte (fun c => match last_for asg c with Some t => Some t | None => e c end)
  (* a Type 3 font *)
  | FR_type3 : forall spec d bb m asg e, dget spec "Subtype" = Some (ON "Type3") ->
      ((dget spec "FontDescriptor" <> None /\ Value getobj spec "FontDescriptor" ONull (ODict d)) \/
       (dget spec "FontDescriptor" = None /\ exists b, dget spec "FontBBox" = Some b /\ d = [(ON "Ascent", OInt 0); (ON "Descent", OInt 0); (ON "FontBBox", b)])) ->
      Sound d -> Value getobj d "FontBBox" (OArr [OInt 0; OInt 0; OInt 0; OInt 0]) (OArr bb) -> length bb = 4%nat ->
      Value getobj spec "FontMatrix" ONull (OArr m) -> numbers 6 m -> EndsAt spec "FirstChar" -> EndsAt spec "Widths" ->
      UnicodeOf spec asg -> EncodingOf getobj glyphs bases spec e -> FontReads spec one_byte (fun c => match last_for asg c with Some t => Some t | None => e c end)
  (* a CID font *)
  | FR_cid : forall spec n v codes c d texts, subtype spec CID -> dget spec "Encoding" = Some (OName n) -> CMapOf n v codes -> Collection spec c ->
      Value getobj spec "FontDescriptor" (ODict []) (ODict d) -> Sound d -> ProgramRead d ->
      (v = false -> exists w decl, Value getobj spec "W" (OArr []) (OArr w) /\ Entries WEntry w decl) ->
      (v = true -> (exists w decl, Value getobj spec "W2" (OArr []) (OArr w) /\ Entries W2Entry w decl) /\
                   (forall o, dget spec "DW2" = Some o -> exists a b, o = OArr [a; b])) ->
      CidTexts spec v c texts -> FontReads spec codes texts
  (* a Type0 font *)
  | FR_type0 : forall spec x l sub sub' codes texts, dget spec "Subtype" = Some (ON "Type0") ->
      Value getobj spec "DescendantFonts" ONull (OArr (x :: l)) -> Leads getobj ONull x (ODict sub) -> merged getobj spec sub sub' ->
      FontReads sub' codes texts -> FontReads spec codes texts.
  (* the font a font object stands for: how a font reads strings, as the interpreter's fonts do *)
  Definition FontAt (o : obj) (f : font) : Prop := exists spec codes texts, Leads getobj ONull o (ODict spec) /\ FontReads spec codes texts /\
    (forall s cids, f_decode f s = Ok cids -> codes s cids) /\ (forall c, f_unichr f c = texts c).
End fonts.
