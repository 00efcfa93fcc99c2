(* The measures of a font (ISO 32000-1, 9.2.4, 9.6.2, 9.7.4, 9.8): the advance width of each code, the height of a line and how far it
   goes below the baseline, in units of text space.  Independent of the code. *)
From Coq Require Import String.
From Verif Require Import Base Obj Stream_Spec Num Interp_Model CMap_Model CMap_Spec Font_Model Font_Spec Font_Props FontTotal_Spec.
(* of the models only types; of Font_Props only the definitions that FontTotal_Spec uses *)
From Coq Require Import Qcanon.
Open Scope Z_scope.

Section measures.
  Context (getobj : Z -> option obj).
  Context (glyphs : list Z -> option (list Z)) (bases : list umap)
          (metrics : list Z -> option (list (obj * obj) * list (list Z * num)))
          (load_cmap : list Z -> option (bool * list (Z * trie))) (load_umap : list Z -> bool -> option umap)
          (data : obj -> list Z -> Prop).
  Definition thousandth : num := (qz 1 / qz 1000)%Qc.
  (* a number in a dictionary; 0 if it is not given *)
  Definition Figure (d : list (obj * obj)) (k : string) (q : num) : Prop := exists o, Value getobj d k (OInt 0) o /\ Number o q.
  (* the four sides of FontBBox; 0 if it is not given *)
  Definition FontBox (d : list (obj * obj)) (x0 y0 x1 y1 : num) : Prop :=
    exists l, Value getobj d "FontBBox" (OArr [OInt 0; OInt 0; OInt 0; OInt 0]) (OArr l) /\ Forall2 Number l [x0; y0; x1; y1].
  (* Line d below tall: a line starts at below, the Descent of the descriptor, and is as tall as FontBBox; if that has no height, as Ascent
     above Descent *)
  Inductive Line (d : list (obj * obj)) : num -> num -> Prop :=
  | Li_box : forall asc desc x0 y0 x1 y1, Figure d "Ascent" asc -> Figure d "Descent" desc -> FontBox d x0 y0 x1 y1 -> y1 <> y0 -> Line d desc (y1 - y0)%Qc
  | Li_flat : forall asc desc x0 y x1, Figure d "Ascent" asc -> Figure d "Descent" desc -> FontBox d x0 y x1 y -> Line d desc (asc - desc)%Qc.
  (* WidthsFrom spec mw c w: the code c has the width w in Widths, which starts at FirstChar; other codes have the width mw *)
  Definition WidthsFrom (spec : list (obj * obj)) (mw : num) (w : Z -> num) : Prop :=
    exists fc ws qs, Value getobj spec "FirstChar" (OInt 0) (OInt fc) /\ Value getobj spec "Widths" (OArr (repeat (OInt 0) 256)) (OArr ws) /\ Forall2 Number ws qs /\
      forall c, (exists i q, nth_error qs i = Some q /\ c = fc + Z.of_nat i /\ w c = q) \/ ((c < fc \/ fc + Z.of_nat (length qs) <= c) /\ w c = mw).
  (* Measures spec texts composite w below tall: the font, written horizontally, whose codes have these texts, is or is not composite, has
     these widths and lines *)
  Inductive Measures : list (obj * obj) -> (Z -> option (list Z)) -> bool -> (Z -> num) -> num -> num -> Prop :=
  (* one of the standard 14 fonts: the width of a character is known by its text *)
  | Me_standard : forall spec texts n d cw mw w w' below tall, simple_type spec -> BaseName spec n -> metrics n = Some (d, cw) -> NoDup (map fst cw) ->
      Figure d "MissingWidth" mw -> Line d below tall ->
      (forall c, (exists t, texts c = Some t /\ In (t, w' c) cw) \/ ((forall t, texts c = Some t -> ~ In t (map fst cw)) /\ w' c = mw)) ->
      (forall c, w c = w' c * thousandth)%Qc -> Measures spec texts false w (below * thousandth)%Qc (tall * thousandth)%Qc
  | Me_simple : forall spec texts n d mw w w' below tall, simple_type spec -> BaseName spec n -> metrics n = None ->
      Value getobj spec "FontDescriptor" (ODict []) (ODict d) -> Figure d "MissingWidth" mw -> Line d below tall -> WidthsFrom spec mw w' ->
      (forall c, w c = w' c * thousandth)%Qc -> Measures spec texts false w (below * thousandth)%Qc (tall * thousandth)%Qc
  (* a Type 3 font whose FontMatrix only scales: its lines are as tall as FontBBox *)
  | Me_type3 : forall spec texts d m a s e g mw w w' x0 y0 x1 y1, dget spec "Subtype" = Some (ON "Type3") ->
      ((exists o, dget spec "FontDescriptor" = Some o /\ Leads getobj ONull o (ODict d)) \/
       (dget spec "FontDescriptor" = None /\ exists b, dget spec "FontBBox" = Some b /\ d = [(ON "Ascent", OInt 0); (ON "Descent", OInt 0); (ON "FontBBox", b)])) ->
      FontBox d x0 y0 x1 y1 -> Value getobj spec "FontMatrix" ONull (OArr m) -> Forall2 Number m [a; qz 0; qz 0; s; e; g] ->
      Figure d "MissingWidth" mw -> WidthsFrom spec mw w' ->
      (forall c, w c = w' c * a)%Qc -> Measures spec texts false w (y0 * s)%Qc ((y1 - y0) * s)%Qc
  (* a CID font: W, and DW for the others *)
  | Me_cid : forall spec texts n codes d ws decl dw w below tall, subtype spec CID -> dget spec "Encoding" = Some (OName n) -> CMapOf load_cmap n false codes ->
      Value getobj spec "FontDescriptor" (ODict []) (ODict d) -> Line d below tall ->
      Value getobj spec "W" (OArr []) (OArr ws) -> Entries WEntry ws decl ->
      (dget spec "DW" = None /\ dw = qz 1000 \/ exists o, dget spec "DW" = Some o /\ Number o dw /\ dw <> qz 0) ->
      (forall c, w c = match last_for decl c with Some q => q | None => dw end * thousandth)%Qc ->
      Measures spec texts true w (below * thousandth)%Qc (tall * thousandth)%Qc
  | Me_type0 : forall spec texts x l sub sub' composite w below tall, dget spec "Subtype" = Some (ON "Type0") ->
      Value getobj spec "DescendantFonts" ONull (OArr (x :: l)) -> Leads getobj ONull x (ODict sub) -> merged getobj spec sub sub' ->
      Measures sub' texts composite w below tall -> Measures spec texts composite w below tall.
  (* the font a font object stands for, with its measures *)
  Definition FontMeasured (o : obj) (f : font) : Prop := exists spec codes texts composite w below tall, Leads getobj ONull o (ODict spec) /\
    FontReads getobj glyphs bases metrics load_cmap load_umap data spec codes texts /\ Measures spec texts composite w below tall /\
    (forall s cids, f_decode f s = Ok cids -> codes s cids) /\ (forall c, f_unichr f c = texts c) /\ (forall c, f_width f c = w c) /\
    f_vertical f = false /\ f_multibyte f = composite /\ f_descent f = below /\ f_height f = tall.
End measures.
