(* What the content-stream operators are supposed to do (PDF Reference 1.7, chapters 4 and 5), stated on the tokens of a
   content stream, without the interpreter. *)
From Coq Require Import String.
From Verif Require Import Base Obj Num Geom_Model Interp_Model.
From Coq Require Import Qcanon.
Open Scope Z_scope.

(* Operators of Appendix A with their number of operands, those this interpreter has.  EI is what the content parser
   makes of an inline image (one operand, the image). *)
Definition operand_count : list (string * nat) :=
  [("q",0);("Q",0);("cm",6);("w",1);("J",1);("j",1);("M",1);("d",2);("ri",1);("i",1);("m",2);("l",2);("c",6);("v",4);
   ("y",4);("h",0);("re",4);("S",0);("s",0);("f",0);("F",0);("f*",0);("B",0);("B*",0);("b",0);("b*",0);("n",0);("CS",1);
   ("cs",1);("G",1);("g",1);("RG",3);("rg",3);("K",4);("k",4);("BT",0);("ET",0);("Tc",1);("Tw",1);("Tz",1);("TL",1);
   ("Tf",2);("Tr",1);("Ts",1);("Td",2);("TD",2);("Tm",6);("T*",0);("TJ",1);("Tj",1);("'",1);("""",3);("Do",1);("EI",1)]%string%nat.
(* the colour operators whose number of operands is that of the colour space *)
Definition space_operators : list string := ["SC"; "SCN"; "sc"; "scn"]%string.
Definition known (k : list Z) : Prop :=
  (exists n, In n (map fst operand_count) /\ k = bs n) \/ (exists n, In n space_operators /\ k = bs n).

(* q and Q match *)
Inductive balanced : list obj -> Prop :=
| bal_nil : balanced []
| bal_tok o l : o <> OK "q" -> o <> OK "Q" -> balanced l -> balanced (o :: l)
| bal_nest l1 l2 : balanced l1 -> balanced l2 -> balanced (OK "q" :: l1 ++ OK "Q" :: l2).

(* text-showing operators *)
Definition shows (o : obj) : Prop := o = OK "Tj" \/ o = OK "TJ" \/ o = OK "'" \/ o = OK """".
Definition among (o : obj) (names : list string) : Prop := exists n, In n names /\ o = OK n.
(* the structure of Figure 4.1: text is shown in text objects only, which contain no q or Q *)
Inductive page_level : list obj -> Prop :=
| pl_nil : page_level []
| pl_tok o l : ~ among o ["q"; "Q"; "BT"; "ET"; "Tj"; "TJ"; "'"; """"]%string -> page_level l -> page_level (o :: l)
| pl_save l1 l2 : page_level l1 -> page_level l2 -> page_level (OK "q" :: l1 ++ OK "Q" :: l2)
| pl_text l1 l2 : Forall (fun o => ~ among o ["q"; "Q"; "BT"; "ET"]%string) l1 -> page_level l2 ->
    page_level (OK "BT" :: l1 ++ OK "ET" :: l2).

(* text lines.  Lines L l (dx, dy) L': with the leading L, the tokens l move the start of the line by dx, dy (in the text
   space of the first line) and leave the leading L'. *)
Definition N_ (o : obj) (v : num) : Prop := num_of o = Some v.
Definition line_words : list string := ["Td"; "TD"; "TL"; "T*"; "'"; "Tm"; "BT"; "Q"; "T_a"; "_q"]%string.
Inductive Lines : num -> list obj -> point -> num -> Prop :=
| li_nil L : Lines L [] (qz 0, qz 0) L
| li_tok L o l d L' : ~ among o line_words -> Lines L l d L' -> Lines L (o :: l) d L'
| li_Td L x y a b l dx dy L' : N_ x a -> N_ y b -> Lines L l (dx, dy) L' -> Lines L ([x; y; OK "Td"] ++ l) (a + dx, b + dy)%Qc L'
| li_TD L x y a b l dx dy L' : N_ x a -> N_ y b -> Lines (- b)%Qc l (dx, dy) L' -> Lines L ([x; y; OK "TD"] ++ l) (a + dx, b + dy)%Qc L'
| li_TL L x a l d L' : N_ x a -> Lines a l d L' -> Lines L ([x; OK "TL"] ++ l) d L'
| li_next L l dx dy L' : Lines L l (dx, dy) L' -> Lines L (OK "T*" :: l) (dx, - L + dy)%Qc L'
| li_quote L o l dx dy L' : (forall k, o <> OKwd k) -> Lines L l (dx, dy) L' -> Lines L ([o; OK "'"] ++ l) (dx, - L + dy)%Qc L'.

(* path construction and painting.  Paints p l out p': starting with the segments p, the tokens l paint the paths out
   (with their even-odd flag) and leave the segments p'. *)
Definition path_words : list string :=
  ["m"; "l"; "c"; "v"; "y"; "h"; "re"; "S"; "f"; "F"; "B"; "f*"; "B*"; "s"; "b"; "b*"; "n"]%string.
(* operators that produce other page items *)
Definition item_words : list string := ["ET"; "EI"; "Do"]%string.
Inductive Paints : list seg -> list obj -> list (list seg * bool) -> list seg -> Prop :=
| pa_nil p : Paints p [] [] p
| pa_tok p o l out p' : ~ among o (path_words ++ item_words ++ ["f_a"; "B_a"; "b_a"]%string) -> Paints p l out p' -> Paints p (o :: l) out p'
| pa_m p x y a b l out p' : N_ x a -> N_ y b -> Paints (p ++ [SMove (a, b)]) l out p' -> Paints p ([x; y; OK "m"] ++ l) out p'
| pa_l p x y a b l out p' : N_ x a -> N_ y b -> Paints (p ++ [SLine (a, b)]) l out p' -> Paints p ([x; y; OK "l"] ++ l) out p'
| pa_c p x1 y1 x2 y2 x3 y3 a1 b1 a2 b2 a3 b3 l out p' :
    N_ x1 a1 -> N_ y1 b1 -> N_ x2 a2 -> N_ y2 b2 -> N_ x3 a3 -> N_ y3 b3 ->
    Paints (p ++ [SBoth (a1, b1) (a2, b2) (a3, b3)]) l out p' -> Paints p ([x1; y1; x2; y2; x3; y3; OK "c"] ++ l) out p'
| pa_v p x2 y2 x3 y3 a2 b2 a3 b3 l out p' : N_ x2 a2 -> N_ y2 b2 -> N_ x3 a3 -> N_ y3 b3 ->
    Paints (p ++ [SNext (a2, b2) (a3, b3)]) l out p' -> Paints p ([x2; y2; x3; y3; OK "v"] ++ l) out p'
| pa_y p x1 y1 x3 y3 a1 b1 a3 b3 l out p' : N_ x1 a1 -> N_ y1 b1 -> N_ x3 a3 -> N_ y3 b3 ->
    Paints (p ++ [SFirst (a1, b1) (a3, b3)]) l out p' -> Paints p ([x1; y1; x3; y3; OK "y"] ++ l) out p'
| pa_h p l out p' : Paints (p ++ [SClose]) l out p' -> Paints p (OK "h" :: l) out p'
| pa_re p x y w h a b c d l out p' : N_ x a -> N_ y b -> N_ w c -> N_ h d ->
    Paints (p ++ [SMove (a, b); SLine (a + c, b)%Qc; SLine (a + c, b + d)%Qc; SLine (a, b + d)%Qc; SClose]) l out p' ->
    Paints p ([x; y; w; h; OK "re"] ++ l) out p'
| pa_paint p k l out p' : In k ["S"; "f"; "F"; "B"]%string -> Paints [] l out p' -> Paints p (OK k :: l) ((p, false) :: out) p'
| pa_paint_eo p k l out p' : In k ["f*"; "B*"]%string -> Paints [] l out p' -> Paints p (OK k :: l) ((p, true) :: out) p'
| pa_close p k l out p' : In k ["s"; "b"]%string -> Paints [] l out p' -> Paints p (OK k :: l) ((p ++ [SClose], false) :: out) p'
| pa_close_eo p l out p' : Paints [] l out p' -> Paints p (OK "b*" :: l) ((p ++ [SClose], true) :: out) p'
| pa_n p l out p' : Paints [] l out p' -> Paints p (OK "n" :: l) out p'.

(* a closed quadrilateral m l l l h whose image under m is not an axis-parallel rectangle drawn in order *)
Definition skew_quad (m : matrix) (p : list seg) : Prop :=
  exists p0 p1 p2 p3, p = [SMove p0; SLine p1; SLine p2; SLine p3; SClose] /\
    let P := apply_matrix_pt m in
    ~ (fst (P p0) = fst (P p1) /\ snd (P p1) = snd (P p2) /\ fst (P p2) = fst (P p3) /\ snd (P p3) = snd (P p0)) /\
    ~ (snd (P p0) = snd (P p1) /\ fst (P p1) = fst (P p2) /\ snd (P p2) = snd (P p3) /\ fst (P p3) = fst (P p0)).
(* the page item shows the path *)
Definition is_painted (i : item) (p : list seg * bool) : Prop :=
  exists k w box stroke fill, i = ICurve k w (fst p) box stroke fill (snd p).

(* ---- showing text (section 5.3.3): a sequence of adjustments and characters ---- *)
Inductive tj := Adj (v : num) | Chr (cid : Z).
Section advance.
  Context (width : Z -> num) (size tc tw th : num).  (* glyph width /1000, Tfs, Tc, Tw (0 for multi-byte fonts), Th *)
  Definition spec_disp (x : tj) : num :=
    match x with
    | Adj v => (- (v * milli) * size * th)%Qc
    | Chr c => ((width c * size + tc + (if c =? 32 then tw else qz 0)) * th)%Qc
    end.
  (* displacement after the sequence, and the displacement at which each character is shown *)
  Definition spec_total (l : list tj) : num := fold_right (fun x a => (spec_disp x + a)%Qc) (qz 0) l.
  Fixpoint spec_places (x : num) (l : list tj) : list (Z * num) :=
    match l with
    | [] => []
    | Adj v :: r => spec_places (x + spec_disp (Adj v))%Qc r
    | Chr c :: r => (c, x) :: spec_places (x + spec_disp (Chr c))%Qc r
    end.
End advance.
(* the sequence an array operand of TJ stands for, given the decoding of strings into characters *)
Inductive tj_seq (decode : list Z -> res (list Z)) : list obj -> list tj -> Prop :=
| tj_nil : tj_seq decode [] []
| tj_num o v l r : num_of o = Some v -> tj_seq decode l r -> tj_seq decode (o :: l) (Adj v :: r)
| tj_str b cids l r : decode b = Ok cids -> tj_seq decode l r -> tj_seq decode (OStr b :: l) (map Chr cids ++ r).
(* section 5.3.3: the text rendering matrix when the text position is pos from the start of the line *)
Definition text_rendering_matrix (size th rise : num) (pos : point) (tm ctm : matrix) : matrix :=
  mult_matrix (size * th, qz 0, qz 0, size, qz 0, rise)%Qc (mult_matrix (qz 1, qz 0, qz 0, qz 1, fst pos, snd pos) (mult_matrix tm ctm)).
(* the box with the images of two opposite corners *)
Definition corner_box (m : matrix) (p q : point) : bbox :=
  Bbox (fst (apply_matrix_pt m p)) (snd (apply_matrix_pt m p)) (fst (apply_matrix_pt m q)) (snd (apply_matrix_pt m q)).
