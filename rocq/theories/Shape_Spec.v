(* What a page draws besides text, and where (PDF Reference 1.7, sections 4.2 to 4.5, 4.8): the transformation, the line width, the
   colours and the current path followed through the content, independent of the interpreter. *)
From Coq Require Import String.
From Verif Require Import Base Obj Num Geom_Model Interp_Model Interp_Spec State_Spec.   (* of the models only types, and rounding *)
From Coq Require Import Qcanon.
Open Scope Z_scope.
Import ListNotations.

(* b is the least box around these points *)
Definition inside (b : bbox) (p : num * num) : Prop := (bx0 b <= fst p <= bx1 b /\ by0 b <= snd p <= by1 b)%Qc.
Definition Hull (b : bbox) (pts : list (num * num)) : Prop :=
  (forall p, In p pts -> inside b p) /\
  forall c, (forall p, In p pts -> inside c p) -> (bx0 c <= bx0 b /\ by0 c <= by0 b /\ bx1 b <= bx1 c /\ by1 b <= by1 c)%Qc.
(* colours of the device spaces; RGB components are kept as numbers from 0 to 255 *)
Definition gray (v : obj) : color := mkColor (Some (mkCs (ON "DeviceGray") (OInt 1))) [v].
Definition rgb (r g b : num) : color := mkColor (Some (mkCs (ON "DeviceRGB") (OInt 3))) [OInt (qround (r * qz 255)%Qc); OInt (qround (g * qz 255)%Qc); OInt (qround (b * qz 255)%Qc)].
Definition cmyk (c m y k : obj) : color := mkColor (Some (mkCs (ON "DeviceCMYK") (OInt 4))) [c; m; y; k].
(* what has been set so far *)
Record pen := mkPen { pen_stroke : option color; pen_fill : option color; pen_width : option obj }.
Definition pen0 : pen := mkPen None None None.
Inductive drawn :=
| DPath (segs : list seg) (evenodd : bool) (T : list coefs) (G : pen)     (* a path that is painted *)
| DImage (image : obj) (T : list coefs).                                   (* an image in the unit square *)
Definition no_kwd (o : obj) : Prop := forall k, o <> OKwd k.
Definition shape_words : list string :=
  ["q"; "Q"; "cm"; "w"; "G"; "g"; "RG"; "rg"; "K"; "k"; "SC"; "SCN"; "sc"; "scn"; "EI"; "Do"; "f_a"; "B_a"; "b_a"]%string ++ path_words.
Section shapes.
  Context (base : num * num -> num * num).                 (* from the initial user space to the page *)
  Context (images : list Z -> option obj) (others : list Z -> Prop).   (* the external objects of the page that are images, and others *)
  Definition at_ (T : list coefs) (p : num * num) : num * num := base (through T p).
  (* a closed quadrilateral that is not a rectangle with sides along the axes of the page *)
  Definition slanted (T : list coefs) (segs : list seg) : Prop :=
    exists p0 p1 p2 p3, segs = [SMove p0; SLine p1; SLine p2; SLine p3; SClose] /\
      ~ (fst (at_ T p0) = fst (at_ T p1) /\ snd (at_ T p1) = snd (at_ T p2) /\ fst (at_ T p2) = fst (at_ T p3) /\ snd (at_ T p3) = snd (at_ T p0)) /\
      ~ (snd (at_ T p0) = snd (at_ T p1) /\ fst (at_ T p1) = fst (at_ T p2) /\ snd (at_ T p2) = snd (at_ T p3) /\ fst (at_ T p3) = fst (at_ T p0)).
  Definition unit_square : list (num * num) := [(qz 0, qz 0); (qz 1, qz 0); (qz 0, qz 1); (qz 1, qz 1)].
  Definition moderate (T : list coefs) : Prop := forall p, In p unit_square -> inside (mkBox (- INF)%Qc (- INF)%Qc INF INF) (at_ T p).

  (* Shapes T G S p l out: with the transformations T, the pen G, what q has saved and the path p begun, the tokens l draw out.
     A path is not begun before q, Q or cm; the pen at Q is the one at q. *)
  Inductive Shapes : list coefs -> pen -> list (list coefs * pen) -> list seg -> list obj -> list drawn -> Prop :=
  | sh_nil T G S p : Shapes T G S p [] []
  | sh_tok T G S p o l out : ~ among o shape_words -> Shapes T G S p l out -> Shapes T G S p (o :: l) out
  | sh_cm T G S xs a b c d e f l out : Forall2 N_ xs [a; b; c; d; e; f] -> Shapes ((a, b, c, d, e, f) :: T) G S [] l out -> Shapes T G S [] (xs ++ OK "cm" :: l) out
  | sh_q T G S l out : Shapes T G ((T, G) :: S) [] l out -> Shapes T G S [] (OK "q" :: l) out
  | sh_Q T G T1 S l out : Shapes T1 G S [] l out -> Shapes T G ((T1, G) :: S) [] (OK "Q" :: l) out
  | sh_w T G S p x l out : no_kwd x -> Shapes T (mkPen (pen_stroke G) (pen_fill G) (Some x)) S p l out -> Shapes T G S p ([x] ++ OK "w" :: l) out
  | sh_G T G S p x l out : no_kwd x -> Shapes T (mkPen (Some (gray x)) (pen_fill G) (pen_width G)) S p l out -> Shapes T G S p ([x] ++ OK "G" :: l) out
  | sh_g T G S p x l out : no_kwd x -> Shapes T (mkPen (pen_stroke G) (Some (gray x)) (pen_width G)) S p l out -> Shapes T G S p ([x] ++ OK "g" :: l) out
  | sh_RG T G S p x y z r g b l out : Forall2 N_ [x; y; z] [r; g; b] -> Shapes T (mkPen (Some (rgb r g b)) (pen_fill G) (pen_width G)) S p l out ->
      Shapes T G S p ([x; y; z] ++ OK "RG" :: l) out
  | sh_rg T G S p x y z r g b l out : Forall2 N_ [x; y; z] [r; g; b] -> Shapes T (mkPen (pen_stroke G) (Some (rgb r g b)) (pen_width G)) S p l out ->
      Shapes T G S p ([x; y; z] ++ OK "rg" :: l) out
  | sh_K T G S p c m y k l out : Forall no_kwd [c; m; y; k] -> Shapes T (mkPen (Some (cmyk c m y k)) (pen_fill G) (pen_width G)) S p l out ->
      Shapes T G S p ([c; m; y; k] ++ OK "K" :: l) out
  | sh_m T G S p x y a b l out : Forall2 N_ [x; y] [a; b] -> Shapes T G S (p ++ [SMove (a, b)]) l out -> Shapes T G S p ([x; y] ++ OK "m" :: l) out
  | sh_l T G S p x y a b l out : Forall2 N_ [x; y] [a; b] -> Shapes T G S (p ++ [SLine (a, b)]) l out -> Shapes T G S p ([x; y] ++ OK "l" :: l) out
  | sh_c T G S p xs a1 b1 a2 b2 a3 b3 l out : Forall2 N_ xs [a1; b1; a2; b2; a3; b3] ->
      Shapes T G S (p ++ [SBoth (a1, b1) (a2, b2) (a3, b3)]) l out -> Shapes T G S p (xs ++ OK "c" :: l) out
  | sh_v T G S p xs a2 b2 a3 b3 l out : Forall2 N_ xs [a2; b2; a3; b3] -> Shapes T G S (p ++ [SNext (a2, b2) (a3, b3)]) l out -> Shapes T G S p (xs ++ OK "v" :: l) out
  | sh_y T G S p xs a1 b1 a3 b3 l out : Forall2 N_ xs [a1; b1; a3; b3] -> Shapes T G S (p ++ [SFirst (a1, b1) (a3, b3)]) l out -> Shapes T G S p (xs ++ OK "y" :: l) out
  | sh_h T G S p l out : Shapes T G S (p ++ [SClose]) l out -> Shapes T G S p (OK "h" :: l) out
  | sh_re T G S p xs a b c d l out : Forall2 N_ xs [a; b; c; d] ->
      Shapes T G S (p ++ [SMove (a, b); SLine (a + c, b)%Qc; SLine (a + c, b + d)%Qc; SLine (a, b + d)%Qc; SClose]) l out -> Shapes T G S p (xs ++ OK "re" :: l) out
  | sh_paint T G S p k l out : In k ["S"; "f"; "F"; "B"]%string -> ~ slanted T p -> Shapes T G S [] l out -> Shapes T G S p (OK k :: l) (DPath p false T G :: out)
  | sh_paint_eo T G S p k l out : In k ["f*"; "B*"]%string -> ~ slanted T p -> Shapes T G S [] l out -> Shapes T G S p (OK k :: l) (DPath p true T G :: out)
  | sh_close T G S p k l out : In k ["s"; "b"]%string -> ~ slanted T (p ++ [SClose]) -> Shapes T G S [] l out ->
      Shapes T G S p (OK k :: l) (DPath (p ++ [SClose]) false T G :: out)
  | sh_close_eo T G S p l out : ~ slanted T (p ++ [SClose]) -> Shapes T G S [] l out -> Shapes T G S p (OK "b*" :: l) (DPath (p ++ [SClose]) true T G :: out)
  | sh_n T G S p l out : Shapes T G S [] l out -> Shapes T G S p (OK "n" :: l) out
  | sh_image T G S p n st l out : images n = Some st -> moderate T -> Shapes T G S p l out -> Shapes T G S p ([OName n] ++ OK "Do" :: l) (DImage st T :: out)
  | sh_other T G S p n l out : others n -> Shapes T G S p l out -> Shapes T G S p ([OName n] ++ OK "Do" :: l) out
  | sh_inline T G S p d raw w h l out : dget d "W" = Some w -> dget d "H" = Some h -> moderate T -> Shapes T G S p l out ->
      Shapes T G S p ([OStream d raw] ++ OK "EI" :: l) (DImage (OStream d raw) T :: out).

  (* what is known of the pen *)
  Definition drawn_with (G : pen) (stroke fill : color) (width : obj) : Prop :=
    (forall c, pen_stroke G = Some c -> stroke = c) /\ (forall c, pen_fill G = Some c -> fill = c) /\ (forall w, pen_width G = Some w -> width = w).
  (* the item of something drawn *)
  Inductive Item : drawn -> item -> Prop :=
  | it_line p q eo T G k w b stroke fill : Hull b [at_ T p; at_ T q] -> drawn_with G stroke fill w ->
      (k = CVert <-> fst (at_ T p) = fst (at_ T q)) -> (k = CHoriz <-> fst (at_ T p) <> fst (at_ T q) /\ snd (at_ T p) = snd (at_ T q)) -> k = CVert \/ k = CHoriz \/ k = CLine ->
      Item (DPath [SMove p; SLine q] eo T G) (ICurve k w [SMove p; SLine q] b stroke fill eo)
  | it_rect p0 p1 p2 p3 eo T G w b stroke fill : Hull b (map (at_ T) [p0; p1; p2; p3]) -> drawn_with G stroke fill w ->
      Item (DPath [SMove p0; SLine p1; SLine p2; SLine p3; SClose] eo T G) (ICurve CRect w [SMove p0; SLine p1; SLine p2; SLine p3; SClose] b stroke fill eo)
  | it_curve segs eo T G w b stroke fill : (forall p q, segs <> [SMove p; SLine q]) -> (forall p0 p1 p2 p3, segs <> [SMove p0; SLine p1; SLine p2; SLine p3; SClose]) ->
      drawn_with G stroke fill w -> Item (DPath segs eo T G) (ICurve CCurve w segs b stroke fill eo)
  | it_image st T b : Hull b (map (at_ T) unit_square) -> Item (DImage st T) (IImage st b).
End shapes.
(* the items that are no text and no forms *)
Definition shape_items (l : list item) : list item := filter (fun i => match i with ICurve _ _ _ _ _ _ _ | IImage _ _ => true | _ => false end) l.
