(* The HTML file of a document as a tree of elements, stated on the items of the pages. *)
From Coq Require Import String.
From Verif Require Import Base Obj Num Geom_Model Page_Model Interp_Model.
From Verif Require Import Markup_Model Markup_Spec Convert_Model XmlFile_Spec.  (* of the models only the types of items and pages *)
From Coq Require Import Qcanon.
Open Scope Z_scope.
Import ListNotations.

(* ---------- curves ---------- *)
Definition wide (b : bbox) : num := (bx1 b - bx0 b)%Qc.
Definition high (b : bbox) : num := (by1 b - by0 b)%Qc.
(* the size of the coordinate system of the drawing of a curve, which is shown in the rectangle of the curve; x runs to the right, y
   downwards *)
Definition view (b : bbox) : num * num := if qlt (qz 0) (high b) then ((wide b / high b)%Qc, qz 1) else (qz 1, qz 1).
(* a point of the curve in these coordinates *)
Definition in_view (b : bbox) (p : point) : point :=
  if qlt (qz 0) (high b) then
    (if qlt (wide b) (qz 1 / qz 100)%Qc then ((fst p - bx0 b) * wide b * qz 100 / high b)%Qc else ((fst p - bx0 b) / high b)%Qc,
     ((by1 b - snd p) / high b)%Qc)
  else (((fst p - bx0 b) / wide b)%Qc, (by1 b - snd p)%Qc).
(* where a viewer shows a point (x, y) of the drawing, on a page of the given height: from its left edge and down from its top.  The
   drawing is stretched to the rectangle of the curve, whose left edge is x0 and whose upper edge is y1 *)
Definition shown_at (height : num) (b : bbox) (q : point) : point :=
  ((bx0 b + fst q * (wide b / fst (view b)))%Qc, (height - by1 b + snd q * (high b / snd (view b)))%Qc).

Section spec.
  Context (num_text : num -> list Z) (str_text : obj -> list Z) (image_name : obj -> list Z) (font_css : tstate -> list Z * list Z * list Z).

  (* a value of a style attribute: name: value, separated by semicolons *)
  Fixpoint style (l : list (list Z * list Z)) : list Z :=
    match l with [] => [] | [(n, v)] => n ++ bs ": " ++ v | (n, v) :: r => n ++ bs ": " ++ v ++ bs ";" ++ style r end.
  Definition v_px (q : num) : list Z := num_text q ++ bs "px".
  (* colours: grey levels as transparent black, RGB and CMYK by their components, others by their name *)
  Definition components (c : cspace) : option num := num_of (cs_n c).
  Definition v_css_color (c : color) (dflt : list Z) : list Z :=
    match c_space c with
    | None => dflt
    | Some cs =>
        let call (f : list Z) := f ++ bs "(" ++ commas (map str_text (c_vals c)) ++ bs ")" in
        match components cs, c_vals c with
        | Some n, v :: _ =>
            if qeqb n (qz 1) then
              match v with
              | OInt z => bs "rgba(0,0,0," ++ num_text (qz 1 - qz z)%Qc ++ bs ")"
              | OReal t => bs "rgba(0,0,0," ++ num_text (qz 1 - real_val t)%Qc ++ bs ")"
              | _ => call match cs_name cs with OName x => x | _ => [] end
              end
            else if qeqb n (qz 3) then call (bs "rgb") else if qeqb n (qz 4) then call (bs "cmyk")
            else call match cs_name cs with OName x => x | _ => [] end
        | Some n, [] => if qeqb n (qz 3) then call (bs "rgb") else if qeqb n (qz 4) then call (bs "cmyk") else call match cs_name cs with OName x => x | _ => [] end
        | None, _ => call match cs_name cs with OName x => x | _ => [] end
        end
    end.
  (* path data; the segments of the operators v and y are not drawn *)
  Definition pair_text (b : bbox) (p : point) : list Z := num_text (fst (in_view b p)) ++ bs " " ++ num_text (snd (in_view b p)).
  Definition seg_data (b : bbox) (s : seg) : list Z :=
    match s with
    | SMove p => bs "M" ++ pair_text b p ++ bs " "
    | SLine p => bs "L" ++ pair_text b p ++ bs " "
    | SBoth p q r => bs "C" ++ pair_text b p ++ bs " " ++ pair_text b q ++ bs " " ++ pair_text b r ++ bs " "
    | SClose => bs "Z"
    | SNext _ _ | SFirst _ _ => []
    end.
  Definition at_least_1 (q : num) : list Z := if qlt (qz 1) q then v_px q else bs "1px".
  Definition curve_tree (height : num) (paths : list seg) (b : bbox) (stroke fill : color) : xtree :=
    let css := (match v_css_color fill [] with [] => [] | c => [(bs "fill", c)] end) ++ (match v_css_color stroke [] with [] => [] | c => [(bs "stroke", c)] end) in
    TElem (bs "svg")
      [(bs "class", bs "curve"); (bs "z-index", bs "2");
       (bs "viewBox", if qlt (qz 0) (high b) then bs "0 0 " ++ num_text (fst (view b)) ++ bs " 1" else bs "0 0 1 1");
       (bs "height", at_least_1 (high b)); (bs "width", at_least_1 (wide b));
       (bs "style", style [(bs "border", bs "1px solid black"); (bs "position", bs "absolute"); (bs "left", v_px (bx0 b)); (bs "bottom", v_px (height - by0 b)%Qc);
          (bs "top", v_px (height - by1 b)%Qc); (bs "right", v_px (bx1 b)); (bs "width", v_px (wide b)); (bs "height", v_px (high b))])]
      [TElem (bs "path") ((bs "d", flat_map (seg_data b) paths) :: css ++ [(bs "style", style css)]) []].
  (* text: one element for every character *)
  Definition size_style (b : bbox) : list (list Z * list Z) :=
    map (fun k => (bs k, v_px (wide b))) ["width"; "min-width"; "max-width"]%string ++ map (fun k => (bs k, v_px (high b))) ["height"; "min-height"; "max-height"]%string.
  Definition h_char_tree (c : list Z * bbox) : xtree :=
    TElem (bs "span") [(bs "class", bs "char"); (bs "style", style (size_style (snd c)))] [TText (fst c)].
  Definition h_block_tree (cb : charblock) : xtree :=
    let b := cb_box cb in
    TElem (bs "span") [(bs "class", bs "char-block");
      (bs "style", style ([(bs "position", bs "absolute"); (bs "left", num_text (bx0 b)); (bs "bottom", num_text (by0 b)); (bs "font-size", v_px (v_size cb));
         (bs "font-family", fst (fst (font_css (cb_text cb)))); (bs "font-weight", snd (fst (font_css (cb_text cb)))); (bs "color", v_css_color (cb_color cb) (bs "black"))] ++ size_style b ++
         [(bs "transform", bs "skew(" ++ snd (font_css (cb_text cb)) ++ bs "deg, 0deg)"); (bs "text-align", bs "center"); (bs "display", bs "flex");
          (bs "flex-flow", bs "row nowrap"); (bs "justify-content", bs "space-between")]))]
      (map h_char_tree (cb_chars cb)).
  Fixpoint h_item_trees (height : num) (i : item) : list xtree :=
    match i with
    | INone => []
    | IText b => [TElem (bs "span") [(bs "class", bs "text-block")] (map h_block_tree (tb_blocks b))]
    | IImage s b => [TElem (bs "img") [(bs "src", image_name s); (bs "background", bs "red"); (bs "width", v_px (wide b)); (bs "height", v_px (high b))] []]
    | IXObj _ b children =>
        [TElem (bs "div") [(bs "class", bs "xobject");
           (bs "style", style [(bs "left", v_px (bx0 b)); (bs "right", v_px (bx1 b)); (bs "bottom", v_px (by0 b)); (bs "top", v_px (by1 b)); (bs "width", v_px (wide b)); (bs "height", v_px (high b))])]
           ((fix go (l : list item) : list xtree := match l with [] => [] | i :: r => h_item_trees height i ++ go r end) children)]
    | ICurve _ _ paths b stroke fill _ => [curve_tree height paths b stroke fill]
    end.
  Definition h_page_tree (p : opage) : xtree :=
    TElem (bs "div") [(bs "class", bs "page"); (bs "id", bs "page-" ++ py_str_int (pg_num p)); (bs "style", style [(bs "width", v_px (pg_width p)); (bs "height", v_px (pg_height p))])]
      (flat_map (h_item_trees (pg_height p)) (fst (pg_items p))).
  Definition html_tree (codec : list Z) (ps : list opage) : xtree :=
    TElem (bs "html") []
      [TElem (bs "head") []
         [TElem (bs "meta") ([(bs "http-equiv", bs "Content-Type"); (bs "content", bs "text/html")] ++ match codec with [] => [] | _ => [(bs "charset", codec)] end) [];
          TElem (bs "style") [] [TText (bs ".page { position: relative; overflow: hidden;border: 1px black solid;}")]];
       TElem (bs "body") [] (map h_page_tree ps)].

  (* ---------- what the values must be like ---------- *)
  (* texts without the characters of markup *)
  Definition plain_text (x : list Z) : Prop := Forall (fun c => xml_char c = true /\ c <> 38 /\ c <> 60 /\ c <> 62) x.
  (* a colour of a space of one component has a value *)
  Definition h_color (c : color) : Prop :=
    match c_space c with
    | Some cs => (forall n, cs_name cs = OName n -> clean_text n) /\ Forall (fun v => clean_text (str_text v)) (c_vals c) /\ (components cs = Some (qz 1) -> c_vals c <> [])
    | None => True
    end.
  Definition h_block (cb : charblock) : Prop :=
    Forall (fun c => plain_text (fst c)) (cb_chars cb) /\ h_color (cb_color cb) /\
    let '(name, weight, angle) := font_css (cb_text cb) in clean_text name /\ clean_text weight /\ clean_text angle.
  Inductive HOkItem : item -> Prop :=
  | hok_none : HOkItem INone
  | hok_text b : Forall h_block (tb_blocks b) -> HOkItem (IText b)
  | hok_image s b : clean_text (image_name s) -> HOkItem (IImage s b)
  | hok_form s b l : Forall HOkItem l -> HOkItem (IXObj s b l)
  | hok_curve k w p b st f e : (qz 0 < high b)%Qc \/ wide b <> qz 0 -> h_color st -> h_color f -> HOkItem (ICurve k w p b st f e).
End spec.

(* LikeH t u: u is t with white space between its elements, and before and after its texts *)
Inductive LikeH : xtree -> xtree -> Prop :=
| lh_text n a t w w' : forallb xml_white w = true -> forallb xml_white w' = true -> LikeH (TElem n a [TText t]) (TElem n a [TText (w ++ t ++ w')])
| lh_elem n a ks ks' : LikeHList ks ks' -> LikeH (TElem n a ks) (TElem n a ks')
with LikeHList : list xtree -> list xtree -> Prop :=
| lhl_nil : LikeHList [] []
| lhl_white w ks ks' : white_text w = true -> LikeHList ks ks' -> LikeHList ks (w :: ks')
| lhl_cons k k' ks ks' : LikeH k k' -> LikeHList ks ks' -> LikeHList (k :: ks) (k' :: ks').
