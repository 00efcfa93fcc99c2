(* Model of converters/html.py, on the elements of writers/html.py (Markup_Model).  The codec of the file is not modelled. *)
From Coq Require Import String.
From Verif Require Import Base Obj Stream_Model Num Geom_Model Page_Model Interp_Model Markup_Model Convert_Model.
From Coq Require Import Qcanon.
Open Scope Z_scope.
Import ListNotations.

(* writers/html.py:34-68 elm and singleton with css *)
Definition helm (tag : list Z) (attrs : list (list Z * list Z)) (css : list (list Z * list Z)) (inside : list xcall) : xcall :=
  CElm tag (html_attrs attrs (Some css)) false false inside.

Section converter.
  Context (num_text : num -> list Z).                (* str() of a coordinate *)
  Context (str_text : obj -> list Z).                (* str() of a colour value *)
  Context (image_name : obj -> list Z).              (* LTImage.name *)
  Context (font_css : tstate -> list Z * list Z * list Z).  (* font.fontname, str(font.font_weight), str(font.italic_angle) *)

  Definition px (q : num) : list Z := num_text q ++ bs "px".
  Definition bwidth (b : bbox) : num := (bx1 b - bx0 b)%Qc.
  Definition bheight (b : bbox) : num := (by1 b - by0 b)%Qc.
  (* 116-127 get_color.  float(v) is v: rounding is not modelled *)
  Definition has_n (cs : cspace) (n : Z) : bool := match num_of (cs_n cs) with Some q => qeqb q (qz n) | None => false end.
  Definition get_color (c : color) (dflt : list Z) : res (list Z) :=
    match c_space c with
    | None => Ok dflt
    | Some cs =>
        let call (f : list Z) := Ok (f ++ bs "(" ++ join (bs ",") (map str_text (c_vals c)) ++ bs ")") in
        if has_n cs 1 then
          match c_vals c with
          | [] => Err IndexError
          | v :: _ => match v, num_of v with
                      | (OInt _ | OReal _), Some q => Ok (bs "rgba(0,0,0," ++ num_text (qz 1 - q)%Qc ++ bs ")")
                      | _, _ => call (cs_text cs)
                      end
          end
        else if has_n cs 3 then call (bs "rgb") else if has_n cs 4 then call (bs "cmyk") else call (cs_text cs)
    end.
  (* 204-212: the text of the commands of a path *)
  Definition svg_text (cmds : list (Z * list point)) : list Z :=
    flat_map (fun c => if fst c =? 90 then [90]
                       else fst c :: join (bs " ") (map (fun p => num_text (fst p) ++ bs " " ++ num_text (snd p)) (snd c)) ++ bs " ") cmds.
  (* 163-197: the attributes of the svg element *)
  Definition svg_attrs (b : bbox) (view : num * num) : list (list Z * list Z) :=
    [(bs "class", bs "curve"); (bs "z-index", bs "2");
     (bs "viewBox", if qlt (qz 0) (bheight b) then bs "0 0 " ++ num_text (fst view) ++ bs " 1" else bs "0 0 1 1");
     (bs "height", if qlt (qz 1) (bheight b) then px (bheight b) else bs "1px");
     (bs "width", if qlt (qz 1) (bwidth b) then px (bwidth b) else bs "1px")].
  (* 129-161 render_curve: nothing is written before an exception of create_svg_path or get_color *)
  Definition svg_css (height : num) (b : bbox) : list (list Z * list Z) :=
    [(bs "border", bs "1px solid black"); (bs "position", bs "absolute"); (bs "left", px (bx0 b)); (bs "bottom", px (height - by0 b)%Qc);
     (bs "top", px (height - by1 b)%Qc); (bs "right", px (bx1 b)); (bs "width", px (bwidth b)); (bs "height", px (bheight b))].
  Definition html_curve (height : num) (paths : list seg) (b : bbox) (stroke fill : color) : xcall :=
    match svg_scale b with
    | None => CRaise
    | Some (dx, dy, view) =>
        match get_color stroke [], get_color fill [] with
        | Ok sc, Ok fc =>
            let css := (match fc with [] => [] | _ => [(bs "fill", fc)] end) ++ (match sc with [] => [] | _ => [(bs "stroke", sc)] end) in
            helm (bs "svg") (svg_attrs b view) (svg_css height b)
              [CSingle (bs "path") (html_attrs ((bs "d", svg_text (svg_path b (dx, dy) paths)) :: css) (Some css))]
        | _, _ => CRaise
        end
    end.
  Definition size_css (b : bbox) : list (list Z * list Z) :=
    [(bs "width", px (bwidth b)); (bs "min-width", px (bwidth b)); (bs "max-width", px (bwidth b));
     (bs "height", px (bheight b)); (bs "min-height", px (bheight b)); (bs "max-height", px (bheight b))].
  (* 73-82 *)
  Definition html_char (c : list Z * bbox) : xcall := helm (bs "span") [(bs "class", bs "char")] (size_css (snd c)) [CText (fst c) nl sp].
  (* 87-107 *)
  Definition html_char_block (cb : charblock) : xcall :=
    match get_color (cb_color cb) (bs "black") with
    | Err _ => CRaise
    | Ok col =>
        let '(name, weight, angle) := font_css (cb_text cb) in
        let b := cb_box cb in
        helm (bs "span") [(bs "class", bs "char-block")]
          ([(bs "position", bs "absolute"); (bs "left", num_text (bx0 b)); (bs "bottom", num_text (by0 b)); (bs "font-size", px (cb_size cb));
            (bs "font-family", name); (bs "font-weight", weight); (bs "color", col)] ++ size_css b ++
           [(bs "transform", bs "skew(" ++ angle ++ bs "deg, 0deg)"); (bs "text-align", bs "center"); (bs "display", bs "flex");
            (bs "flex-flow", bs "row nowrap"); (bs "justify-content", bs "space-between")])
          (map html_char (cb_chars cb))
    end.
  (* 49-107 render *)
  Fixpoint html_item (height : num) (i : item) : list xcall :=
    match i with
    | INone => []
    | ICurve _ _ paths box stroke fill _ => [html_curve height paths box stroke fill]
    | IXObj _ b children =>
        [helm (bs "div") [(bs "class", bs "xobject")]
           [(bs "left", px (bx0 b)); (bs "right", px (bx1 b)); (bs "bottom", px (by0 b)); (bs "top", px (by1 b)); (bs "width", px (bwidth b)); (bs "height", px (bheight b))]
           ((fix go (l : list item) : list xcall := match l with [] => [] | i :: r => html_item height i ++ go r end) children)]
    | IImage strm b => [CSingle (bs "img") [(bs "src", image_name strm); (bs "background", bs "red"); (bs "width", px (bwidth b)); (bs "height", px (bheight b))]]
    | IText b => [CElm (bs "span") [(bs "class", bs "text-block")] false false (map html_char_block (tb_blocks b))]
    end.
  (* 109-114 *)
  Definition html_page (p : opage) : xcall :=
    helm (bs "div") [(bs "class", bs "page"); (bs "id", bs "page-" ++ py_str_int (pg_num p))] [(bs "width", px (pg_width p)); (bs "height", px (pg_height p))]
      (flat_map (html_item (pg_height p)) (fst (pg_items p)) ++ raises (snd (pg_items p))).
  (* 33-46 *)
  Definition html_calls (codec : list Z) (d : odoc) : xcall :=
    CElm (bs "html") [] true false
      [CElm (bs "head") [] false false
         [CSingle (bs "meta") ([(bs "http-equiv", bs "Content-Type"); (bs "content", bs "text/html")] ++ match codec with [] => [] | _ => [(bs "charset", codec)] end);
          CElm (bs "style") [] false false [CText (bs ".page { position: relative; overflow: hidden;border: 1px black solid;}") nl sp]];
       CElm (bs "body") [] false false (map html_page (fst d) ++ raises (snd d))].
  (* the text of the file, and whether an exception comes out *)
  Definition convert_to_html (codec : list Z) (d : odoc) : list Z * bool := xrender_list 0 [html_calls codec d].
End converter.
