(* Model of the converters: converters/text.py, converters/xml.py, converters/json.py, the curve part of converters/html.py
   and converters/__init__.py.  They see a document as the pages its interpreter yields, each with the items it yields and
   possibly an exception after the last of them.
   Not modelled: how Python prints numbers, colour values and font descriptor values, and the names of images (parameters
   below); the codec of the XML and JSON files (Markup_Model). *)
From Coq Require Import String.
From Verif Require Import Base Obj Stream_Model Num Geom_Model Page_Model Interp_Model Sec_Model.
From Verif Require Import Markup_Model.
From Coq Require Import Qcanon.
Open Scope Z_scope.
Import ListNotations.

(* a page as its interpreter yields it: PageInterpreter.py:26-29 and 41-47 *)
Record opage := mkPage { pg_num : Z; pg_width : num; pg_height : num; pg_items : gen item }.
(* the pages of a document, and the exception that ends the iteration, if any *)
Notation odoc := (list opage * option exn)%type (only parsing).

(* ---------- converters/text.py ---------- *)
(* 34-36: one write per character *)
Definition text_char (c : list Z * bbox) : gen Z := match enc_utf8 (fst c) with Ok b => (b, None) | Err e => gfail e end.
(* 30-38 process_container *)
Fixpoint text_item (i : item) : gen Z :=
  match i with
  | IText b => gflat (fun cb => gflat text_char (cb_chars cb)) (tb_blocks b)
  | IXObj _ _ children =>
      (fix go (l : list item) : gen Z := match l with [] => gnil | i :: r => gapp (text_item i) (go r) end) children
  | _ => gnil
  end.
(* 39-42; enc_utf8 of ASCII text is the text *)
Definition text_page (p : opage) : gen Z :=
  gapp (bs "========== [ page " ++ py_str_int (pg_num p) ++ bs " ] ==========" ++ nl, None)
    (gapp (gflat text_item (fst (pg_items p)))
       match snd (pg_items p) with Some e => gfail e | None => (nl, None) end).
(* 29, 39: the bytes of the file, and the exception that comes out *)
Definition text_file (d : odoc) : gen Z := gapp (gflat text_page (fst d)) ([], snd d).

Section markup.
  Context (num_text : num -> list Z).                    (* str() of a coordinate *)
  Context (val_text : obj -> list Z).                    (* str() of a colour value, or of the name of a literal *)
  Context (image_name : obj -> list Z).                  (* LTImage.name *)
  Context (descriptor : tstate -> list (list Z * list Z)). (* font.descriptor.items(), values as str() gives them *)

  (* LTCharBlock.py:45-48 *)
  Definition cb_size (cb : charblock) : num :=
    if match t_font (cb_text cb) with Some f => f_vertical f | None => false end
    then (bx1 (cb_box cb) - bx0 (cb_box cb))%Qc else (by1 (cb_box cb) - by0 (cb_box cb))%Qc.
  Definition cs_text (cs : cspace) : list Z := match cs_name cs with OName n => n | _ => [] end.
  (* "FontFile" in key *)
  Fixpoint prefixb (p x : list Z) : bool :=
    match p, x with [], _ => true | a :: p', b :: x' => (a =? b) && prefixb p' x' | _, [] => false end.
  Fixpoint contains (p x : list Z) : bool := prefixb p x || match x with [] => false | _ :: r => contains p r end.
  (* xml.py:112-114, json.py:104-106 *)
  Definition descriptor_items (ts : tstate) : list (list Z * list Z) :=
    filter (fun kv => negb (list_eqb (fst kv) (bs "Type")) && negb (contains (bs "FontFile") (fst kv))) (descriptor ts).

  (* ---------- converters/xml.py ---------- *)
  (* 14-18 convert_capcase_to_snakecase; lower() on ASCII letters only.  FIRST_CAP_RE matches at the leftmost place, takes all
     the small letters that follow, and goes on after them; ALL_CAP_RE goes on after the two characters it took. *)
  Definition upper (c : Z) : bool := (65 <=? c) && (c <=? 90).
  Definition lower (c : Z) : bool := (97 <=? c) && (c <=? 122).
  Definition to_lower (c : Z) : Z := if upper c then c + 32 else c.
  (* the second argument: the text is inside the run of small letters of a match *)
  Fixpoint first_cap (x : list Z) (inside : bool) : list Z :=
    match x with
    | [] => []
    | c :: r =>
        if inside && lower c then c :: first_cap r true
        else match r with
             | u :: (l :: _) as r' =>
                 if negb (c =? 10) && upper u && lower l
                 then c :: 45 :: u :: match r with _ :: t => first_cap t true | [] => [] end
                 else c :: first_cap r false
             | _ => c :: first_cap r false
             end
    end.
  Fixpoint all_cap (x : list Z) : list Z :=
    match x with
    | [] => []
    | c :: r =>
        match r with
        | u :: r' => if (lower c || is_digit c) && upper u then c :: 45 :: u :: all_cap r' else c :: all_cap r
        | [] => [c]
        end
    end.
  Definition snakecase (x : list Z) : list Z := map to_lower (all_cap (first_cap x false)).

  Definition box_attrs (b : bbox) : list (list Z * list Z) :=
    [(bs "x0", num_text (bx0 b)); (bs "x1", num_text (bx1 b)); (bs "y0", num_text (by0 b)); (bs "y1", num_text (by1 b))].
  Definition none_attrs : list (list Z * list Z) :=
    [(bs "x0", bs "None"); (bs "x1", bs "None"); (bs "y0", bs "None"); (bs "y1", bs "None")].
  (* 20-29 normalize_color_values, 31-37 get_color *)
  Definition color_attrs (prefix : list Z) (c : color) : list (list Z * list Z) :=
    match c_space c with
    | None => []
    | Some cs => [(prefix ++ bs "-type", enc (Str (cs_text cs)) true);
                  (prefix ++ bs "-values", join (bs ",") (map (fun v => enc (Str (val_text v)) true) (c_vals c)))]
    end.
  (* 97-105 place_char *)
  Definition xml_char_elm (c : list Z * bbox) : xcall :=
    CElm (bs "char") (box_attrs (snd c)) false true [CText (sax_escape (fst c)) [] []].
  (* 107-119 place_char_block *)
  Definition char_block_attrs (cb : charblock) : list (list Z * list Z) :=
    fold_left (fun a kv => set_attr (snakecase (fst kv)) (snd kv) a) (descriptor_items (cb_text cb))
      ((bs "size", num_text (cb_size cb)) :: box_attrs (cb_box cb) ++ color_attrs (bs "color") (cb_color cb)).
  Definition xml_char_block (cb : charblock) : xcall :=
    CElm (bs "char-block") (char_block_attrs cb) false false (map xml_char_elm (cb_chars cb)).
  (* 121-131 place_text_block *)
  Definition xml_text_block (b : textblock) : xcall :=
    CElm (bs "text-block") (match tb_box b with Some x => box_attrs x | None => none_attrs end) false false (map xml_char_block (tb_blocks b)).
  (* path.method.name and path.points: Curves.py:5-34, commands.py:116-187 *)
  Definition seg_method (s : seg) : list Z :=
    match s with
    | SMove _ => bs "MOVE_TO" | SLine _ => bs "LINE_TO" | SBoth _ _ _ => bs "CURVE_BOTH_TO" | SNext _ _ => bs "CURVE_NEXT_TO"
    | SFirst _ _ => bs "CURVE_FIRST_TO" | SClose => bs "CLOSE_PATH"
    end.
  Definition seg_points (s : seg) : list point :=
    match s with SMove p | SLine p => [p] | SBoth a b c => [a; b; c] | SNext a b | SFirst a b => [a; b] | SClose => [] end.
  (* 133-152 place_curve *)
  Definition xml_curve (k : ckind) (paths : list seg) (box : bbox) (stroke fill : color) : xcall :=
    let attrs := box_attrs box ++ color_attrs (bs "stroke") stroke ++ color_attrs (bs "fill") fill in
    match k with
    | CRect => CSingle (bs "rect") attrs
    | CLine | CVert | CHoriz => CSingle (bs "line") attrs
    | CCurve => CElm (bs "curve") attrs false false
        (map (fun s => CElm (bs "path") [(bs "type", seg_method s)] false false
           (map (fun p => CSingle (bs "point") [(bs "x", num_text (fst p)); (bs "y", num_text (snd p))]) (seg_points s))) paths)
    end.
  (* 67-90 render *)
  Fixpoint xml_item (i : item) : list xcall :=
    match i with
    | INone => []
    | ICurve k _ paths box stroke fill _ => [xml_curve k paths box stroke fill]
    | IXObj _ box children =>
        [CElm (bs "xobject") (box_attrs box) false false
           ((fix go (l : list item) : list xcall := match l with [] => [] | i :: r => xml_item i ++ go r end) children)]
    | IImage strm box => [CSingle (bs "img") ((bs "src", enc (Str (image_name strm)) false) :: box_attrs box)]
    | IText b => [xml_text_block b]
    end.
  Definition raises (e : option exn) : list xcall := match e with Some _ => [CRaise] | None => [] end.
  (* 91-96 *)
  Definition xml_page (p : opage) : xcall :=
    CElm (bs "page") [(bs "id", py_str_int (pg_num p)); (bs "width", num_text (pg_width p)); (bs "height", num_text (pg_height p))] false false
      (flat_map xml_item (fst (pg_items p)) ++ raises (snd (pg_items p))).
  (* 62-65 *)
  Definition xml_calls (d : odoc) : xcall := CElm (bs "pages") [] false false (map xml_page (fst d) ++ raises (snd d)).
  Definition convert_to_xml (codec : list Z) (d : odoc) : list Z * bool := xml_file codec [xml_calls d].

  (* ---------- converters/json.py ---------- *)
  Notation jprops := (list (list Z * jcall)).
  Definition box_props (b : bbox) : jprops := map (fun a => (fst a, JNumber (snd a))) (box_attrs b).
  Definition none_props : jprops := map (fun a => (fst a, JNumber (snd a))) none_attrs.
  (* 12-19, and e.g. 99-103 *)
  Definition color_prop (key : list Z) (c : color) : jprops :=
    match c_space c with
    | None => []
    | Some cs => [(key, JPlace (PyDict [(bs "type", PyStr (enc (Str (cs_text cs)) true));
                    (bs "value", PyList (map (fun v => PyStr (enc (Str (val_text v)) true)) (c_vals c)))]))]
    end.
  (* 93-112 place_char_block *)
  Definition json_char_block (cb : charblock) : jcall :=
    JObject ((bs "size", JNumber (num_text (cb_size cb))) :: box_props (cb_box cb) ++ color_prop (bs "color") (cb_color cb) ++
      map (fun kv => (fst kv, JString (snd kv))) (descriptor_items (cb_text cb)) ++
      [(bs "text", JString (flat_map fst (cb_chars cb)))]).
  (* 114-146 place_curve *)
  Definition json_seg (s : seg) : jcall :=
    JPlace (PyDict [(bs "type", PyStr (seg_method s));
                    (bs "points", PyList (map (fun p => PyDict [(bs "x", PyNum (num_text (fst p))); (bs "y", PyNum (num_text (snd p)))]) (seg_points s)))]).
  Definition json_curve (k : ckind) (paths : list seg) (box : bbox) (stroke fill : color) : jprops :=
    box_props box ++ color_prop (bs "fill") fill ++ color_prop (bs "stroke") stroke ++
    match k with
    | CRect => [(bs "type", JString (bs "rect"))]
    | CLine | CVert | CHoriz => [(bs "type", JString (bs "line"))]
    | CCurve => [(bs "type", JString (bs "curve")); (bs "paths", JArray (map (fun s => ([], json_seg s)) paths))]
    end.
  (* 56-91 render and place_text_block: what is put in the object opened for the item *)
  Fixpoint json_item (i : item) : jprops :=
    match i with
    | INone => []
    | ICurve k _ paths box stroke fill _ => json_curve k paths box stroke fill
    | IXObj _ box children =>
        (bs "type", JString (bs "xobject")) :: box_props box ++
        [(bs "children", JArray ((fix go (l : list item) : jprops :=
            match l with [] => [] | i :: r => ([], JObject (json_item i)) :: go r end) children))]
    | IImage strm box => (bs "type", JString (bs "img")) :: (bs "src", JString (enc (Str (image_name strm)) false)) :: box_props box
    | IText b => (bs "type", JString (bs "text-block")) :: (match tb_box b with Some x => box_props x | None => none_props end) ++
                 [(bs "char_blocks", JArray (map (fun cb => ([], json_char_block cb)) (tb_blocks b)))]
    end.
  Definition jraises (e : option exn) : jprops := match e with Some _ => [([], JRaise)] | None => [] end.
  (* 47-54 render_page *)
  Definition json_page (p : opage) : jcall :=
    JObject [(bs "id", JNumber (py_str_int (pg_num p))); (bs "width", JNumber (num_text (pg_width p)));
             (bs "height", JNumber (num_text (pg_height p)));
             (bs "children", JArray (map (fun i => ([], JObject (json_item i))) (fst (pg_items p)) ++ jraises (snd (pg_items p))))].
  (* 40-45 *)
  Definition json_calls (d : odoc) : jprops := [(bs "pages", JArray (map (fun p => ([], json_page p)) (fst d) ++ jraises (snd d)))].
  Definition convert_to_json (d : odoc) : list Z * bool := json_file (json_calls d).
End markup.

(* ---------- converters/html.py:163-221 create_svg_path ---------- *)
(* the scale factors and the view box, which a viewer maps to the rectangle of the element; None: ZeroDivisionError *)
Definition svg_scale (b : bbox) : option (num * num * (num * num)) :=
  let w := (bx1 b - bx0 b)%Qc in
  let h := (by1 b - by0 b)%Qc in
  if qlt (qz 0) h then Some (w / h / qmax w centi, qz 1 / h, (w / h, qz 1))%Qc
  else if qeqb w (qz 0) then None
  else Some (qz 1 / w, qz 1, (qz 1, qz 1))%Qc.
(* 199-202 pX and pY *)
Definition svg_point (b : bbox) (d : num * num) (p : point) : point :=
  ((fst p - bx0 b) * fst d, ((by1 b - by0 b) - (snd p - by0 b)) * snd d)%Qc.
(* 204-212: the commands put in the path, a letter and its points *)
Definition svg_path (b : bbox) (d : num * num) (paths : list seg) : list (Z * list point) :=
  flat_map (fun s => match s with
    | SMove p => [(77, [svg_point b d p])]
    | SLine p => [(76, [svg_point b d p])]
    | SClose => [(90, [])]
    | SBoth p q r => [(67, map (svg_point b d) [p; q; r])]
    | SNext _ _ | SFirst _ _ => []
    end) paths.
