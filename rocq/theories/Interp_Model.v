(* Model of pdfmajor/interpreter/commands: __init__.py (process_command_stream, prep_state), commands.py, utils.py
   (init_resources, get_colorspace), state/ (PDFStateStack, PDFGraphicState, PDFTextState, Curves) and state/layout
   (make_curve, make_image, make_xobject, LTTextBlock, LTCharBlock, utils/textdecoder.py).

   Numbers are exact rationals (Num.v).  Python checks operand types only when it computes with them; here a command
   that uses an operand as a number raises TypeError at once when it is not one (Python: then, or at the first use).
   Names of resources are dictionary keys (Obj.v). *)
From Coq Require Import String.
From Verif Require Import Base Obj Stream_Model Num Geom_Model Page_Model.
From Coq Require Import Qcanon Qround.
Open Scope Z_scope.

(* ---------- numbers ---------- *)
(* float(text) for texts [+-]?[0-9]*.[0-9]* (the only ones the lexer accepts) *)
Definition real_val (t : list Z) : num :=
  let '(neg, body) := match t with 45 :: r => (true, r) | 43 :: r => (false, r) | _ => (false, t) end in
  let '(mant, scale, _) := fold_left (fun acc c => let '(m, s, dot) := acc in
     if c =? 46 then (m, s, true)
     else if is_digit c then (m * 10 + (c - 48), if dot : bool then s * 10 else s, dot) else acc)
     body (0, 1, false) in
  (qz (if neg : bool then - mant else mant) / qz scale)%Qc.
(* isnumber (utils/generic.py:77-78): int, float; bool is a subclass of int *)
Definition num_of (o : obj) : option num :=
  match o with
  | OInt z => Some (qz z) | OBool b => Some (qz (if b then 1 else 0)) | OReal t => Some (real_val t) | _ => None
  end.
Fixpoint nums (l : list obj) : option (list num) :=
  match l with
  | [] => Some []
  | o :: r => match num_of o, nums r with Some x, Some xs => Some (x :: xs) | _, _ => None end
  end.
(* the literals .5, .01 and .001 *)
Definition half : num := (qz 1 / qz 2)%Qc.
Definition centi : num := (qz 1 / qz 100)%Qc.
Definition milli : num := (qz 1 / qz 1000)%Qc.
(* round(v): to the nearest integer, halves to the even one *)
Definition qround (v : num) : Z :=
  let f := Qfloor (this v) in
  let d := (v - qz f)%Qc in
  if qlt d (half) then f
  else if qlt (half) d then f + 1
  else if Z.even f then f else f + 1.

(* ---------- fonts: what the interpreter asks of a font object (PDFFont.py, fonts.py) ---------- *)
Record font := mkFont {
  f_decode : list Z -> res (list Z);        (* decode(bytes): character ids *)
  f_unichr : Z -> option (list Z);          (* to_unichr(cid); None: UnicodeNotDefined *)
  f_width : Z -> num;                       (* char_width(cid) *)
  f_disp : Z -> option num * num;           (* char_disp(cid) of a vertical font *)
  f_vertical : bool; f_multibyte : bool;
  f_bwidth : num; f_height : num; f_descent : num }.  (* get_width(), get_height(), get_descent() *)

(* ---------- state ---------- *)
(* PDFColorSpace.py:4-8; ncomponents is whatever object was given *)
Record cspace := mkCs { cs_name : obj; cs_n : obj }.
(* PDFColor.py:4-7 *)
Record color := mkColor { c_space : option cspace; c_vals : list obj }.
(* PDFGraphicState/__init__.py:6-17; None is ONull *)
Record gstate := mkG {
  g_width : obj; g_cap : obj; g_join : obj; g_miter : obj; g_dash : option (obj * obj); g_intent : obj; g_flat : obj;
  g_scolor : color; g_ncolor : color; g_scs : option cspace; g_ncs : option cspace }.
Definition g0 : gstate := mkG (OInt 0) ONull ONull ONull None ONull ONull (mkColor None []) (mkColor None []) None None.
(* PDFTextState/__init__.py:9-20.  linematrix is a Python list: t_lm is its identity, its contents are in the heap
   s_heap of the state, so that copies of the text state (53-66 copy) share it. *)
Record tstate := mkT {
  t_font : option font; t_size : num; t_charspace : num; t_wordspace : num; t_scaling : num; t_leading : num;
  t_render : obj; t_rise : num; t_matrix : matrix; t_lm : nat; t_ignore : bool }.
(* Curves.py:5-34 *)
Inductive seg := SMove (p : point) | SLine (p : point) | SBoth (p1 p2 p3 : point) | SNext (p2 p3 : point)
               | SFirst (p1 p3 : point) | SClose.
(* layout: LTCurves.py, LTImage.py, LTTextBlock.py, LTCharBlock.py, LTXObject.py *)
Inductive ckind := CVert | CHoriz | CLine | CRect | CCurve.
Record charblock := mkCB { cb_chars : list (list Z * bbox); cb_box : bbox; cb_color : color; cb_text : tstate }.
Record textblock := mkTB { tb_box : option bbox; tb_blocks : list charblock }.
Inductive item :=
| INone
| ICurve (k : ckind) (width : obj) (paths : list seg) (box : bbox) (stroke fill : color) (evenodd : bool)
| IText (b : textblock)
| IImage (strm : obj) (box : bbox)
| IXObj (strm : obj) (box : bbox) (children : list item).
(* items appended to complete_layout_items: an XObject is not yet processed *)
Inductive pending := PItem (i : item) | PXObj (strm : obj) (box : bbox) (resources : obj) (ctm : matrix).

(* state/__init__.py:22-36 *)
Record istate := mkS {
  s_ctm : matrix; s_text : tstate; s_g : gstate; s_gstack : list (matrix * tstate * gstate); s_path : list seg;
  s_args : list obj; s_done : list pending; s_cs : list (obj * option cspace); s_fonts : list (obj * font);
  s_xobjs : list (obj * obj); s_resources : obj; s_block : option textblock; s_heap : list point }.

(* PDFColorSpace.py:14-27 *)
Definition predefined_cs : list (obj * option cspace) :=
  map (fun p => let '(n, k) := p in (OName (bs n), Some (mkCs (OName (bs n)) (OInt k))))
    [("DeviceGray"%string, 1); ("CalRGB"%string, 3); ("CalGray"%string, 1); ("Lab"%string, 3); ("DeviceRGB"%string, 3);
     ("DeviceCMYK"%string, 4); ("Separation"%string, 1); ("Indexed"%string, 1); ("Pattern"%string, 1)].
Definition t0 : tstate :=
  mkT None (qz 0) (qz 0) (qz 0) (qz 100) (qz 0) (OInt 0) (qz 0) matrix_identity 0 false.
Definition s0 : istate :=
  mkS matrix_identity t0 g0 [] [] [] [] predefined_cs [] [] (ODict []) None [(qz 0, qz 0)].

Section setters.
  Variable s : istate.
  Definition with_ctm m := mkS m (s_text s) (s_g s) (s_gstack s) (s_path s) (s_args s) (s_done s) (s_cs s) (s_fonts s) (s_xobjs s) (s_resources s) (s_block s) (s_heap s).
  Definition with_text t := mkS (s_ctm s) t (s_g s) (s_gstack s) (s_path s) (s_args s) (s_done s) (s_cs s) (s_fonts s) (s_xobjs s) (s_resources s) (s_block s) (s_heap s).
  Definition with_g g := mkS (s_ctm s) (s_text s) g (s_gstack s) (s_path s) (s_args s) (s_done s) (s_cs s) (s_fonts s) (s_xobjs s) (s_resources s) (s_block s) (s_heap s).
  Definition with_gstack x := mkS (s_ctm s) (s_text s) (s_g s) x (s_path s) (s_args s) (s_done s) (s_cs s) (s_fonts s) (s_xobjs s) (s_resources s) (s_block s) (s_heap s).
  Definition with_path x := mkS (s_ctm s) (s_text s) (s_g s) (s_gstack s) x (s_args s) (s_done s) (s_cs s) (s_fonts s) (s_xobjs s) (s_resources s) (s_block s) (s_heap s).
  Definition with_args x := mkS (s_ctm s) (s_text s) (s_g s) (s_gstack s) (s_path s) x (s_done s) (s_cs s) (s_fonts s) (s_xobjs s) (s_resources s) (s_block s) (s_heap s).
  Definition with_done x := mkS (s_ctm s) (s_text s) (s_g s) (s_gstack s) (s_path s) (s_args s) x (s_cs s) (s_fonts s) (s_xobjs s) (s_resources s) (s_block s) (s_heap s).
  Definition with_cs x := mkS (s_ctm s) (s_text s) (s_g s) (s_gstack s) (s_path s) (s_args s) (s_done s) x (s_fonts s) (s_xobjs s) (s_resources s) (s_block s) (s_heap s).
  Definition with_fonts x := mkS (s_ctm s) (s_text s) (s_g s) (s_gstack s) (s_path s) (s_args s) (s_done s) (s_cs s) x (s_xobjs s) (s_resources s) (s_block s) (s_heap s).
  Definition with_xobjs x := mkS (s_ctm s) (s_text s) (s_g s) (s_gstack s) (s_path s) (s_args s) (s_done s) (s_cs s) (s_fonts s) x (s_resources s) (s_block s) (s_heap s).
  Definition with_resources x := mkS (s_ctm s) (s_text s) (s_g s) (s_gstack s) (s_path s) (s_args s) (s_done s) (s_cs s) (s_fonts s) (s_xobjs s) x (s_block s) (s_heap s).
  Definition with_block x := mkS (s_ctm s) (s_text s) (s_g s) (s_gstack s) (s_path s) (s_args s) (s_done s) (s_cs s) (s_fonts s) (s_xobjs s) (s_resources s) x (s_heap s).
  Definition with_heap x := mkS (s_ctm s) (s_text s) (s_g s) (s_gstack s) (s_path s) (s_args s) (s_done s) (s_cs s) (s_fonts s) (s_xobjs s) (s_resources s) (s_block s) x.
End setters.
Section tsetters.
  Variable t : tstate.
  Definition t_with_font x := mkT x (t_size t) (t_charspace t) (t_wordspace t) (t_scaling t) (t_leading t) (t_render t) (t_rise t) (t_matrix t) (t_lm t) (t_ignore t).
  Definition t_with_size x := mkT (t_font t) x (t_charspace t) (t_wordspace t) (t_scaling t) (t_leading t) (t_render t) (t_rise t) (t_matrix t) (t_lm t) (t_ignore t).
  Definition t_with_charspace x := mkT (t_font t) (t_size t) x (t_wordspace t) (t_scaling t) (t_leading t) (t_render t) (t_rise t) (t_matrix t) (t_lm t) (t_ignore t).
  Definition t_with_wordspace x := mkT (t_font t) (t_size t) (t_charspace t) x (t_scaling t) (t_leading t) (t_render t) (t_rise t) (t_matrix t) (t_lm t) (t_ignore t).
  Definition t_with_scaling x := mkT (t_font t) (t_size t) (t_charspace t) (t_wordspace t) x (t_leading t) (t_render t) (t_rise t) (t_matrix t) (t_lm t) (t_ignore t).
  Definition t_with_leading x := mkT (t_font t) (t_size t) (t_charspace t) (t_wordspace t) (t_scaling t) x (t_render t) (t_rise t) (t_matrix t) (t_lm t) (t_ignore t).
  Definition t_with_render x := mkT (t_font t) (t_size t) (t_charspace t) (t_wordspace t) (t_scaling t) (t_leading t) x (t_rise t) (t_matrix t) (t_lm t) (t_ignore t).
  Definition t_with_rise x := mkT (t_font t) (t_size t) (t_charspace t) (t_wordspace t) (t_scaling t) (t_leading t) (t_render t) x (t_matrix t) (t_lm t) (t_ignore t).
  Definition t_with_matrix x := mkT (t_font t) (t_size t) (t_charspace t) (t_wordspace t) (t_scaling t) (t_leading t) (t_render t) (t_rise t) x (t_lm t) (t_ignore t).
  Definition t_with_lm x := mkT (t_font t) (t_size t) (t_charspace t) (t_wordspace t) (t_scaling t) (t_leading t) (t_render t) (t_rise t) (t_matrix t) x (t_ignore t).
  Definition t_with_ignore x := mkT (t_font t) (t_size t) (t_charspace t) (t_wordspace t) (t_scaling t) (t_leading t) (t_render t) (t_rise t) (t_matrix t) (t_lm t) x.
End tsetters.
Section gsetters.
  Variable g : gstate.
  Definition g_with_width x := mkG x (g_cap g) (g_join g) (g_miter g) (g_dash g) (g_intent g) (g_flat g) (g_scolor g) (g_ncolor g) (g_scs g) (g_ncs g).
  Definition g_with_cap x := mkG (g_width g) x (g_join g) (g_miter g) (g_dash g) (g_intent g) (g_flat g) (g_scolor g) (g_ncolor g) (g_scs g) (g_ncs g).
  Definition g_with_join x := mkG (g_width g) (g_cap g) x (g_miter g) (g_dash g) (g_intent g) (g_flat g) (g_scolor g) (g_ncolor g) (g_scs g) (g_ncs g).
  Definition g_with_miter x := mkG (g_width g) (g_cap g) (g_join g) x (g_dash g) (g_intent g) (g_flat g) (g_scolor g) (g_ncolor g) (g_scs g) (g_ncs g).
  Definition g_with_dash x := mkG (g_width g) (g_cap g) (g_join g) (g_miter g) x (g_intent g) (g_flat g) (g_scolor g) (g_ncolor g) (g_scs g) (g_ncs g).
  Definition g_with_intent x := mkG (g_width g) (g_cap g) (g_join g) (g_miter g) (g_dash g) x (g_flat g) (g_scolor g) (g_ncolor g) (g_scs g) (g_ncs g).
  Definition g_with_flat x := mkG (g_width g) (g_cap g) (g_join g) (g_miter g) (g_dash g) (g_intent g) x (g_scolor g) (g_ncolor g) (g_scs g) (g_ncs g).
  Definition g_with_scs x := mkG (g_width g) (g_cap g) (g_join g) (g_miter g) (g_dash g) (g_intent g) (g_flat g) (g_scolor g) (g_ncolor g) x (g_ncs g).
  Definition g_with_ncs x := mkG (g_width g) (g_cap g) (g_join g) (g_miter g) (g_dash g) (g_intent g) (g_flat g) (g_scolor g) (g_ncolor g) (g_scs g) x.
  (* PDFGraphicState/__init__.py:19-22 and 24-27 *)
  Definition set_stroke_color (cs : option cspace) (vals : list obj) :=
    mkG (g_width g) (g_cap g) (g_join g) (g_miter g) (g_dash g) (g_intent g) (g_flat g)
      (mkColor (match cs with None => g_scs g | _ => cs end) vals) (g_ncolor g) (g_scs g) (g_ncs g).
  Definition set_nostroke_color (cs : option cspace) (vals : list obj) :=
    mkG (g_width g) (g_cap g) (g_join g) (g_miter g) (g_dash g) (g_intent g) (g_flat g)
      (g_scolor g) (mkColor (match cs with None => g_ncs g | _ => cs end) vals) (g_scs g) (g_ncs g).
End gsetters.

(* state/__init__.py:38-43 pop: argstack[-n:] and argstack[:-n]; n may be negative (it can come from the document) *)
Definition pop (s : istate) (n : Z) : list obj * istate :=
  let a := s_args s in
  if n =? 0 then ([], s)
  else let k := if 0 <? n then (length a - Z.to_nat n)%nat else Z.to_nat (- n) in
       (skipn k a, with_args s (firstn k a)).

(* a dictionary lookup by literal_name(x): KeyError, or TypeError for an unhashable key *)
Fixpoint assoc_get {A} (d : list (obj * A)) (k : obj) : option A :=
  match d with [] => None | (k', v) :: r => if key_eqb k' k then Some v else assoc_get r k end.
Fixpoint assoc_set {A} (d : list (obj * A)) (k : obj) (v : A) : list (obj * A) :=
  match d with [] => [(k, v)] | (k', v') :: r => if key_eqb k' k then (k', v) :: r else (k', v') :: assoc_set r k v end.

(* ---------- text: layout/utils/textdecoder.py ---------- *)
Fixpoint hset (h : list point) (a : nat) (p : point) : list point :=
  match h, a with
  | [], _ => []
  | _ :: r, O => p :: r
  | x :: r, S a' => x :: hset r a' p
  end.
Definition hget (h : list point) (a : nat) : point := nth a h (qz 0, qz 0).
(* linematrix[idx] += v; vertical: idx 1 *)
Definition advance (vertical : bool) (lm : point) (v : num) : point :=
  let '(x, y) := lm in if vertical then (x, y + v)%Qc else (x + v, y)%Qc.

(* 59-101 __compute_char_bbox; textdisp of a horizontal font is not used *)
Definition char_box (f : font) (ts : tstate) (m : matrix) (cid : Z) : num * (point * point) :=
  let size := t_size ts in
  let adv := (f_width f cid * size * t_scaling ts)%Qc in
  let '(bll, bur) :=
    if f_vertical f then
      let width := (f_bwidth f * size)%Qc in
      let '(vx, vy) := f_disp f cid in
      let vx' := match vx with None => (width * half)%Qc | Some v => (v * size * milli)%Qc end in
      let vy' := ((qz 1000 - vy) * size * milli)%Qc in
      let tx := (- vx')%Qc in
      let ty := (vy' + t_rise ts)%Qc in
      ((tx, (ty + adv)%Qc), ((tx + width)%Qc, ty))
    else
      let ty := (f_descent f * size + t_rise ts)%Qc in
      ((qz 0, ty), (adv, (ty + f_height f * size)%Qc)) in
  let '(x0, y0) := apply_matrix_pt m bll in
  let '(x1, y1) := apply_matrix_pt m bur in
  let '(x0, x1) := if qlt x1 x0 then (x1, x0) else (x0, x1) in
  let '(y0, y1) := if qlt y1 y0 then (y1, y0) else (y0, y1) in
  (adv, ((x0, y0), (x1, y1))).

(* PDFTextState/__init__.py:40-49 *)
Definition ts_unichr (f : font) (ts : tstate) (cid : Z) : res (list Z) :=
  match f_unichr f cid with Some t => Ok t | None => if t_ignore ts then Ok [] else Err UnicodeNotDefined end.

(* 37-55, the loop over the character ids of one string: current position, characters, needcharspace, error *)
Fixpoint render_cids (f : font) (ts : tstate) (lm : point) (need : bool) (cids : list Z) :
  point * list (list Z * (point * point)) * bool * option exn :=
  match cids with
  | [] => (lm, [], need, None)
  | cid :: r =>
      let lm1 := if need then advance (f_vertical f) lm (t_charspace ts) else lm in
      match ts_unichr f ts cid with
      | Err e => (lm1, [], need, Some e)
      | Ok text =>
          let '(adv, box) := char_box f ts (translate_matrix (t_matrix ts) lm1) cid in
          let lm2 := advance (f_vertical f) lm1 adv in
          let lm3 := if (cid =? 32) && negb (qeqb (t_wordspace ts) (qz 0))
                     then advance (f_vertical f) lm2 (t_wordspace ts) else lm2 in
          let '(lm4, cs, n, e) := render_cids f ts lm3 true r in
          (lm4, (text, box) :: cs, n, e)
      end
  end.
(* 25-57 __render_string_along.  An element that is neither a number nor a string: decode fails (TypeError).  Simplified: a simple font
   would take a nested array of numbers below 256 (or an empty dictionary) for a string of those bytes; here it fails as well. *)
Fixpoint render_seq (f : font) (ts : tstate) (dxscale : num) (lm : point) (need : bool) (seq : list obj) :
  point * list (list Z * (point * point)) * option exn :=
  match seq with
  | [] => (lm, [], None)
  | o :: r =>
      match num_of o with
      | Some v => render_seq f ts dxscale (advance (f_vertical f) lm (- (v * dxscale))%Qc) true r
      | None =>
          match (match o with OStr b => f_decode f b | _ => Err TypeError end) with
          | Err e => (lm, [], Some e)
          | Ok cids =>
              match render_cids f ts lm need cids with
              | (lm1, cs, n, Some e) => (lm1, cs, Some e)
              | (lm1, cs, n, None) =>
                  let '(lm2, cs2, e) := render_seq f ts dxscale lm1 n r in (lm2, cs ++ cs2, e)
              end
          end
      end
  end.
(* 4-23 decode_text_seq: the (copied) text state it leaves, and the rendering *)
Definition decode_ts (f : font) (ts : tstate) (ctm : matrix) : tstate :=
  let sc := (t_scaling ts * centi)%Qc in
  mkT (t_font ts) (t_size ts) (t_charspace ts * sc)%Qc (if f_multibyte f then qz 0 else (t_wordspace ts * sc)%Qc) sc
    (t_leading ts) (t_render ts) (t_rise ts) (mult_matrix (t_matrix ts) ctm) (t_lm ts) (t_ignore ts).
Definition dxscale_of (ts : tstate) : num := (milli * t_size ts * t_scaling ts)%Qc.

(* LTCharBlock.py:15-49 *)
Fixpoint cb_union (x0 y0 x1 y1 : num) (cs : list (list Z * (point * point))) : num * num * num * num :=
  match cs with
  | [] => (x0, y0, x1, y1)
  | (_, ((nx0, ny0), (nx1, ny1))) :: r =>
      let x0' := qmin (qmin (qmin x0 x1) nx0) nx1 in
      let x1' := qmax (qmax (qmax x0' x1) nx0) nx1 in
      let y1' := qmax (qmax (qmax y0 y1) ny0) ny1 in
      let y0' := qmin (qmin (qmin y0 y1') ny0) ny1 in
      cb_union x0' y0' x1' y1' r
  end.
Definition box_of (p : point * point) : bbox := let '((x0, y0), (x1, y1)) := p in Bbox x0 y0 x1 y1.
Definition char_block (cs : list (list Z * (point * point))) (ts : tstate) (c : color) : res charblock :=
  match cs with
  | [] => Err IndexError
  | (_, ((x0, y0), (x1, y1))) :: r =>
      let '(a, b, c', d) := cb_union x0 y0 x1 y1 r in
      Ok (mkCB (map (fun q => (fst q, box_of (snd q))) cs) (Bbox a b c' d) c ts)
  end.
(* LTTextBlock.py:22-41 *)
Definition block_add (b : textblock) (c : charblock) : textblock :=
  mkTB (Some (match tb_box b with
              | None => cb_box c
              | Some x => mkBox (qmin (bx0 x) (bx0 (cb_box c))) (qmin (by0 x) (by0 (cb_box c)))
                                (qmax (bx1 x) (bx1 (cb_box c))) (qmax (by1 x) (by1 (cb_box c)))
              end)) (tb_blocks b ++ [c]).

(* ---------- curves: layout/__init__.py:22-111 ---------- *)
Definition curve_box (paths : list seg) : bbox :=
  let upd acc (p : point) := let '(x0, y0, x1, y1) := acc in let '(x, y) := p in
     (qmin x0 x, qmin y0 y, qmax x1 x, qmax y1 y) in
  let '(x0, y0, x1, y1) := fold_left (fun acc sg =>
     match sg with
     | SMove p | SLine p => upd acc p
     | SBoth _ _ p => upd acc p
     | SNext _ p | SFirst _ p => upd acc p
     | SClose => acc
     end) paths (INF, INF, (- INF)%Qc, (- INF)%Qc) in
  Bbox x0 y0 x1 y1.
Definition make_curve (ctm : matrix) (g : gstate) (evenodd : bool) (paths : list seg) : item :=
  let curve k box := ICurve k (g_width g) paths box (g_scolor g) (g_ncolor g) evenodd in
  match paths with
  | [SMove p0; SLine p1] =>
      let '(x0, y0) := apply_matrix_pt ctm p0 in
      let '(x1, y1) := apply_matrix_pt ctm p1 in
      curve (if qeqb x0 x1 then CVert else if qeqb y0 y1 then CHoriz else CLine) (Bbox x0 y0 x1 y1)
  | [SMove p0; SLine p1; SLine p2; SLine p3; SClose] =>
      let '(x0, y0) := apply_matrix_pt ctm p0 in
      let '(x1, y1) := apply_matrix_pt ctm p1 in
      let '(x2, y2) := apply_matrix_pt ctm p2 in
      let '(x3, y3) := apply_matrix_pt ctm p3 in
      if (qeqb x0 x1 && qeqb y1 y2 && qeqb x2 x3 && qeqb y3 y0) || (qeqb y0 y1 && qeqb x1 x2 && qeqb y2 y3 && qeqb x3 x0)
      then curve CRect (Bbox (qmin (qmin (qmin x0 x1) x2) x3) (qmin (qmin (qmin y0 y1) y2) y3)
                             (qmax (qmax (qmax x0 x1) x2) x3) (qmax (qmax (qmax y0 y1) y2) y3))
      else INone
  | _ => curve CCurve (curve_box paths)
  end.
(* 113-122 *)
Definition make_image (strm : obj) (ctm : matrix) : item :=
  let m := mult_matrix matrix_identity ctm in
  IImage strm (from_points (map (apply_matrix_pt m) [(qz 0, qz 0); (qz 1, qz 0); (qz 0, qz 1); (qz 1, qz 1)])).
(* 124-135 *)
Definition make_xobject (strm : obj) (b : list num) (ctm : matrix) (m : matrix) (resources : obj) : res pending :=
  match b with
  | [x; y; w; h] =>
      Ok (PXObj strm (from_points (map (apply_matrix_pt m) [(x, y); (x + w, y)%Qc; (x, y + h)%Qc; (x + w, y + h)%Qc])) resources ctm)
  | _ => Err ValueError
  end.

(* ---------- commands.py ---------- *)
Inductive op :=
| o_q | o_Q | o_cm | o_w | o_J | o_j | o_M | o_d | o_ri | o_i | o_m | o_l | o_c | o_v | o_y | o_h | o_re
| o_paint | o_paint_eo | o_close_paint | o_close_paint_eo | o_n | o_CS | o_cs | o_G | o_g | o_RG | o_rg | o_K | o_k
| o_SCN | o_scn | o_BT | o_ET | o_Tc | o_Tw | o_Tz | o_TL | o_Tf | o_Tr | o_Ts | o_Td | o_TD | o_Tm | o_Tstar | o_TJ
| o_Tj | o_quote | o_dquote | o_EI | o_Do.

(* the names given to @PDFCommands.add (commands.py, in order) *)
Definition command_table : list (string * op) :=
  ([("q", o_q); ("Q", o_Q); ("cm", o_cm); ("w", o_w); ("J", o_J); ("j", o_j); ("M", o_M); ("d", o_d); ("ri", o_ri);
   ("i", o_i); ("m", o_m); ("l", o_l); ("c", o_c); ("v", o_v); ("y", o_y); ("h", o_h); ("re", o_re);
   ("S", o_paint); ("f", o_paint); ("F", o_paint); ("B", o_paint); ("f_a", o_paint_eo); ("B_a", o_paint_eo);
   ("s", o_close_paint); ("b", o_close_paint); ("b_a", o_close_paint_eo); ("n", o_n); ("CS", o_CS); ("cs", o_cs);
   ("G", o_G); ("g", o_g); ("RG", o_RG); ("rg", o_rg); ("K", o_K); ("k", o_k); ("SCN", o_SCN); ("SC", o_SCN);
   ("scn", o_scn); ("sc", o_scn); ("BT", o_BT); ("ET", o_ET); ("Tc", o_Tc); ("Tw", o_Tw); ("Tz", o_Tz); ("TL", o_TL);
   ("Tf", o_Tf); ("Tr", o_Tr); ("Ts", o_Ts); ("Td", o_Td); ("TD", o_TD); ("Tm", o_Tm); ("T_a", o_Tstar); ("TJ", o_TJ);
   ("Tj", o_Tj); ("_q", o_quote); ("_w", o_dquote); ("EI", o_EI); ("Do", o_Do)])%string.
(* __init__.py:29-30: an asterisk becomes _a, a double quote _w, a single quote _q.  keyword_name decodes the bytes as UTF-8,
   dropping malformed sequences; here a keyword with a byte over 127 is kept as it is (and so is unknown). *)
Definition mangle (k : list Z) : list Z :=
  flat_map (fun c => if c =? 42 then bs "_a" else if c =? 34 then bs "_w" else if c =? 39 then bs "_q" else [c]) k.
Fixpoint find_command (t : list (string * op)) (m : list Z) : option op :=
  match t with [] => None | (n, o) :: r => if list_eqb (bs n) m then Some o else find_command r m end.
Definition command (k : list Z) : option op := find_command command_table (mangle k).
(* func.__code__.co_argcount - 1 *)
Definition arity (o : op) : nat :=
  match o with
  | o_cm | o_c | o_Tm => 6 | o_v | o_y | o_re | o_K | o_k => 4 | o_RG | o_rg | o_dquote => 3
  | o_d | o_m | o_l | o_Tf | o_Td | o_TD => 2
  | o_w | o_J | o_j | o_M | o_ri | o_i | o_CS | o_cs | o_G | o_g | o_Tc | o_Tw | o_Tz | o_TL | o_Tr | o_Ts | o_TJ | o_Tj
  | o_quote | o_EI | o_Do => 1
  | o_q | o_Q | o_h | o_paint | o_paint_eo | o_close_paint | o_close_paint_eo | o_n | o_SCN | o_scn | o_BT | o_ET | o_Tstar => 0
  end.

(* the state a command leaves, and the exception it raises *)
Definition cmd : Type := (istate * option exn)%type.
Definition ok (s : istate) : cmd := (s, None).
Definition fail (s : istate) (e : exn) : cmd := (s, Some e).

(* text.linematrix = [0, 0]: a new list *)
Definition fresh_lm (s : istate) (t : tstate) : istate :=
  with_heap (with_text s (t_with_lm t (length (s_heap s)))) (s_heap s ++ [(qz 0, qz 0)]).
(* commands.py:413-418 Td, 421-427 TD and 437-442 T*: the text matrix moved by (tx, ty) *)
Definition move_text (t : tstate) (tx ty : num) : tstate := t_with_matrix t (translate_matrix (t_matrix t) (tx, ty)).

(* commands.py:445-457 TJ *)
Definition show (s : istate) (seq : list obj) : cmd :=
  match t_font (s_text s) with
  | None => fail s InvalidOperation
  | Some f =>
      match s_block s with
      | None => fail s InvalidOperation
      | Some b =>
          let ts := decode_ts f (s_text s) (s_ctm s) in
          let '(lm, cs, e) := render_seq f ts (dxscale_of ts) (hget (s_heap s) (t_lm ts)) false seq in
          let s1 := with_heap s (hset (s_heap s) (t_lm ts) lm) in
          match e with
          | Some e => fail s1 e
          | None => match char_block cs ts (g_ncolor (s_g s)) with
                    | Ok cb => ok (with_block s1 (Some (block_add b cb)))
                    | Err e => fail s1 e
                    end
          end
      end
  end.
(* commands.py:437-442 T* *)
Definition nextline (s : istate) : istate := fresh_lm s (move_text (s_text s) (qz 0) (t_leading (s_text s))).
(* painting: commands.py:190-241 *)
Definition paint (s : istate) (evenodd : bool) (path : list seg) : istate :=
  with_path (with_done s (s_done s ++ [PItem (make_curve (s_ctm s) (s_g s) evenodd path)])) [].
Definition device (s : istate) (n : string) (f : option cspace -> gstate) : cmd :=
  match assoc_get (s_cs s) (ON n) with Some cs => ok (with_g s (f cs)) | None => fail s KeyError end.
Definition with_num (s : istate) (args : list obj) (f : list num -> option istate) : cmd :=
  match nums args with
  | Some v => match f v with Some s' => ok s' | None => fail s TypeError end
  | None => fail s TypeError
  end.

Section exec.
  Context (getobj : Z -> option obj) (depth : nat).
  (* validated_stream, STRICT off *)
  Definition validated_stream (o : obj) : res obj :=
    do x <- resolved getobj depth o; Ok (match x with OStream _ _ => x | _ => OStream [] [] end).
  Definition sattrs (o : obj) : list (obj * obj) := match o with OStream d _ => d | _ => [] end.

  (* the item a command adds to complete_layout_items, if any *)
  Definition add_item (s : istate) (r : res (option pending)) : cmd :=
    match r with Err e => fail s e | Ok None => ok s | Ok (Some p) => ok (with_done s (s_done s ++ [p])) end.
  (* 476-482 EI *)
  Definition item_EI (ctm : matrix) (o : obj) : res (option pending) :=
    match o with
    | OStream d _ => Ok (match dget d "W", dget d "H" with Some _, Some _ => Some (PItem (make_image o ctm)) | _, _ => None end)
    | OArr _ => Ok None
    | ODict d => match dget d "W", dget d "H" with Some _, Some _ => Err AttributeError | _, _ => Ok None end
    | _ => Err TypeError
    end.
  (* 485-519 Do *)
  Definition form_matrix (o : option obj) : res matrix :=
    match o with
    | None => Ok matrix_identity
    | Some mo => do l <- list_value getobj depth mo;
                 match nums l with
                 | Some [a; b'; c; d'; e; f] => Ok (a, b', c, d', e, f)
                 | Some _ => Err ValueError
                 | None => Err TypeError
                 end
    end.
  (* of these lines: the form's own Resources, or a copy of those of the page.  Simplified: page resources that are not a dictionary fail
     there (AttributeError); here they are handed on and fail when they are read *)
  Definition form_resources (page : obj) (o : option obj) : res obj :=
    match o with
    | None => Ok page
    | Some r => if truthy r then do rd <- dict_value getobj depth r; Ok (ODict rd) else Ok page
    end.
  Definition item_Do (xobjs : list (obj * obj)) (ctm : matrix) (page : obj) (o : obj) : res (option pending) :=
    if negb (hashable o) then Err TypeError else
    match assoc_get xobjs o with
    | None => Err InvalidOperation
    | Some x =>
        do strm <- validated_stream x;
        let d := sattrs strm in
        let sub n := match dget d "Subtype" with Some (OName st) => list_eqb st (bs n) | _ => false end in
        match sub "Form"%string, dget d "BBox" with
        | true, Some bb =>
            do b <- list_value getobj depth bb;
            do m <- form_matrix (dget d "Matrix");
            do r <- form_resources page (dget d "Resources");
            match nums b with Some v => do p <- make_xobject strm v ctm m r; Ok (Some p) | None => Err TypeError end
        | _, _ =>
            match sub "Image"%string, dget d "Width", dget d "Height" with
            | true, Some _, Some _ => Ok (Some (PItem (make_image strm ctm)))
            | _, _, _ => Ok None
            end
        end
    end.

  Definition exec (o : op) (args : list obj) (s : istate) : cmd :=
    let t := s_text s in
    let g := s_g s in
    match o, args with
    (* 52-59 *) | o_q, [] => ok (with_gstack s (s_gstack s ++ [(s_ctm s, t, g)]))
    (* 61-65: the third saved value goes to an attribute that is never read *)
    | o_Q, [] => match rev (s_gstack s) with
                 | [] => ok s
                 | (m, t', _) :: r => ok (with_gstack (with_ctm (with_text s t') m) (rev r))
                 end
    (* 68-71 *) | o_cm, _ => with_num s args (fun v => match v with
                   | [a; b; c; d; e; f] => Some (with_ctm s (mult_matrix (a, b, c, d, e, f) (s_ctm s))) | _ => None end)
    (* 74-113 *) | o_w, [x] => ok (with_g s (g_with_width g x))
    | o_J, [x] => ok (with_g s (g_with_cap g x))
    | o_j, [x] => ok (with_g s (g_with_join g x))
    | o_M, [x] => ok (with_g s (g_with_miter g x))
    | o_d, [x; y] => ok (with_g s (g_with_dash g (Some (x, y))))
    | o_ri, [x] => ok (with_g s (g_with_intent g x))
    | o_i, [x] => ok (with_g s (g_with_flat g x))
    (* 116-187 *) | o_m, _ => with_num s args (fun v => match v with [x; y] => Some (with_path s (s_path s ++ [SMove (x, y)])) | _ => None end)
    | o_l, _ => with_num s args (fun v => match v with [x; y] => Some (with_path s (s_path s ++ [SLine (x, y)])) | _ => None end)
    | o_c, _ => with_num s args (fun v => match v with
        [x1; y1; x2; y2; x3; y3] => Some (with_path s (s_path s ++ [SBoth (x1, y1) (x2, y2) (x3, y3)])) | _ => None end)
    | o_v, _ => with_num s args (fun v => match v with
        [x2; y2; x3; y3] => Some (with_path s (s_path s ++ [SNext (x2, y2) (x3, y3)])) | _ => None end)
    | o_y, _ => with_num s args (fun v => match v with
        [x1; y1; x3; y3] => Some (with_path s (s_path s ++ [SFirst (x1, y1) (x3, y3)])) | _ => None end)
    | o_h, [] => ok (with_path s (s_path s ++ [SClose]))
    | o_re, _ => with_num s args (fun v => match v with
        [x; y; w; h] => Some (with_path s (s_path s ++
           [SMove (x, y); SLine (x + w, y)%Qc; SLine (x + w, y + h)%Qc; SLine (x, y + h)%Qc; SClose])) | _ => None end)
    (* 190-247 *) | o_paint, [] => ok (paint s false (s_path s))
    | o_paint_eo, [] => ok (paint s true (s_path s))
    | o_close_paint, [] => ok (paint s false (s_path s ++ [SClose]))
    | o_close_paint_eo, [] => ok (paint s true (s_path s ++ [SClose]))
    | o_n, [] => ok (with_path s [])
    (* 251-266 *) | o_CS, [x] => if negb (hashable x) then fail s TypeError else
        match assoc_get (s_cs s) x with Some cs => ok (with_g s (g_with_scs g cs)) | None => fail s InvalidOperation end
    | o_cs, [x] => if negb (hashable x) then fail s TypeError else
        match assoc_get (s_cs s) x with Some cs => ok (with_g s (g_with_ncs g cs)) | None => fail s InvalidOperation end
    (* 269-316 *) | o_G, [x] => device s "DeviceGray" (fun cs => set_stroke_color g cs [x])
    | o_g, [x] => device s "DeviceGray" (fun cs => set_nostroke_color g cs [x])
    | o_RG, _ => match nums args with
        | Some v => device s "DeviceRGB" (fun cs => set_stroke_color g cs (map (fun x => OInt (qround (x * qz 255)%Qc)) v))
        | None => fail s TypeError end
    | o_rg, _ => match nums args with
        | Some v => device s "DeviceRGB" (fun cs => set_nostroke_color g cs (map (fun x => OInt (qround (x * qz 255)%Qc)) v))
        | None => fail s TypeError end
    | o_K, _ => device s "DeviceCMYK" (fun cs => set_stroke_color g cs args)
    (* 319-325 calls set_stroke_color *)
    | o_k, _ => device s "DeviceCMYK" (fun cs => set_stroke_color g cs args)
    (* 327-347 *) | o_SCN, [] => match g_scs g with
        | None => fail s InvalidOperation
        | Some cs => match cs_n cs with
                     | OInt n => let (v, s1) := pop s n in ok (with_g s1 (set_stroke_color g (Some cs) v))
                     | _ => fail s TypeError end
        end
    | o_scn, [] => match g_ncs g with
        | None => fail s InvalidOperation
        | Some cs => match cs_n cs with
                     | OInt n => let (v, s1) := pop s n in ok (with_g s1 (set_nostroke_color g (Some cs) v))
                     | _ => fail s TypeError end
        end
    (* 350-364 *) | o_BT, [] =>
        let s1 := fresh_lm s (t_with_matrix t matrix_identity) in
        match s_block s with None => ok (with_block s1 (Some (mkTB None []))) | Some _ => fail s1 InvalidOperation end
    | o_ET, [] => ok (with_block (with_done s (s_done s ++ [PItem (match s_block s with None => INone | Some b => IText b end)])) None)
    (* 367-410 *) | o_Tc, _ => with_num s args (fun v => match v with [x] => Some (with_text s (t_with_charspace t x)) | _ => None end)
    | o_Tw, _ => with_num s args (fun v => match v with [x] => Some (with_text s (t_with_wordspace t x)) | _ => None end)
    | o_Tz, _ => with_num s args (fun v => match v with [x] => Some (with_text s (t_with_scaling t x)) | _ => None end)
    | o_TL, _ => with_num s args (fun v => match v with [x] => Some (with_text s (t_with_leading t (- x)%Qc)) | _ => None end)
    | o_Tf, [n; x] =>
        match num_of x with
        | None => fail s TypeError
        | Some size =>
            let s1 := with_text s (t_with_size t size) in
            if negb (hashable n) then fail s1 TypeError else
            match assoc_get (s_fonts s) n with
            | Some f => ok (with_text s1 (t_with_font (s_text s1) (Some f)))
            | None => fail s1 InvalidOperation
            end
        end
    | o_Tr, [x] => ok (with_text s (t_with_render t x))
    | o_Ts, _ => with_num s args (fun v => match v with [x] => Some (with_text s (t_with_rise t x)) | _ => None end)
    (* 413-442 *) | o_Td, _ => with_num s args (fun v => match v with [tx; ty] => Some (fresh_lm s (move_text t tx ty)) | _ => None end)
    | o_TD, _ => with_num s args (fun v => match v with [tx; ty] => Some (fresh_lm s (t_with_leading (move_text t tx ty) ty)) | _ => None end)
    | o_Tm, _ => with_num s args (fun v => match v with
        [a; b; c; d; e; f] => Some (fresh_lm s (t_with_matrix t (a, b, c, d, e, f))) | _ => None end)
    | o_Tstar, [] => ok (nextline s)
    (* 445-474 *) | o_TJ, [x] =>
        match x with
        | OArr l => show s l
        | OStr b => show s (map OInt b)
        | _ => match t_font t, s_block s with Some _, Some _ => fail s TypeError | _, _ => fail s InvalidOperation end
        end
    | o_Tj, [x] => show s [x]
    | o_quote, [x] => show (nextline s) [x]
    | o_dquote, [w; c; x] =>
        match num_of w, num_of c with
        | Some w', Some c' => show (with_text s (t_with_charspace (t_with_wordspace t w') c')) [x]
        | _, _ => fail s TypeError
        end
    | o_EI, [x] => add_item s (item_EI (s_ctm s) x)
    | o_Do, [x] => add_item s (item_Do (s_xobjs s) (s_ctm s) (s_resources s) x)
    | _, _ => fail s TypeError
    end.

  (* __init__.py:26-50: one object of the content stream *)
  Definition step (s : istate) (o : obj) : cmd :=
    match o with
    | OKwd k =>
        match command k with
        | Some c =>
            if Nat.eqb (arity c) 0 then exec c [] s
            else let (args, s1) := pop s (Z.of_nat (arity c)) in
                 if Nat.eqb (length args) (arity c) then exec c args s1 else fail s1 CommandProcessorError
        | None => ok s
        end
    | _ => ok (with_args s (s_args s ++ [o]))
    end.

  (* objects one after the other, without yielding *)
  Fixpoint steps (s : istate) (l : list obj) : cmd :=
    match l with
    | [] => ok s
    | o :: r => match step s o with (s', None) => steps s' r | x => x end
    end.

  (* ---------- resources: utils.py ---------- *)
  Context (mkfont : obj -> res font).   (* get_font on a reference or dictionary; the font cache is not modelled here *)
  (* 11-22 get_colorspace *)
  Definition get_colorspace (spec : obj) : res (option cspace) :=
    do name <- match spec with OArr (x :: _) => Ok x | OArr [] => Err IndexError | x => Ok x end;
    let is n := match name with OName m => list_eqb m (bs n) | _ => false end in
    match spec with
    | OArr (_ :: x :: _) =>
        if is "ICCBased"%string then
          do st <- validated_stream x;
          match dget (sattrs st) "N" with Some n => Ok (Some (mkCs name n)) | None => Err KeyError end
        else if is "DeviceN"%string then
          do l <- list_value getobj depth x; Ok (Some (mkCs name (OInt (Z.of_nat (length l)))))
        else if hashable name then Ok (match assoc_get predefined_cs name with Some c => c | None => None end) else Err TypeError
    | _ => if hashable name then Ok (match assoc_get predefined_cs name with Some c => c | None => None end) else Err TypeError
    end.
  Fixpoint fold_res {A B} (f : A -> B -> res A) (a : A) (l : list B) : res A :=
    match l with [] => Ok a | x :: r => do a' <- f a x; fold_res f a' r end.
  (* 34-52 init_resources *)
  Definition init_resources (s : istate) : res istate :=
    do d <- dict_value getobj depth (s_resources s);
    fold_res (fun s kv =>
      let is n := match fst kv with OName m => list_eqb m (bs n) | _ => false end in
      if is "Font"%string then
        do fs <- dict_value getobj depth (snd kv);
        fold_res (fun s e => do f <- mkfont (snd e); Ok (with_fonts s (assoc_set (s_fonts s) (fst e) f))) s fs
      else if is "ColorSpace"%string then
        do cs <- dict_value getobj depth (snd kv);
        fold_res (fun s e => do x <- resolved getobj depth (snd e); do c <- get_colorspace x; Ok (with_cs s (assoc_set (s_cs s) (fst e) c))) s cs
      else if is "ProcSet"%string then do _ <- list_value getobj depth (snd kv); Ok s
      else if is "XObject"%string then
        do xs <- dict_value getobj depth (snd kv);
        fold_res (fun s e => Ok (with_xobjs s (assoc_set (s_xobjs s) (fst e) (snd e)))) s xs
      else Ok s) s d.
  (* __init__.py:71-81 prep_state, on a new PDFStateStack *)
  Definition prep_state (ctm : matrix) (resources : obj) (ignore : bool) : res istate :=
    let s := with_text (with_resources (with_ctm s0 ctm) resources) (t_with_ignore t0 ignore) in
    let cs := match s_cs s with (_, c) :: _ => c | [] => None end in
    init_resources (with_g s (g_with_ncs (g_with_scs (s_g s) cs) cs)).

  (* ---------- process_command_stream ---------- *)
  Context (parse : list obj -> gen obj).   (* PDFContentParser on the streams *)
  (* the children of one completed item: the XObject's content run in a new state (__init__.py:53-68) *)
  Definition finish (nested : istate -> list obj -> gen item * istate) (g : gstate) (p : pending) : gen item :=
    match p with
    | PItem i => ([i], None)
    | PXObj strm box resources ctm =>
        match prep_state ctm resources false with
        | Err e => gfail e
        | Ok xs => let '((children, e), _) := nested (with_g xs g) [strm] in
                   match e with None => ([IXObj strm box children], None) | Some e => gfail e end
        end
    end.
  Fixpoint run (nested : istate -> list obj -> gen item * istate) (s : istate) (l : list obj) : gen item * istate :=
    match l with
    | [] => (gnil, s)
    | o :: r =>
        match step s o with
        | (s1, Some e) => (gfail e, s1)
        | (s1, None) =>
            let g1 := gflat (finish nested (s_g s1)) (s_done s1) in
            match snd g1 with
            | Some _ => (g1, s1)
            | None => let (g2, s2) := run nested (with_done s1 []) r in (gapp g1 g2, s2)
            end
        end
    end.
  (* fuel: nesting depth of XObjects *)
  Fixpoint process (fuel : nat) (s : istate) (streams : list obj) : gen item * istate :=
    match fuel with
    | O => (gfail OutOfFuel, s)
    | S f => let (objs, e) := parse streams in
             let '((items, e1), s1) := run (process f) s objs in
             ((items, match e1 with None => e | Some _ => e1 end), s1)
    end.
End exec.
