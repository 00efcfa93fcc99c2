(* The JSON file of a document as a JSON value, stated on the items of the pages. *)
From Coq Require Import String.
From Verif Require Import Base Obj Num Geom_Model Page_Model Interp_Model.
From Verif Require Import Markup_Model Markup_Spec Convert_Model XmlFile_Spec.  (* of the models only the types of items and pages *)
From Coq Require Import Qcanon.
Open Scope Z_scope.
Import ListNotations.

Section spec.
  (* how numbers, colour values and images are named, and the entries of the font descriptor of a text state *)
  Context (num_text : num -> list Z) (val_text : obj -> list Z) (image_name : obj -> list Z) (descriptor : tstate -> list (list Z * list Z)).

  Definition n_json (q : num) : json := JNum (num_text q).
  Definition box_members (b : bbox) : list (list Z * json) :=
    [(bs "x0", n_json (bx0 b)); (bs "x1", n_json (bx1 b)); (bs "y0", n_json (by0 b)); (bs "y1", n_json (by1 b))].
  (* a colour: the name of its space and its values, as strings *)
  Definition color_members (key : list Z) (c : color) : list (list Z * json) :=
    match c_space c with
    | Some cs => [(key, JObj [(bs "type", JStr match cs_name cs with OName n => n | _ => [] end); (bs "value", JArr (map (fun v => JStr (val_text v)) (c_vals c)))])]
    | None => []
    end.
  (* a run of characters: size, box, colour, the entries shown of the font descriptor, and the text *)
  Definition block_members (cb : charblock) : list (list Z * json) :=
    (bs "size", n_json (v_size cb)) :: box_members (cb_box cb) ++ color_members (bs "color") (cb_color cb) ++
    map (fun kv => (fst kv, JStr (snd kv))) (shown_entries (descriptor (cb_text cb))) ++ [(bs "text", JStr (concat (map fst (cb_chars cb))))].
  Definition point_json (p : point) : json := JObj [(bs "x", n_json (fst p)); (bs "y", n_json (snd p))].
  Definition seg_json (s : seg) : json :=
    match s with
    | SMove p => JObj [(bs "type", JStr (bs "MOVE_TO")); (bs "points", JArr [point_json p])]
    | SLine p => JObj [(bs "type", JStr (bs "LINE_TO")); (bs "points", JArr [point_json p])]
    | SBoth p q r => JObj [(bs "type", JStr (bs "CURVE_BOTH_TO")); (bs "points", JArr [point_json p; point_json q; point_json r])]
    | SNext p q => JObj [(bs "type", JStr (bs "CURVE_NEXT_TO")); (bs "points", JArr [point_json p; point_json q])]
    | SFirst p q => JObj [(bs "type", JStr (bs "CURVE_FIRST_TO")); (bs "points", JArr [point_json p; point_json q])]
    | SClose => JObj [(bs "type", JStr (bs "CLOSE_PATH")); (bs "points", JArr [])]
    end.
  Fixpoint item_json (i : item) : json :=
    match i with
    | INone => JObj []
    | IText b => JObj ((bs "type", JStr (bs "text-block")) :: match tb_box b with Some x => box_members x | None => [] end ++
                       [(bs "char_blocks", JArr (map (fun cb => JObj (block_members cb)) (tb_blocks b)))])
    | IImage s b => JObj ((bs "type", JStr (bs "img")) :: (bs "src", JStr (image_name s)) :: box_members b)
    | IXObj _ b children => JObj ((bs "type", JStr (bs "xobject")) :: box_members b ++ [(bs "children", JArr (map item_json children))])
    | ICurve k _ paths b stroke fill _ =>
        JObj (box_members b ++ color_members (bs "fill") fill ++ color_members (bs "stroke") stroke ++
          match k with
          | CRect => [(bs "type", JStr (bs "rect"))]
          | CLine | CVert | CHoriz => [(bs "type", JStr (bs "line"))]
          | CCurve => [(bs "type", JStr (bs "curve")); (bs "paths", JArr (map seg_json paths))]
          end)
    end.
  Definition page_json (p : opage) : json :=
    JObj [(bs "id", JNum (py_str_int (pg_num p))); (bs "width", n_json (pg_width p)); (bs "height", n_json (pg_height p));
          (bs "children", JArr (map item_json (fst (pg_items p))))].
  Definition pages_json (ps : list opage) : json := JObj [(bs "pages", JArr (map page_json ps))].

  (* ---------- what the values must be like ---------- *)
  (* ASCII characters that HTML does not escape *)
  Definition unescaped (x : list Z) : Prop := Forall (fun c => 0 <= c < 128 /\ c <> 38 /\ c <> 60 /\ c <> 62 /\ c <> 34) x.
  Definition jcolor_ok (c : color) : Prop :=
    match c_space c with Some cs => (forall n, cs_name cs = OName n -> unescaped n) /\ Forall (fun v => unescaped (val_text v)) (c_vals c) | None => True end.
  Definition jblock_ok (cb : charblock) : Prop :=
    Forall (fun c => Forall plain_char (fst c)) (cb_chars cb) /\ jcolor_ok (cb_color cb) /\
    Forall (fun kv => Forall (fun c => plain_char c /\ c <> 34) (fst kv) /\ Forall plain_char (snd kv)) (shown_entries (descriptor (cb_text cb))) /\
    NoDup (map fst (block_members cb)).
  Inductive JOkItem : item -> Prop :=
  | jok_none : JOkItem INone
  | jok_text x l : Forall jblock_ok l -> JOkItem (IText (mkTB (Some x) l))
  | jok_image s b : Forall (fun c => plain_char c /\ c <> 38 /\ c <> 60 /\ c <> 62 /\ c <> 34) (image_name s) -> JOkItem (IImage s b)
  | jok_form s b l : Forall JOkItem l -> JOkItem (IXObj s b l)
  | jok_curve k w p b st f e : jcolor_ok st -> jcolor_ok f -> JOkItem (ICurve k w p b st f e).
End spec.

(* the pages the reader gets to: none after one whose interpretation ends with an exception *)
Fixpoint reached (ps : list opage) : list opage :=
  match ps with
  | [] => []
  | p :: r => match snd (pg_items p) with Some _ => [p] | None => p :: reached r end
  end.
(* whether an exception comes out *)
Definition raised (ps : list opage) (e : option exn) : Prop := e <> None \/ exists p, In p ps /\ snd (pg_items p) <> None.
