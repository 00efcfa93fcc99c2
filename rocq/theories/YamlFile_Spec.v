(* The YAML file of a document as a YAML value, stated on the items of the pages. *)
From Coq Require Import String.
From Verif Require Import Base Obj Num Geom_Model Page_Model Interp_Model.
From Verif Require Import Markup_Model Markup_Spec Convert_Model XmlFile_Spec JsonFile_Spec Yaml_Spec.  (* of the models only the types of items and pages *)
From Coq Require Import Qcanon.
Open Scope Z_scope.
Import ListNotations.

Section spec.
  (* how numbers, colour values and images are named, and the entries of the font descriptor of a text state *)
  Context (num_text : num -> list Z) (val_text : obj -> list Z) (image_name : obj -> list Z) (descriptor : tstate -> list (list Z * list Z)).

  (* block sequences and mappings have at least one member: with none, there is only the key, which is null *)
  Definition y_list (l : list yaml) : yaml := match l with [] => YNull | _ => YSeq l end.
  Definition y_map (l : list (list Z * yaml)) : yaml := match l with [] => YNull | _ => YMap l end.
  Definition y_num (q : num) : yaml := YStr (num_text q).
  Definition box_entries (b : bbox) : list (list Z * yaml) :=
    [(bs "x0", y_num (bx0 b)); (bs "x1", y_num (bx1 b)); (bs "y0", y_num (by0 b)); (bs "y1", y_num (by1 b))].
  Definition none_entries : list (list Z * yaml) := map (fun k => (bs k, YStr (bs "None"))) ["x0"; "x1"; "y0"; "y1"]%string.
  (* a colour: the name of its space and its values, as strings *)
  Definition color_entries (key : list Z) (c : color) : list (list Z * yaml) :=
    match c_space c with
    | Some cs => [(key, YMap [(bs "type", YStr match cs_name cs with OName n => n | _ => [] end); (bs "value", YSeq (map (fun v => YStr (val_text v)) (c_vals c)))])]
    | None => []
    end.
  (* a run of characters: size, box, colour, the entries shown of the font descriptor, and the text *)
  Definition block_entries (cb : charblock) : list (list Z * yaml) :=
    (bs "size", y_num (v_size cb)) :: box_entries (cb_box cb) ++ color_entries (bs "color") (cb_color cb) ++
    map (fun kv => (fst kv, YStr (snd kv))) (shown_entries (descriptor (cb_text cb))) ++ [(bs "text", YStr (concat (map fst (cb_chars cb))))].
  Definition point_yaml (p : point) : yaml := YMap [(bs "x", y_num (fst p)); (bs "y", y_num (snd p))].
  Definition seg_yaml (s : seg) : yaml :=
    match s with
    | SMove p => YMap [(bs "type", YStr (bs "MOVE_TO")); (bs "points", YSeq [point_yaml p])]
    | SLine p => YMap [(bs "type", YStr (bs "LINE_TO")); (bs "points", YSeq [point_yaml p])]
    | SBoth p q r => YMap [(bs "type", YStr (bs "CURVE_BOTH_TO")); (bs "points", YSeq [point_yaml p; point_yaml q; point_yaml r])]
    | SNext p q => YMap [(bs "type", YStr (bs "CURVE_NEXT_TO")); (bs "points", YSeq [point_yaml p; point_yaml q])]
    | SFirst p q => YMap [(bs "type", YStr (bs "CURVE_FIRST_TO")); (bs "points", YSeq [point_yaml p; point_yaml q])]
    | SClose => YMap [(bs "type", YStr (bs "CLOSE_PATH")); (bs "points", YSeq [])]
    end.
  Fixpoint item_yaml (i : item) : yaml :=
    match i with
    | INone => YNull
    | IText b => YMap ((bs "type", YStr (bs "text-block")) :: match tb_box b with Some x => box_entries x | None => none_entries end ++
                       [(bs "char_blocks", y_list (map (fun cb => YMap (block_entries cb)) (tb_blocks b)))])
    | IImage s b => YMap ((bs "type", YStr (bs "img")) :: (bs "src", YStr (image_name s)) :: box_entries b)
    | IXObj _ b children => YMap ((bs "type", YStr (bs "xobject")) :: box_entries b ++ [(bs "children", y_list (map item_yaml children))])
    | ICurve k _ paths b stroke fill _ =>
        YMap (match k with
          | CRect => [(bs "type", YStr (bs "rect"))]
          | CLine | CVert | CHoriz => [(bs "type", YStr (bs "line"))]
          | CCurve => [(bs "type", YStr (bs "curve")); (bs "paths", y_list (map seg_yaml paths))]
          end ++ box_entries b ++ color_entries (bs "fill") fill ++ color_entries (bs "stroke") stroke)
    end.
  Definition page_yaml (p : opage) : yaml :=
    YMap [(bs "id", YStr (py_str_int (pg_num p))); (bs "width", y_num (pg_width p)); (bs "height", y_num (pg_height p));
          (bs "children", y_list (map item_yaml (fst (pg_items p))))].
  Definition pages_yaml (ps : list opage) : yaml := YMap [(bs "pages", y_list (map page_yaml ps))].

  (* ---------- what the values must be like ---------- *)
  (* a number: digits, signs, points and exponents *)
  Definition number_text (x : list Z) : bool :=
    match x with
    | c :: r => (is_digit c || ((c =? 45) && match r with d :: _ => is_digit d | [] => false end)) && forallb (fun c => is_digit c || existsb (Z.eqb c) (bs "+-.e")) r
    | [] => false
    end.
  (* ASCII characters that neither HTML nor Python escapes *)
  Definition simple (x : list Z) : Prop := Forall (fun c => 32 <= c <= 126 /\ c <> 38 /\ c <> 60 /\ c <> 62 /\ c <> 34 /\ c <> 39 /\ c <> 92) x.
  Definition ycolor_ok (c : color) : Prop :=
    match c_space c with Some cs => (exists n, cs_name cs = OName n /\ unescaped n /\ plainb n = true) /\ Forall (fun v => simple (val_text v)) (c_vals c) | None => True end.
  (* the text of the run, and the entries of the descriptor, are plain scalars on one line *)
  Definition yblock_ok (cb : charblock) : Prop :=
    plainb (concat (map fst (cb_chars cb))) = true /\ ycolor_ok (cb_color cb) /\
    Forall (fun kv => plainb (fst kv) = true /\ plainb (snd kv) = true) (shown_entries (descriptor (cb_text cb))) /\
    NoDup (map fst (block_entries cb)).
  Inductive YOkItem : item -> Prop :=
  | yok_none : YOkItem INone
  | yok_text x l : Forall yblock_ok l -> YOkItem (IText (mkTB x l))
  | yok_image s b : plainb (image_name s) = true -> Forall (fun c => c <> 38 /\ c <> 60 /\ c <> 62 /\ c <> 34) (image_name s) -> YOkItem (IImage s b)
  | yok_form s b l : Forall YOkItem l -> YOkItem (IXObj s b l)
  | yok_curve k w p b st f e : ycolor_ok st -> ycolor_ok f -> YOkItem (ICurve k w p b st f e).
End spec.
