(* The XML file of a document as a tree of elements, stated on the items of the pages. *)
From Coq Require Import String.
From Verif Require Import Base Obj Num Geom_Model Page_Model Interp_Model.
From Verif Require Import Markup_Model Markup_Spec Convert_Model.  (* of the models only the types of items and pages *)
From Coq Require Import Qcanon.
Open Scope Z_scope.
Import ListNotations.

Section spec.
  (* how numbers, colour values and images are named, and the entries of the font descriptor of a text state *)
  Context (num_text : num -> list Z) (val_text : obj -> list Z) (image_name : obj -> list Z) (descriptor : tstate -> list (list Z * list Z)).

  Definition v_box (b : bbox) : list (list Z * list Z) :=
    [(bs "x0", num_text (bx0 b)); (bs "x1", num_text (bx1 b)); (bs "y0", num_text (by0 b)); (bs "y1", num_text (by1 b))].
  (* values separated by commas *)
  Fixpoint commas (l : list (list Z)) : list Z := match l with [] => [] | [x] => x | x :: r => x ++ [44] ++ commas r end.
  Definition v_color (prefix : list Z) (c : color) : list (list Z * list Z) :=
    match c_space c with
    | Some (mkCs (OName n) _) => [(prefix ++ bs "-type", n); (prefix ++ bs "-values", commas (map val_text (c_vals c)))]
    | Some _ => [(prefix ++ bs "-type", []); (prefix ++ bs "-values", commas (map val_text (c_vals c)))]
    | None => []
    end.
  (* the entries of the descriptor that are shown: not its Type, and no font program *)
  Definition shown_entries (l : list (list Z * list Z)) : list (list Z * list Z) :=
    filter (fun kv => if list_eq_dec Z.eq_dec (fst kv) (bs "Type") then false
                      else negb (existsb (fun i => list_eqb (firstn 8 (skipn i (fst kv))) (bs "FontFile")) (seq 0 (length (fst kv))))) l.
  (* a name in small letters; a capital, except in front, gets a dash before it when it comes after a small letter or a
     digit, or before a small letter *)
  Definition small (c : Z) : bool := (97 <=? c) && (c <=? 122).
  Definition capital (c : Z) : bool := (65 <=? c) && (c <=? 90).
  Fixpoint dashed (before : option Z) (x : list Z) : list Z :=
    match x with
    | [] => []
    | c :: r =>
        let boundary := match before with
                        | None => false
                        | Some p => small p || is_digit p || match r with n :: _ => small n | [] => false end
                        end in
        (if capital c && boundary then [45] else []) ++ (if capital c then c + 32 else c) :: dashed (Some c) r
    end.
  (* the height of the text, or its width when it is vertical *)
  Definition v_size (cb : charblock) : num :=
    let b := cb_box cb in
    match t_font (cb_text cb) with
    | Some f => if f_vertical f then (bx1 b - bx0 b)%Qc else (by1 b - by0 b)%Qc
    | None => (by1 b - by0 b)%Qc
    end.
  Definition v_block (cb : charblock) : list (list Z * list Z) :=
    (bs "size", num_text (v_size cb)) :: v_box (cb_box cb) ++ v_color (bs "color") (cb_color cb) ++
    map (fun kv => (dashed None (fst kv), snd kv)) (shown_entries (descriptor (cb_text cb))).

  Definition char_tree (c : list Z * bbox) : xtree := TElem (bs "char") (v_box (snd c)) (text_node (fst c)).
  Definition block_tree (cb : charblock) : xtree := TElem (bs "char-block") (v_block cb) (map char_tree (cb_chars cb)).
  Definition point_tree (p : point) : xtree := TElem (bs "point") [(bs "x", num_text (fst p)); (bs "y", num_text (snd p))] [].
  Definition seg_tree (s : seg) : xtree :=
    match s with
    | SMove p => TElem (bs "path") [(bs "type", bs "MOVE_TO")] [point_tree p]
    | SLine p => TElem (bs "path") [(bs "type", bs "LINE_TO")] [point_tree p]
    | SBoth p q r => TElem (bs "path") [(bs "type", bs "CURVE_BOTH_TO")] [point_tree p; point_tree q; point_tree r]
    | SNext p q => TElem (bs "path") [(bs "type", bs "CURVE_NEXT_TO")] [point_tree p; point_tree q]
    | SFirst p q => TElem (bs "path") [(bs "type", bs "CURVE_FIRST_TO")] [point_tree p; point_tree q]
    | SClose => TElem (bs "path") [(bs "type", bs "CLOSE_PATH")] []
    end.
  (* the box of a text block without characters is written as None *)
  Definition v_textbox (b : option bbox) : list (list Z * list Z) :=
    match b with
    | Some b => v_box b
    | None => [(bs "x0", bs "None"); (bs "x1", bs "None"); (bs "y0", bs "None"); (bs "y1", bs "None")]
    end.
  Fixpoint item_trees (i : item) : list xtree :=
    match i with
    | INone => []
    | IText b => [TElem (bs "text-block") (v_textbox (tb_box b)) (map block_tree (tb_blocks b))]
    | IImage s b => [TElem (bs "img") ((bs "src", image_name s) :: v_box b) []]
    | IXObj _ b children =>
        [TElem (bs "xobject") (v_box b) ((fix go (l : list item) : list xtree := match l with [] => [] | i :: r => item_trees i ++ go r end) children)]
    | ICurve k _ paths b stroke fill _ =>
        let a := v_box b ++ v_color (bs "stroke") stroke ++ v_color (bs "fill") fill in
        match k with
        | CRect => [TElem (bs "rect") a []]
        | CLine | CVert | CHoriz => [TElem (bs "line") a []]
        | CCurve => [TElem (bs "curve") a (map seg_tree paths)]
        end
    end.
  Definition page_tree (p : opage) : xtree :=
    TElem (bs "page") [(bs "id", py_str_int (pg_num p)); (bs "width", num_text (pg_width p)); (bs "height", num_text (pg_height p))]
      (flat_map item_trees (fst (pg_items p))).
  Definition pages_tree (ps : list opage) : xtree := TElem (bs "pages") [] (map page_tree ps).

  (* ---------- what the values must be like ---------- *)
  (* characters that may stand in an attribute value, when they are escaped *)
  Definition line_text (x : list Z) : Prop := Forall (fun c => xml_char c = true /\ c <> 10) x.
  (* characters that need no escaping *)
  Definition clean_text (x : list Z) : Prop := Forall (fun c => xml_char c = true /\ c <> 10 /\ c <> 38 /\ c <> 60 /\ c <> 34) x.
  Definition letter (c : Z) : bool := ((65 <=? c) && (c <=? 90)) || ((97 <=? c) && (c <=? 122)).
  Definition word (k : list Z) : Prop := match k with c :: r => letter c = true /\ Forall (fun c => letter c = true \/ is_digit c = true) r | [] => False end.
  Definition ok_color (c : color) : Prop :=
    match c_space c with Some cs => (forall n, cs_name cs = OName n -> line_text n) /\ Forall (fun v => line_text (val_text v)) (c_vals c) | None => True end.
  Definition ok_block (cb : charblock) : Prop :=
    Forall (fun c => Forall (fun x => xml_char x = true) (fst c)) (cb_chars cb) /\ ok_color (cb_color cb) /\
    Forall (fun kv => word (fst kv) /\ clean_text (snd kv)) (shown_entries (descriptor (cb_text cb))) /\ NoDup (map fst (v_block cb)).
  Inductive OkItem : item -> Prop :=
  | ok_none : OkItem INone
  | ok_text b : Forall ok_block (tb_blocks b) -> OkItem (IText b)
  | ok_image s b : line_text (image_name s) -> OkItem (IImage s b)
  | ok_form s b l : Forall OkItem l -> OkItem (IXObj s b l)
  | ok_curve k w p b st f e : ok_color st -> ok_color f -> OkItem (ICurve k w p b st f e).
End spec.

(* Like t u: u is t with white space between its elements; the text of a char element is exact *)
Inductive Like : xtree -> xtree -> Prop :=
| like_text n a t : Like (TElem n a (text_node t)) (TElem n a (text_node t))
| like_elem n a ks ks' : n <> bs "char" -> LikeList ks ks' -> Like (TElem n a ks) (TElem n a ks')
with LikeList : list xtree -> list xtree -> Prop :=
| ll_nil : LikeList [] []
| ll_white w ks ks' : white_text w = true -> LikeList ks ks' -> LikeList ks (w :: ks')
| ll_cons k k' ks ks' : Like k k' -> LikeList ks ks' -> LikeList (k :: ks) (k' :: ks').
