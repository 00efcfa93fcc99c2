(* The HTML file of a PDF file with forms: what must stand in it, stated on what the pages and their forms show (Nest_Spec).
   Of the models only the types of boxes and items. *)
From Coq Require Import String.
From Verif Require Import Base Obj Num Geom_Model Interp_Model Interp_Spec Markup_Model Markup_Spec Place_Spec Nest_Spec.
From Coq Require Import Qcanon.
Open Scope Z_scope.
Import ListNotations.

Section spec.
  Context (num_text : num -> list Z).    (* how numbers are written *)
  Definition pixels (q : num) : list Z := num_text q ++ bs "px".
  (* an element of a character: its width, and exactly its text *)
  Inductive SaysHChar : shown_char -> xtree -> Prop :=
  | shc_char c b css : SaysHChar (c, b) (TElem (bs "span") [(bs "class", bs "char"); (bs "style", bs "width: " ++ pixels (bx1 b - bx0 b)%Qc ++ css)] [TText c]).
  (* a string shown: at the lower left corner of the least box around its characters *)
  Inductive SaysHString : list shown_char -> xtree -> Prop :=
  | shs_string cs b css ts : Around b (map snd cs) -> Forall2 SaysHChar cs ts ->
      SaysHString cs (TElem (bs "span") [(bs "class", bs "char-block");
        (bs "style", bs "position: absolute;left: " ++ num_text (bx0 b) ++ bs ";bottom: " ++ num_text (by0 b) ++ css)] ts).
  Inductive SaysHText : list (list shown_char) -> xtree -> Prop :=
  | sht_text ss ts : Forall2 SaysHString ss ts -> SaysHText ss (TElem (bs "span") [(bs "class", bs "text-block")] ts).
  Definition of_class (c : list Z) (t : xtree) : bool := match t with TElem _ ((k, v) :: _) _ => list_eqb k (bs "class") && list_eqb v c | _ => false end.
  Definition kids (t : xtree) : list xtree := match t with TElem _ _ k => k | TText _ => [] end.
  (* the content of a page or form: among the elements the text objects in order, and the forms in order, with what they show *)
  Inductive SaysHNest : list xtree -> tree -> Prop :=
  | shn_node ks texts forms : Forall2 SaysHText texts (filter (of_class (bs "text-block")) ks) ->
      Forall2 SaysHNest (map kids (filter (of_class (bs "xobject")) ks)) forms -> SaysHNest ks (Node texts forms).
  (* a page: its number, its size, and its content *)
  Inductive SaysHPage (i : nat) : nested_page -> xtree -> Prop :=
  | shp_page w h t ks : SaysHNest ks t ->
      SaysHPage i ((w, h), t) (TElem (bs "div") [(bs "class", bs "page"); (bs "id", bs "page-" ++ py_str_int (Z.of_nat i));
        (bs "style", bs "width: " ++ pixels w ++ bs ";height: " ++ pixels h)] ks).
  Inductive SaysHPages : nat -> list nested_page -> list xtree -> Prop :=
  | shps_nil i : SaysHPages i [] []
  | shps_page i p l t r : SaysHPage i p t -> SaysHPages (S i) l r -> SaysHPages i (p :: l) (t :: r).
  Inductive SaysHFile (l : list nested_page) : xtree -> Prop :=
  | shf_file a ks ts : SaysHPages 0 l ts -> SaysHFile l (TElem (bs "html") [] [TElem (bs "head") a ks; TElem (bs "body") [] ts]).
End spec.

(* an item that HTML can show: no curve without extent, and no colour of a space of one component without a value, at any depth *)
Definition valued (c : color) : Prop := match c_space c with Some cs => num_of (cs_n cs) = Some (qz 1) -> c_vals c <> [] | None => True end.
Inductive drawable : item -> Prop :=
| dr_none : drawable INone
| dr_text b : Forall (fun cb => valued (cb_color cb)) (tb_blocks b) -> drawable (IText b)
| dr_image s b : drawable (IImage s b)
| dr_form s b l : Forall drawable l -> drawable (IXObj s b l)
| dr_curve k w p b st f e : (qz 0 < by1 b - by0 b)%Qc \/ (bx1 b - bx0 b)%Qc <> qz 0 -> valued st -> valued f -> drawable (ICurve k w p b st f e).
