(* The XML file of a PDF file with forms: what must stand in it, stated on what the pages and their forms show (Nest_Spec).
   Of the models only the types of boxes. *)
From Coq Require Import String.
From Verif Require Import Base Obj Num Geom_Model Interp_Model Interp_Spec Markup_Model Markup_Spec Place_Spec FileXml_Spec Nest_Spec.
Open Scope Z_scope.
Import ListNotations.

Section spec.
  Context (num_text : num -> list Z).    (* how numbers are written *)
  (* the content of an element of a form *)
  Definition form_element (t : xtree) : list (list xtree) := match t with TElem n _ k => if list_eqb n (bs "xobject") then [k] else [] | TText _ => [] end.
  (* the content of a page or form: among the elements the text objects in order, and the forms in order, with what they show *)
  Inductive SaysNest : list xtree -> tree -> Prop :=
  | sn_node ks texts forms : Forall2 (SaysText num_text) texts (filter text_element ks) -> Forall2 SaysNest (flat_map form_element ks) forms -> SaysNest ks (Node texts forms).
  (* a page: its number, its size, and its content *)
  Inductive SaysNPage (i : nat) : nested_page -> xtree -> Prop :=
  | sn_page w h t ks : SaysNest ks t ->
      SaysNPage i ((w, h), t) (TElem (bs "page") [(bs "id", py_str_int (Z.of_nat i)); (bs "width", num_text w); (bs "height", num_text h)] ks).
  Inductive SaysNPages : nat -> list nested_page -> list xtree -> Prop :=
  | sns_nil i : SaysNPages i [] []
  | sns_page i p l t r : SaysNPage i p t -> SaysNPages (S i) l r -> SaysNPages i (p :: l) (t :: r).
  Inductive SaysNFile (l : list nested_page) : xtree -> Prop :=
  | snf_file ts : SaysNPages 0 l ts -> SaysNFile l (TElem (bs "pages") [] ts).
End spec.
