(* The XML file of a PDF file, as a tree of elements: what must stand in it, stated on the characters of the pages and their boxes.
   Of the models only the types of boxes. *)
From Coq Require Import String.
From Verif Require Import Base Obj Num Geom_Model Interp_Model Interp_Spec Markup_Model Markup_Spec Place_Spec.
Open Scope Z_scope.
Import ListNotations.

Section spec.
  Context (num_text : num -> list Z).    (* how numbers are written *)
  Definition corners (b : bbox) : list (list Z * list Z) :=
    [(bs "x0", num_text (bx0 b)); (bs "x1", num_text (bx1 b)); (bs "y0", num_text (by0 b)); (bs "y1", num_text (by1 b))].
  (* an element of a character: its box and exactly its text *)
  Inductive SaysChar : shown_char -> xtree -> Prop :=
  | sc_some c r b : SaysChar (c :: r, b) (TElem (bs "char") (corners b) [TText (c :: r)])
  | sc_none b : SaysChar ([], b) (TElem (bs "char") (corners b) []).
  (* a string shown, a text object *)
  Inductive SaysString : list shown_char -> xtree -> Prop :=
  | ss_string cs a ts : Forall2 SaysChar cs ts -> SaysString cs (TElem (bs "char-block") a ts).
  Inductive SaysText : list (list shown_char) -> xtree -> Prop :=
  | st_text ss a ts : Forall2 SaysString ss ts -> SaysText ss (TElem (bs "text-block") a ts).
  Definition text_element (t : xtree) : bool := match t with TElem n _ _ => list_eqb n (bs "text-block") | TText _ => false end.
  (* a page: its number, its size, and among the elements in it the text objects in order *)
  Inductive SaysPage (i : nat) : (num * num) * list (list (list shown_char)) -> xtree -> Prop :=
  | sp_page w h ts ks : Forall2 SaysText ts (filter text_element ks) ->
      SaysPage i ((w, h), ts) (TElem (bs "page") [(bs "id", py_str_int (Z.of_nat i)); (bs "width", num_text w); (bs "height", num_text h)] ks).
  Inductive SaysPages : nat -> list ((num * num) * list (list (list shown_char))) -> list xtree -> Prop :=
  | sps_nil i : SaysPages i [] []
  | sps_page i p l t r : SaysPage i p t -> SaysPages (S i) l r -> SaysPages i (p :: l) (t :: r).
  Inductive SaysFile (l : list ((num * num) * list (list (list shown_char)))) : xtree -> Prop :=
  | sf_file ts : SaysPages 0 l ts -> SaysFile l (TElem (bs "pages") [] ts).
End spec.
