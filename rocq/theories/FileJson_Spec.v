(* The JSON file of a PDF file, as a JSON value: what must stand in it, stated on what the pages and their forms show (Nest_Spec).
   Of the models only the types of boxes. *)
From Coq Require Import String.
From Verif Require Import Base Obj Num Geom_Model Interp_Model Interp_Spec Markup_Model Markup_Spec Place_Spec Nest_Spec.
Open Scope Z_scope.
Import ListNotations.

Section spec.
  Context (num_text : num -> list Z).    (* how numbers are written *)
  Definition box_entries (b : bbox) : list (list Z * json) :=
    [(bs "x0", JNum (num_text (bx0 b))); (bs "x1", JNum (num_text (bx1 b))); (bs "y0", JNum (num_text (by0 b))); (bs "y1", JNum (num_text (by1 b)))].
  (* a string shown: its size, the least box around its characters, its colour and font, and as the last member exactly its text *)
  Inductive SaysBlock : list shown_char -> json -> Prop :=
  | sb_block cs b size m : Around b (map snd cs) ->
      SaysBlock cs (JObj ((bs "size", JNum (num_text size)) :: box_entries b ++ m ++ [(bs "text", JStr (concat (map fst cs)))])).
  (* a text object: the least box around the boxes of its strings, and its strings in order *)
  Inductive SaysObject : list (list shown_char) -> json -> Prop :=
  | so_object ss b boxes js : Forall2 (fun x cs => Around x (map snd cs)) boxes ss -> Around b boxes -> Forall2 SaysBlock ss js ->
      SaysObject ss (JObj ((bs "type", JStr (bs "text-block")) :: box_entries b ++ [(bs "char_blocks", JArr js)])).
  (* the members of an object *)
  Fixpoint member_of (k : list Z) (l : list (list Z * json)) : option json :=
    match l with [] => None | (k', v) :: r => if list_eqb k' k then Some v else member_of k r end.
  Definition has_type (t : list Z) (j : json) : bool :=
    match j with JObj l => match member_of (bs "type") l with Some (JStr x) => list_eqb x t | _ => false end | _ => false end.
  Definition children_of (j : json) : list (list json) :=
    match j with JObj l => match member_of (bs "children") l with Some (JArr k) => [k] | _ => [] end | _ => [] end.
  (* the children of a page or form: the text objects in order, and the forms in order, with what they show *)
  Inductive SaysTree : list json -> tree -> Prop :=
  | st_node js texts forms : Forall2 SaysObject texts (filter (has_type (bs "text-block")) js) ->
      Forall2 SaysTree (flat_map children_of (filter (has_type (bs "xobject")) js)) forms -> SaysTree js (Node texts forms).
  (* a page: its number, its size, and its children *)
  Inductive SaysJPage (i : nat) : nested_page -> json -> Prop :=
  | sj_page w h t js : SaysTree js t ->
      SaysJPage i ((w, h), t) (JObj [(bs "id", JNum (py_str_int (Z.of_nat i))); (bs "width", JNum (num_text w)); (bs "height", JNum (num_text h)); (bs "children", JArr js)]).
  Inductive SaysJPages : nat -> list nested_page -> list json -> Prop :=
  | sjs_nil i : SaysJPages i [] []
  | sjs_page i p l j r : SaysJPage i p j -> SaysJPages (S i) l r -> SaysJPages i (p :: l) (j :: r).
  Inductive SaysJFile (l : list nested_page) : json -> Prop :=
  | sjf_file js : SaysJPages 0 l js -> SaysJFile l (JObj [(bs "pages", JArr js)]).
End spec.

(* every text object, of the page and of its forms at all depths, shows at least one string *)
Inductive Speaks : tree -> Prop :=
| sk_node texts forms : Forall (fun ss => ss <> []) texts -> Forall Speaks forms -> Speaks (Node texts forms).
