(* The YAML file of a PDF file, as a YAML value: what must stand in it, stated on what the pages and their forms show (Nest_Spec).
   Of the models only the types of boxes. *)
From Coq Require Import String.
From Verif Require Import Base Obj Num Geom_Model Interp_Model Interp_Spec Markup_Model Markup_Spec Yaml_Spec Place_Spec Nest_Spec.
Open Scope Z_scope.
Import ListNotations.

Section spec.
  Context (num_text : num -> list Z).    (* how numbers are written *)
  Definition box_says (b : bbox) : list (list Z * yaml) :=
    [(bs "x0", YStr (num_text (bx0 b))); (bs "x1", YStr (num_text (bx1 b))); (bs "y0", YStr (num_text (by0 b))); (bs "y1", YStr (num_text (by1 b)))].
  (* a string shown: its size, the least box around its characters, its colour and font, and as the last member exactly its text *)
  Inductive SaysYBlock : list shown_char -> yaml -> Prop :=
  | syb_block cs b size m : Around b (map snd cs) ->
      SaysYBlock cs (YMap ((bs "size", YStr (num_text size)) :: box_says b ++ m ++ [(bs "text", YStr (concat (map fst cs)))])).
  (* a text object: the least box around the boxes of its strings, and its strings in order *)
  Inductive SaysYObject : list (list shown_char) -> yaml -> Prop :=
  | syo_object ss b boxes js : Forall2 (fun x cs => Around x (map snd cs)) boxes ss -> Around b boxes -> Forall2 SaysYBlock ss js ->
      SaysYObject ss (YMap ((bs "type", YStr (bs "text-block")) :: box_says b ++ [(bs "char_blocks", YSeq js)])).
  (* the members of a mapping *)
  Fixpoint ymember_of (k : list Z) (l : list (list Z * yaml)) : option yaml :=
    match l with [] => None | (k', v) :: r => if list_eqb k' k then Some v else ymember_of k r end.
  Definition has_ytype (t : list Z) (j : yaml) : bool :=
    match j with YMap l => match ymember_of (bs "type") l with Some (YStr x) => list_eqb x t | _ => false end | _ => false end.
  (* a sequence in block style; without members there is nothing after the key, which is null *)
  Definition seq_of (j : yaml) : list (list yaml) := match j with YSeq k => [k] | YNull => [[]] | _ => [] end.
  Definition ychildren_of (j : yaml) : list (list yaml) :=
    match j with YMap l => match ymember_of (bs "children") l with Some x => seq_of x | None => [] end | _ => [] end.
  (* the children of a page or form: the text objects in order, and the forms in order, with what they show *)
  Inductive SaysYTree : list yaml -> tree -> Prop :=
  | syt_node js texts forms : Forall2 SaysYObject texts (filter (has_ytype (bs "text-block")) js) ->
      Forall2 SaysYTree (flat_map ychildren_of (filter (has_ytype (bs "xobject")) js)) forms -> SaysYTree js (Node texts forms).
  (* a page: its number, its size, and its children *)
  Inductive SaysYPage (i : nat) : nested_page -> yaml -> Prop :=
  | syp_page w h t c js : seq_of c = [js] -> SaysYTree js t ->
      SaysYPage i ((w, h), t) (YMap [(bs "id", YStr (py_str_int (Z.of_nat i))); (bs "width", YStr (num_text w)); (bs "height", YStr (num_text h)); (bs "children", c)]).
  Inductive SaysYPages : nat -> list nested_page -> list yaml -> Prop :=
  | sys_nil i : SaysYPages i [] []
  | sys_page i p l j r : SaysYPage i p j -> SaysYPages (S i) l r -> SaysYPages i (p :: l) (j :: r).
  Inductive SaysYFile (l : list nested_page) : yaml -> Prop :=
  | syf_file c js : seq_of c = [js] -> SaysYPages 0 l js -> SaysYFile l (YMap [(bs "pages", c)]).
End spec.

(* every text object, of the page and of its forms at all depths, shows at least one string, and the text of each string is a plain scalar *)
Inductive SpeaksPlain : tree -> Prop :=
| sp_node texts forms : Forall (fun ss => ss <> [] /\ Forall (fun cs => plainb (concat (map fst cs)) = true) ss) texts -> Forall SpeaksPlain forms -> SpeaksPlain (Node texts forms).
