(* Page trees (ISO 32000-1, 7.7.3). *)
From Coq Require Import String.
From Verif Require Import Base Obj Stream_Spec.

Inductive ptree := PLeaf (id : Z) (attrs : list (obj * obj)) | PNode (id : Z) (attrs : list (obj * obj)) (kids : list ptree).
Definition id_of (t : ptree) : Z := match t with PLeaf i _ | PNode i _ _ => i end.

Section tree.
  Context (getobj : Z -> option obj).
  (* the tree is what the document's objects say: leaves are Page dictionaries, inner nodes Pages dictionaries whose Kids
     array (direct or indirect) refers to the children in order *)
  Inductive Stored : ptree -> Prop :=
  | S_leaf : forall i a, getobj i = Some (ODict a) -> dget a "Type" = Some (ON "Page") -> Stored (PLeaf i a)
  | S_node : forall i a kids ko, getobj i = Some (ODict a) -> dget a "Type" = Some (ON "Pages") ->
      dget a "Kids" = Some ko -> Leads getobj ONull ko (OArr (map (fun t => ORef (id_of t)) kids)) ->
      StoredL kids -> Stored (PNode i a kids)
  with StoredL : list ptree -> Prop :=
  | SL_nil : StoredL []
  | SL_cons : forall t r, Stored t -> StoredL r -> StoredL (t :: r).

  (* the leaves in document order, each with the dictionaries from itself up to the root *)
  Fixpoint leaves (up : list (list (obj * obj))) (t : ptree) : list (Z * list (list (obj * obj))) :=
    match t with
    | PLeaf i a => [(i, a :: up)]
    | PNode _ a kids => flat_map (leaves (a :: up)) kids
    end.
  Definition Inheritable (k : list Z) : bool :=
    existsb (list_eqb k) [bs "Resources"; bs "MediaBox"; bs "CropBox"; bs "Rotate"].
  (* an attribute of a page: its own, or if inheritable the nearest one above *)
  Fixpoint attr (path : list (list (obj * obj))) (k : list Z) : option obj :=
    match path with
    | [] => None
    | a :: up => match dict_get a (OName k) with
                 | Some v => Some v
                 | None => if Inheritable k then attr up k else None
                 end
    end.
  (* its value, with a default *)
  Definition Value (path : list (list (obj * obj))) (k : list Z) (default v : obj) : Prop :=
    match attr path k with Some o => Leads getobj ONull o v | None => v = default end.
  (* PageObjects ids ps: among the objects of these numbers, the page dictionaries, in order, each by itself *)
  Inductive PageObjects : list Z -> list (Z * list (list (obj * obj))) -> Prop :=
  | PO_nil : PageObjects [] []
  | PO_page : forall i d ids ps, getobj i = Some (ODict d) -> dget d "Type" = Some (ON "Page") ->
      PageObjects ids ps -> PageObjects (i :: ids) ((i, [d]) :: ps)
  | PO_other : forall i ids ps, (forall d, getobj i = Some (ODict d) -> dget d "Type" <> Some (ON "Page")) ->
      PageObjects ids ps -> PageObjects (i :: ids) ps.
End tree.
