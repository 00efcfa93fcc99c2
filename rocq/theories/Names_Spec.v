(* Name trees (ISO 32000-1, 7.9.6), the document outline (12.3.3) and text strings (7.9.2.2, Annex D), independent of the
   code. *)
From Coq Require Import String.
From Verif Require Import Base Obj Stream_Spec CMap_Spec.
Open Scope Z_scope.

(* ---------- text strings ---------- *)
(* PDFDocEncoding: the characters of the codes that are defined *)
Inductive DocChar : Z -> Z -> Prop :=
| DC_control : forall c, In c [9; 10; 13] -> DocChar c c
| DC_ascii : forall c, 32 <= c <= 126 -> DocChar c c
| DC_latin : forall c, 161 <= c <= 255 -> c <> 173 -> DocChar c c
| DC_other : forall c u, In (c, u)
    [(24, 0x2D8); (25, 0x2C7); (26, 0x2C6); (27, 0x2D9); (28, 0x2DD); (29, 0x2DB); (30, 0x2DA); (31, 0x2DC);
     (128, 0x2022); (129, 0x2020); (130, 0x2021); (131, 0x2026); (132, 0x2014); (133, 0x2013); (134, 0x192); (135, 0x2044);
     (136, 0x2039); (137, 0x203A); (138, 0x2212); (139, 0x2030); (140, 0x201E); (141, 0x201C); (142, 0x201D); (143, 0x2018);
     (144, 0x2019); (145, 0x201A); (146, 0x2122); (147, 0xFB01); (148, 0xFB02); (149, 0x141); (150, 0x152); (151, 0x160);
     (152, 0x178); (153, 0x17D); (154, 0x131); (155, 0x142); (156, 0x153); (157, 0x161); (158, 0x17E); (160, 0x20AC)] -> DocChar c u.
(* TextString s t: the bytes s stand for the text t *)
Inductive TextString : list Z -> list Z -> Prop :=
| TS_utf16 : forall t, Forall scalar t -> TextString (254 :: 255 :: utf16_of t) t
| TS_doc : forall s t, Forall2 DocChar s t -> (forall r, s <> 254 :: 255 :: r) -> TextString s t.

(* ---------- name trees ---------- *)
(* order of byte strings *)
Inductive Before : list Z -> list Z -> Prop :=
| B_nil : forall y b, Before [] (y :: b)
| B_less : forall x y a b, x < y -> Before (x :: a) (y :: b)
| B_eq : forall x a b, Before a b -> Before (x :: a) (x :: b).
(* Between k1 k k2 : k1 <= k <= k2 *)
Notation entry := (list Z * obj)%type.
Definition keys (es : list entry) : list (list Z) := map fst es.
Inductive Sorted : list (list Z) -> Prop :=
| So_nil : Sorted []
| So_one : forall k, Sorted [k]
| So_cons : forall k k' l, Before k k' -> Sorted (k' :: l) -> Sorted (k :: k' :: l).

Section doc.
  Context (getobj : Z -> option obj).
  Definition LeadsTo (d : list (obj * obj)) (k : string) (v : obj) : Prop := exists o, dget d k = Some o /\ Leads getobj ONull o v.
  (* Content d es: the dictionary holds the entries es, in Names or in its kids; Node o es: an intermediate or leaf node *)
  Inductive Content : list (obj * obj) -> list entry -> Prop :=
  | Co_names : forall d es, LeadsTo d "Names" (OArr (flat_map (fun e => [OStr (fst e); snd e]) es)) -> Content d es
  | Co_kids : forall d kids es, dget d "Names" = None -> LeadsTo d "Kids" (OArr kids) -> Nodes kids es -> Content d es
  with Nodes : list obj -> list entry -> Prop :=
  | No_nil : Nodes [] []
  | No_cons : forall o d k1 k2 es kids r, Leads getobj ONull o (ODict d) -> LeadsTo d "Limits" (OArr [OStr k1; OStr k2]) ->
      hd_error (keys es) = Some k1 -> hd_error (rev (keys es)) = Some k2 -> Content d es -> Nodes kids r -> Nodes (o :: kids) (es ++ r).
  Scheme Content_mut := Induction for Content Sort Prop with Nodes_mut := Induction for Nodes Sort Prop.
  Combined Scheme Content_Nodes from Content_mut, Nodes_mut.
  (* the root of a name tree; it has no limits, and the keys are in order *)
  Definition NameTree (root : obj) (es : list entry) : Prop :=
    exists d, Leads getobj ONull root (ODict d) /\ dget d "Limits" = None /\ Content d es /\ Sorted (keys es).
  (* the name tree cat of a document with this catalog *)
  Definition Category (catalog : list (obj * obj)) (cat : string) (es : list entry) : Prop :=
    exists names root, LeadsTo catalog "Names" (ODict names) /\ dget names cat = Some root /\ NameTree root es.

  (* ---------- outlines ---------- *)
  (* an item: its title, destination, action, structure element, and its children *)
  Inductive item := Item (title : option (list Z)) (dest action se : option obj) (children : list item).
  (* Items o l: o is the first of the items l, which are linked by Next; the children of an item are linked from First *)
  Inductive Items : obj -> list item -> Prop :=
  | It : forall o d title dest action se children rest, Leads getobj ONull o (ODict d) ->
      (match title with None => dget d "Title" = None | Some t => exists s, LeadsTo d "Title" (OStr s) /\ TextString s t end) ->
      dget d "Dest" = dest -> dget d "A" = action -> dget d "SE" = se ->
      Below d children ->
      match dget d "Next" with None => rest = [] | Some _ => True end -> (forall x, dget d "Next" = Some x -> Items x rest) ->
      Items o (Item title dest action se children :: rest)
  with Below : list (obj * obj) -> list item -> Prop :=
  | Be_none : forall d, dget d "First" = None -> Below d []
  | Be_some : forall d x y l, dget d "First" = Some x -> dget d "Last" = Some y -> Items x l -> Below d l.
  Definition Outline (catalog : list (obj * obj)) (l : list item) : Prop :=
    exists d, LeadsTo catalog "Outlines" (ODict d) /\ dget d "Title" = None /\ dget d "Next" = None /\ Below d l.
End doc.

(* the items one after the other, parents before children, each with its level; those that have neither a destination nor
   an action are left out *)
Fixpoint listed (level : Z) (i : item) : list (Z * list Z * option obj * option obj * option obj) :=
  match i with
  | Item title dest action se children =>
      match title with
      | Some t => match dest, action with None, None => [] | _, _ => [(level, t, dest, action, se)] end
      | None => []
      end ++ (fix go l := match l with [] => [] | j :: r => listed (level + 1) j ++ go r end) children
  end.
Definition all_listed (level : Z) (l : list item) := flat_map (listed level) l.
