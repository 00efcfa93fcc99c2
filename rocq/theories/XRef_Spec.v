(* Cross-reference sections as ISO 32000-1, 7.5.4 and 7.5.8 define them. *)
From Coq Require Import String.
From Verif Require Import Base PNG_Spec Lex_Spec Lines_Spec Obj.

(* the entry of an object number: free, at an offset of the file, the idx-th object of an object stream, or of a
   type reserved for the future (to be treated as a reference to null) *)
Inductive xentry :=
| Free (next gen : Z) | InUse (off gen : Z) | Member (strm idx : Z) | Reserved (type a b : Z).

(* a subsection: the first object number and the entries of consecutive numbers *)
Notation subsection := (Z * list xentry)%type.
Definition covers (s : subsection) (id : Z) : Prop := fst s <= id < fst s + Z.of_nat (length (snd s)).

(* Entry sections id e: the entry of id in the sections is e (subsections do not overlap) *)
Definition EntryOf (sections : list subsection) (id : Z) (e : xentry) : Prop :=
  exists pre s post k, sections = pre ++ s :: post /\ id = fst s + Z.of_nat k /\ nth_error (snd s) k = Some e /\
    Forall (fun t => ~ covers t id) pre.

(* what a reader reports: (object stream, index or offset, generation) *)
Definition place_of (e : xentry) : option (option Z * Z * Z) :=
  match e with
  | InUse off gen => Some (None, off, gen)
  | Member strm idx => Some (Some strm, idx, 0)
  | Free _ _ | Reserved _ _ _ => None
  end.

(* ---- cross-reference streams ---- *)
Definition fields (e : xentry) : Z * Z * Z :=
  match e with
  | Free a b => (0, a, b) | InUse a b => (1, a, b) | Member a b => (2, a, b) | Reserved t a b => (t, a, b)
  end.
(* a field of w bytes holds the value v; a field of width 0 is absent and has its default value *)
Definition fits (w : nat) (default v : Z) : Prop := match w with O => v = default | _ => 0 <= v < 256 ^ Z.of_nat w end.
Definition entry_ok (w1 w2 w3 : nat) (e : xentry) : Prop :=
  let '(t, a, b) := fields e in fits w1 1 t /\ fits w2 0 a /\ fits w3 0 b /\
  match e with Reserved t _ _ => 2 < t | _ => True end.
Definition write_entry (w1 w2 w3 : nat) (e : xentry) : list Z :=
  let '(t, a, b) := fields e in be_encode w1 t ++ be_encode w2 a ++ be_encode w3 b.
Definition write_sections (w1 w2 w3 : nat) (l : list subsection) : list Z :=
  concat (map (fun s => concat (map (write_entry w1 w2 w3) (snd s))) l).

(* the attributes of a cross-reference stream with these sections and field widths *)
Definition index_of (l : list subsection) : list obj := flat_map (fun s => [OInt (fst s); OInt (Z.of_nat (length (snd s)))]) l.
Definition XRefAttrs (attrs : list (obj * obj)) (w1 w2 w3 : nat) (l : list subsection) : Prop :=
  dget attrs "Type" = Some (ON "XRef") /\
  dget attrs "W" = Some (OArr [OInt (Z.of_nat w1); OInt (Z.of_nat w2); OInt (Z.of_nat w3)]) /\
  exists size, dget attrs "Size" = Some (OInt size) /\
   (dget attrs "Index" = Some (OArr (index_of l)) \/
    dget attrs "Index" = None /\ exists es, l = [(0, es)] /\ size = Z.of_nat (length es)).

(* ---- cross-reference tables ---- *)
Inductive eol_mark : list Z -> Prop := em_lf : eol_mark [10] | em_cr : eol_mark [13] | em_crlf : eol_mark [13; 10].
(* a line: text, blanks, end of line.  A carriage return alone is not followed by a line feed. *)
Definition TextLine (text line rest : list Z) : Prop :=
  exists sp m, line = text ++ sp ++ m /\ Forall (fun c => c = 32 \/ c = 9) sp /\ eol_mark m /\
    (m = [13] -> exists c r, rest = c :: r /\ c <> 10).
(* XTEntry e text: "offset generation n" or "next generation f" *)
Inductive XTEntry : xentry -> list Z -> Prop :=
| XT_n : forall o g a b, Dec a o -> Dec b g -> XTEntry (InUse o g) (a ++ 32 :: b ++ bs " n")
| XT_f : forall o g a b, Dec a o -> Dec b g -> XTEntry (Free o g) (a ++ 32 :: b ++ bs " f").
(* XTEntries es text rest / XTable sections text rest: the text followed by rest.  Empty lines may stand between
   subsections. *)
Inductive XTEntries : list xentry -> list Z -> list Z -> Prop :=
| XE_nil : forall rest, XTEntries [] [] rest
| XE_cons : forall e es t line text rest, XTEntry e t -> TextLine t line (text ++ rest) -> XTEntries es text rest ->
    XTEntries (e :: es) (line ++ text) rest.
Inductive XTable : list subsection -> list Z -> list Z -> Prop :=
| XT_nil : forall rest, XTable [] [] rest
| XT_blank : forall line secs texts rest, TextLine [] line (texts ++ rest) ->
    XTable secs texts rest -> XTable secs (line ++ texts) rest
| XT_sub : forall first es a b line text secs texts rest, Dec a first -> Dec b (Z.of_nat (length es)) ->
    TextLine (a ++ 32 :: b) line (text ++ texts ++ rest) -> XTEntries es text (texts ++ rest) ->
    XTable secs texts rest -> XTable ((first, es) :: secs) (line ++ text ++ texts) rest.
