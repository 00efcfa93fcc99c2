(* Files made of revisions, each with a cross-reference table (ISO 32000-1, 7.5), and how an object is looked up. *)
From Coq Require Import String.
From Verif Require Import Base Lex_Model Lex_Spec Lines_Spec Obj Stack_Spec XRef_Spec.

(* at offset off of the file stands "id gen obj o endobj", laid out in any way *)
Definition ObjectAt (file : list Z) (off id : Z) (o : obj) : Prop :=
  exists before text rest gen ts q1 q2 q3 q exact,
    file = before ++ text ++ rest /\ off = Z.of_nat (length before) /\ (forall r, rest <> 62 :: r) /\
    LayoutP exact off ([(q1, TInt id); (q2, TInt gen); (q3, KW "obj")] ++ ts ++ [(q, KW "endobj")]) text rest /\
    Written true true o (map snd ts).

(* at offset off stands "id gen obj <<d>> stream data endstream endobj", the data being as long as Length says;
   len is what the value of Length stands for *)
Definition StreamAt (len : obj -> option Z) (file : list Z) (off id : Z) (d : list (obj * obj)) (data : list Z) : Prop :=
  exists before text nl g g2 rest gen ts q1 q2 q3 v,
    let tail := data ++ g ++ bs "endstream" ++ g2 ++ bs "endobj" ++ rest in
    file = before ++ text ++ bs "stream" ++ nl ++ tail /\ off = Z.of_nat (length before) /\
    LayoutP false off ([(q1, TInt id); (q2, TInt gen); (q3, KW "obj")] ++ ts) text (bs "stream" ++ nl ++ tail) /\
    Written true true (ODict d) (map snd ts) /\ (nl = [10] \/ nl = [13; 10]) /\
    dget d "Length" = Some v /\ len v = Some (Z.of_nat (length data)) /\
    Forall white g /\ Sep g2 /\ g2 <> [] /\ (exists c r, rest = c :: r /\ (white c \/ delim c)) /\
    ~ unfinished_line (g2 ++ bs "endobj" ++ rest).

(* at offset start stands a cross-reference table with these subsections, followed by the trailer d and startxref *)
Definition TableAt (file : list Z) (start : Z) (secs : list subsection) (d : list (obj * obj)) : Prop :=
  exists before xl table ttext rest ts q1 q exact,
    file = before ++ xl ++ table ++ ttext ++ rest /\ start = Z.of_nat (length before) /\ (forall r, rest <> 62 :: r) /\
    TextLine (bs "xref") xl (table ++ ttext ++ rest) /\ XTable secs table (ttext ++ rest) /\
    (exists l tail, ttext ++ rest = (bs "trailer" ++ l) ++ tail /\ Line (bs "trailer" ++ l) tail) /\
    LayoutP exact (Z.of_nat (length (before ++ xl ++ table))) ((q1, KW "trailer") :: ts ++ [(q, KW "startxref")]) ttext rest /\
    Written true true (ODict d) (map snd ts).

(* the file ends with a line startxref, a line with the number v, and a tail without another startxref *)
Definition StartXRef (file : list Z) (v : Z) : Prop :=
  exists head e l1 num l2 tail, file = head ++ e :: l1 ++ l2 ++ tail /\ eol_byte e /\
    TextLine (bs "startxref") l1 (l2 ++ tail) /\ Dec num v /\ TextLine num l2 tail /\
    (forall a b, tail <> a ++ bs "startxref" ++ b).

(* the revisions of a file, the newest first: the table at start, then the one its Prev points to, and so on *)
Inductive Revisions (file : list Z) : Z -> list (list subsection * list (obj * obj)) -> Prop :=
| Rev_last : forall start secs d, TableAt file start secs d -> dget d "XRefStm" = None -> dget d "Prev" = None ->
    Revisions file start [(secs, d)]
| Rev_more : forall start secs d prev l, TableAt file start secs d -> dget d "XRefStm" = None ->
    dget d "Prev" = Some (OInt prev) -> Revisions file prev l -> Revisions file start ((secs, d) :: l).

(* subsections of a table cover disjoint ranges of object numbers *)
Definition Disjoint (l : list subsection) : Prop := ForallOrdPairs (fun s t => forall id, ~ (covers s id /\ covers t id)) l.
(* an object number has no entry in a table *)
Definition Uncovered (l : list subsection) (id : Z) : Prop := Forall (fun t => ~ covers t id) l.

(* the order in which a chain of sections is to be read: a section, then what XRefStm refers to, then what Prev
   refers to.  sect: the section at a position and its trailer; int: the number that a trailer value stands for *)
Section chain.
  Context {X : Type} (sect : Z -> option (X * list (obj * obj))) (int : obj -> option Z).
  Inductive Chain : Z -> list X -> Prop :=
  | Chain_at : forall start x tr l1 l2, sect start = Some (x, tr) ->
      ChainOpt (dget tr "XRefStm") l1 -> ChainOpt (dget tr "Prev") l2 -> Chain start (x :: l1 ++ l2)
  with ChainOpt : option obj -> list X -> Prop :=
  | CO_none : ChainOpt None []
  | CO_some : forall v pos l, int v = Some pos -> Chain pos l -> ChainOpt (Some v) l.
End chain.
Scheme Chain_mut := Induction for Chain Sort Prop with ChainOpt_mut := Induction for ChainOpt Sort Prop.
Combined Scheme Chain_ind2 from Chain_mut, ChainOpt_mut.

(* lookup: the result is that of the first section, in this order, that has a readable entry.  place: the entry of
   the object in a section; read: reading it, None if it cannot be read *)
Inductive Newest {X P A : Type} (place : X -> option P) (read : P -> option A) : list X -> A -> Prop :=
| Newest_here : forall x l p a, place x = Some p -> read p = Some a -> Newest place read (x :: l) a
| Newest_absent : forall x l a, place x = None -> Newest place read l a -> Newest place read (x :: l) a
| Newest_unreadable : forall x l p a, place x = Some p -> read p = None -> Newest place read l a -> Newest place read (x :: l) a.
