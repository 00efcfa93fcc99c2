(* Lines of a byte string, independently of the code. *)
From Verif Require Import Base.

Definition eol_byte (c : Z) : Prop := c = 10 \/ c = 13.
Definition no_eol (s : list Z) : Prop := Forall (fun c => ~ eol_byte c) s.

(* Line line rest: line is the first line of line ++ rest: a body without end-of-line bytes and one end-of-line
   marker LF, CR LF, or CR followed by something else than LF *)
Inductive Line : list Z -> list Z -> Prop :=
| Line_lf : forall body rest, no_eol body -> Line (body ++ [10]) rest
| Line_crlf : forall body rest, no_eol body -> Line (body ++ [13; 10]) rest
| Line_cr : forall body c rest, no_eol body -> c <> 10 -> Line (body ++ [13]) (c :: rest).

(* Lines pos ls rest data: data, starting at offset pos, is the lines ls (with their offsets) and then rest *)
Inductive Lines : Z -> list (Z * list Z) -> list Z -> list Z -> Prop :=
| Lines_nil : forall pos rest, Lines pos [] rest rest
| Lines_cons : forall pos l ls rest tail, Line l tail -> Lines (pos + Z.of_nat (length l)) ls rest tail ->
    Lines pos ((pos, l) :: ls) rest (l ++ tail).

(* an unfinished last line: no end of line, or a final CR *)
Definition unfinished_line (s : list Z) : Prop := exists body, no_eol body /\ (s = body \/ s = body ++ [13]).

(* Segments: the pieces that begin at each end-of-line byte *)
Definition Segment (s : list Z) : Prop := exists c r, s = c :: r /\ eol_byte c /\ no_eol r.
