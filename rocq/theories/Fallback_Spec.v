(* What can be found in a file by looking for objects at the beginning of its lines, from the start of the file up to its
   first trailer. *)
From Coq Require Import String.
From Verif Require Import Base Lex_Model Lex_Spec Lines_Spec Obj Stack_Spec XRef_Spec.
Open Scope Z_scope.

(* white space and letters, digits, underscore in latin-1 *)
Definition Blank (c : Z) : Prop := In c [9; 10; 11; 12; 13; 28; 29; 30; 31; 32; 133; 160].
Definition WordChar (c : Z) : Prop :=
  48 <= c <= 57 \/ 65 <= c <= 90 \/ 97 <= c <= 122 \/ In c [95; 170; 178; 179; 181; 185; 186; 188; 189; 190] \/
  192 <= c <= 214 \/ 216 <= c <= 246 \/ 248 <= c <= 255.
Definition Blanks (s : list Z) : Prop := s <> [] /\ Forall Blank s.
(* a line that begins with "id gen obj" *)
Definition Announces (line : list Z) (id gen : Z) : Prop :=
  exists a s1 b s2 r, line = a ++ s1 ++ b ++ s2 ++ bs "obj" ++ r /\ Dec a id /\ Blanks s1 /\ Dec b gen /\ Blanks s2 /\
    (forall c r', r = c :: r' -> ~ WordChar c).
Definition FirstLine (text line : list Z) : Prop := exists tail, text = line ++ tail /\ Line line tail.
Definition Boundary (rest : list Z) : Prop := exists c r, rest = c :: r /\ (white c \/ delim c).

(* where an object was found, and what it is *)
Notation hit := (Z * xentry * obj)%type.

Section contents.
  (* decode: the data of a stream after its filters *)
  Context (decode : list (obj * obj) -> list Z -> res (list Z)).

  (* an object stream with these members (number, object), as ISO 32000-1, 7.5.7 defines it *)
  Definition Packs (attrs : list (obj * obj)) (raw : list Z) (ms : list (Z * obj)) : Prop :=
    dget attrs "Type" = Some (ON "ObjStm") /\ dget attrs "N" = Some (OInt (Z.of_nat (length ms))) /\
    exists data pairs ts exact, decode attrs raw = Ok data /\ map fst pairs = map fst ms /\ LayoutP exact 0 ts data [] /\
      WrittenL false true (flat_map (fun p => [OInt (fst p); OInt (snd p)]) pairs ++ map snd ms) (map snd ts) /\
      Forall (fun m => forall i, snd m <> ORef i) ms.
  Definition Unpacked (attrs : list (obj * obj)) : Prop := dget attrs "Type" <> Some (ON "ObjStm").

  (* "id gen obj" and then the tokens of an object *)
  Definition Opens (pos id gen : Z) (o : obj) (text rest : list Z) : Prop :=
    exists ts q1 q2 q3 exact line, LayoutP exact pos ([(q1, TInt id); (q2, TInt gen); (q3, KW "obj")] ++ ts) text rest /\
      Written true true o (map snd ts) /\ FirstLine (text ++ rest) line /\ Announces line id gen.
  (* "stream", the data up to the first "endstream", and "endobj" *)
  Definition StreamBody (data text rest : list Z) : Prop :=
    exists nl g, text = bs "stream" ++ nl ++ data ++ bs "endstream" ++ g ++ bs "endobj" /\ (nl = [10] \/ nl = [13; 10]) /\ Sep g /\ g <> [] /\
      FirstAt (bs "endstream") (length data) (data ++ bs "endstream" ++ g ++ bs "endobj" ++ rest) /\
      ~ unfinished_line (g ++ bs "endobj" ++ rest).
  (* "trailer" and a dictionary, then "startxref" or nothing *)
  Definition TrailerText (pos : Z) (d : list (obj * obj)) (text : list Z) : Prop :=
    exists ts q1 line, FirstLine text line /\ (exists l, line = bs "trailer" ++ l) /\ Written true true (ODict d) (map snd ts) /\
      ((exists q exact t rest, text = t ++ rest /\ (forall r, rest <> 62 :: r) /\
          LayoutP exact pos ((q1, KW "trailer") :: ts ++ [(q, KW "startxref")]) t rest) \/
       (exists exact, LayoutP exact pos ((q1, KW "trailer") :: ts) text [])).

  Fixpoint members_found (sid : Z) (index : Z) (ms : list (Z * obj)) : list hit :=
    match ms with [] => [] | (i, o) :: r => (i, Member sid index, o) :: members_found sid (index + 1) r end.

  (* Contents pos text hits trailer: the text, which stands at offset pos, consists of lines without interest and of
     objects that begin at the beginning of a line, up to a trailer or the end of the file *)
  Inductive Contents : Z -> list Z -> list hit -> list (obj * obj) -> Prop :=
  | Ct_end : forall pos text, unfinished_line text -> Contents pos text [] []
  | Ct_trailer : forall pos text d, TrailerText pos d text -> Contents pos text [] d
  | Ct_line : forall pos line rest hits d, Line line rest -> (forall l, line <> bs "trailer" ++ l) ->
      (forall i g, ~ Announces line i g) -> Contents (pos + Z.of_nat (length line)) rest hits d -> Contents pos (line ++ rest) hits d
  | Ct_object : forall pos id gen o text rest hits d, Opens pos id gen o text (bs "endobj" ++ rest) -> Boundary rest ->
      Contents (pos + Z.of_nat (length (text ++ bs "endobj"))) rest hits d ->
      Contents pos (text ++ bs "endobj" ++ rest) ((id, InUse pos gen, o) :: hits) d
  | Ct_stream : forall pos id gen attrs raw head text rest hits d, Opens pos id gen (ODict attrs) head (text ++ rest) -> StreamBody raw text rest ->
      Boundary rest -> Unpacked attrs -> Contents (pos + Z.of_nat (length (head ++ text))) rest hits d ->
      Contents pos (head ++ text ++ rest) ((id, InUse pos gen, OStream attrs raw) :: hits) d
  | Ct_packed : forall pos id gen attrs raw ms head text rest hits d, Opens pos id gen (ODict attrs) head (text ++ rest) -> StreamBody raw text rest ->
      Boundary rest -> Packs attrs raw ms -> Contents (pos + Z.of_nat (length (head ++ text))) rest hits d ->
      Contents pos (head ++ text ++ rest) ((id, InUse pos gen, OStream attrs raw) :: members_found id 0 ms ++ hits) d.

  (* the last thing found under a number; an object number that was not found *)
  Definition LastHit (hits : list hit) (id : Z) (en : xentry) (o : obj) : Prop :=
    exists a b, hits = a ++ (id, en, o) :: b /\ Forall (fun h => fst (fst h) <> id) b.
  Definition NoHit (hits : list hit) (id : Z) : Prop := Forall (fun h => fst (fst h) <> id) hits.
  (* what a number then stands for: the last object found under it, or the member of the last object stream found under
     the number of that stream *)
  Inductive Recovered (hits : list hit) : Z -> obj -> Prop :=
  | Rc_direct : forall id off gen o, LastHit hits id (InUse off gen) o -> Recovered hits id o
  | Rc_member : forall id sid k o0 off gen attrs raw ms i o, LastHit hits id (Member sid (Z.of_nat k)) o0 -> sid <> 0 ->
      LastHit hits sid (InUse off gen) (OStream attrs raw) -> Packs attrs raw ms -> nth_error ms k = Some (i, o) -> Recovered hits id o.
End contents.
