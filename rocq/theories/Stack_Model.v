(* Model of the object parsers: PSStackParser/__init__.py, PDFParser.py, PDFContentParser.py.
   settings.STRICT is False (its default) everywhere. *)
From Coq Require Import String.
From Verif Require Import Base Lex_Model Lines_Model Obj.

(* the type argument of start_type/end_type: 'a', 'd', 'p', 'inline' *)
Inductive ckind := KArr | KDict | KProc | KInline.
Definition ckind_eqb (a b : ckind) : bool :=
  match a, b with KArr, KArr | KDict, KDict | KProc, KProc | KInline, KInline => true | _, _ => false end.

Definition pobj := (Z * obj)%type.

(* PSStackParser/__init__.py:45-51 *)
Record stk := mkStk {
  context : list (Z * option ckind * list pobj); (* innermost first *)
  curtype : option ckind; curstack : list pobj; results : list pobj }.
Definition stk0 : stk := mkStk [] None [] [].

(* 58-60 *)
Definition push (s : stk) (x : pobj) : stk := mkStk (context s) (curtype s) (curstack s ++ [x]) (results s).
(* 62-65: curstack[-n:] *)
Definition pop (s : stk) (n : nat) : list pobj * stk :=
  let k := (length (curstack s) - n)%nat in
  (skipn k (curstack s), mkStk (context s) (curtype s) (firstn k (curstack s)) (results s)).
(* 67-70 and 72-78 *)
Definition flush_all (s : stk) : stk := mkStk (context s) (curtype s) [] (results s ++ curstack s).
Definition add_results (s : stk) (l : list pobj) : stk := mkStk (context s) (curtype s) (curstack s) (results s ++ l).

(* 80-84 *)
Definition start_type (s : stk) (pos : Z) (k : ckind) : stk :=
  mkStk ((pos, curtype s, curstack s) :: context s) (Some k) [] (results s).
(* 86-92; None is the PSTypeError, which every caller swallows when not STRICT.  When curtype is a type there is
   a context, because start_type is the only way to set it. *)
Definition end_type (s : stk) (k : ckind) : option (Z * list obj * stk) :=
  match curtype s, context s with
  | Some k', (pos, ct, cs) :: ctx => if ckind_eqb k' k then Some (pos, map snd (curstack s), mkStk ctx ct cs (results s)) else None
  | _, _ => None
  end.

(* utils/generic.py choplist(2, objs) on an even list, and the dict comprehension of 138: pairs whose value is
   None are dropped; literal_name gives a name, or the object itself; unhashable keys raise TypeError *)
Fixpoint build_dict (drop_none : bool) (acc : list (obj * obj)) (objs : list obj) : res (list (obj * obj)) :=
  match objs with
  | k :: v :: r =>
      match v with
      | ONull => if drop_none then build_dict drop_none acc r
                 else if hashable k then build_dict drop_none (dict_set acc k v) r else Err TypeError
      | _ => if hashable k then build_dict drop_none (dict_set acc k v) r else Err TypeError
      end
  | _ => Ok acc
  end.

Definition tok_obj (t : token) : obj :=
  match t with
  | TInt z => OInt z | TReal x => OReal x | TBool b => OBool b | TStr s => OStr s | TLit n => OName n | TKwd k => OKwd k
  end.

(* PSStackParser/__init__.py:112-157, one token; do_keyword is a parameter and acts on the parser too, because
   the stream keyword and inline images read the file *)
Section step.
  Context {P : Type} (do_keyword : P -> stk -> Z -> list Z -> res (P * stk)).
  Definition step (p : P) (s : stk) (pos : Z) (t : token) : res (P * stk) :=
    match t with
    | TKwd k =>
        if list_eqb k (bs "[") then Ok (p, start_type s pos KArr)
        else if list_eqb k (bs "]") then
          Ok (p, match end_type s KArr with Some (pos0, objs, s') => push s' (pos0, OArr objs) | None => s end)
        else if list_eqb k (bs "<<") then Ok (p, start_type s pos KDict)
        else if list_eqb k (bs ">>") then
          match end_type s KDict with
          | Some (pos0, objs, s') =>
              if Nat.even (length objs)
              then do d <- build_dict true [] objs; Ok (p, push s' (pos0, ODict d))
              else Err PSSyntaxError
          | None => Ok (p, s)
          end
        else if list_eqb k (bs "{") then Ok (p, start_type s pos KProc)
        else if list_eqb k (bs "}") then
          Ok (p, match end_type s KProc with Some (pos0, objs, s') => push s' (pos0, OArr objs) | None => s end)
        else do_keyword p s pos k
    | _ => Ok (p, push s (pos, tok_obj t))
    end.
End step.

(* int(x) as used by do_keyword for R.  Reals truncate towards zero; for strings only the plain numerals are
   modelled (Python also accepts surrounding white space and underscores). *)
Definition before_dot (t : list Z) : list Z := fst (span (fun c => c =? 46) t).
Definition to_int (o : obj) : res Z :=
  match o with
  | OInt z => Ok z
  | OBool b => Ok (if b then 1 else 0)
  | OReal t => Ok (match py_int (before_dot t) with Some z => z | None => 0 end)
  | OStr s => match py_int s with Some z => Ok z | None => Err ValueError end
  | _ => Err TypeError
  end.

(* PDFParser.py:72-80 and 151-160: the R keyword.  Unpacking the wrong number of operands raises ValueError,
   which "except PSSyntaxError" does not catch. *)
Definition do_ref (s : stk) (pos : Z) : res stk :=
  let (ops, s1) := pop s 2 in
  match ops with
  | [(_, a); (_, b)] => do i <- to_int a; do g <- to_int b; Ok (push s1 (pos, ORef i))
  | _ => Err ValueError
  end.

(* the file, fp.read size, PDFParser.fallback, and resolve1 on the document *)
Record env := mkEnv { file : list Z; bufsiz : nat; fallback : bool; resolve : obj -> obj }.

(* PSBaseParser.seek: reading restarts at an absolute position *)
Definition seek (e : env) (pos : Z) : parser := open_at pos (read_chunks (bufsiz e) (skipn (Z.to_nat pos) (file e))).

(* PDFStream/util.py:49-55 and 93-100 *)
Definition int_value (e : env) (o : obj) : Z :=
  match resolve e o with OInt z => z | OBool b => if b then 1 else 0 | _ => 0 end.
Definition dict_value (e : env) (o : obj) : list (obj * obj) :=
  match resolve e o with ODict d => d | _ => [] end.

(* b'endstream' in line / line.index(b'endstream') *)
Fixpoint prefixb (p s : list Z) : bool :=
  match p, s with
  | [], _ => true
  | x :: p', y :: s' => (x =? y) && prefixb p' s'
  | _ :: _, [] => false
  end.
Fixpoint find_sub (p s : list Z) : option nat :=
  if prefixb p s then Some O
  else match s with [] => None | _ :: r => option_map S (find_sub p r) end.

(* PDFParser.py:104-119: the lines after the data up to endstream; the number of bytes before it and those bytes *)
Fixpoint to_endstream (fuel : nat) (pos : Z) (b : list Z) (cs : list (list Z)) : list Z :=
  match fuel with
  | O => []
  | S f =>
      match nextline pos b cs with
      | (Err _, _) => []
      | (Ok (_, line), (pos', b', cs')) =>
          match find_sub (bs "endstream") line with
          | Some i => firstn i line
          | None => line ++ to_endstream f pos' b' cs'
          end
      end
  end.

(* PDFParser.py:82-125 the stream keyword at position pos.  fp.read of a negative count reads everything;
   seeking to a negative position raises ValueError. *)
Definition do_stream (e : env) (p : parser) (s : stk) (pos : Z) : res (parser * stk) :=
  let (ops, s1) := pop s 1 in
  match ops with
  | [(_, d0)] =>
      let d := dict_value e d0 in
      let objlen := if fallback e then 0 else match dget d "Length" with Some v => int_value e v | None => 0 end in
      let p1 := seek e pos in
      match nextline pos (buf p1) (chunks p1) with
      | (Err _, (_, b', cs')) => Ok (mkParser lex0 pos [] [], stk0)
      | (Ok (_, line), _) =>
          let pos1 := pos + Z.of_nat (length line) in
          let rest := skipn (Z.to_nat pos1) (file e) in
          let data := if objlen <? 0 then rest else firstn (Z.to_nat objlen) rest in
          if pos1 + objlen <? 0 then Err ValueError
          else
            let p2 := seek e (pos1 + objlen) in
            let skipped := to_endstream (S (length (file e))) (pos1 + objlen) (buf p2) (chunks p2) in
            let data' := if fallback e then data ++ skipped else data in
            let objlen' := objlen + Z.of_nat (length skipped) in
            Ok (seek e (pos1 + objlen'), push stk0 (pos1, OStream d data'))
      end
  | _ => Err ValueError
  end.

(* PDFParser.py:59-131 PDFParser.do_keyword *)
Definition pdf_keyword (e : env) (p : parser) (s : stk) (pos : Z) (k : list Z) : res (parser * stk) :=
  if list_eqb k (bs "xref") || list_eqb k (bs "startxref") then
    let (l, s1) := pop s 1 in Ok (p, add_results s1 l)
  else if list_eqb k (bs "endobj") then let (l, s1) := pop s 4 in Ok (p, add_results s1 l)
  else if list_eqb k (bs "null") then Ok (p, push s (pos, ONull))
  else if list_eqb k (bs "R") then do s1 <- do_ref s pos; Ok (p, s1)
  else if list_eqb k (bs "stream") then do_stream e p s pos
  else Ok (p, push s (pos, OKwd k)).

(* PDFParser.py:147-174 PDFStreamParser.do_keyword *)
Definition stream_keyword {P} (p : P) (s : stk) (pos : Z) (k : list Z) : res (P * stk) :=
  if list_eqb k (bs "R") then do s1 <- do_ref s pos; Ok (p, s1)
  else if list_eqb k (bs "obj") || list_eqb k (bs "endobj") then Ok (p, s)
  else Ok (p, push s (pos, OKwd k)).

(* PSStackParser/__init__.py:104-163 nextobject over the tokens of the parser (nt is nexttoken); flush is the method called when
   no array or dictionary is open *)
Fixpoint nextobject {P : Type} (nt : P -> res (Z * token) * P) (kw : P -> stk -> Z -> list Z -> res (P * stk))
  (flush : stk -> stk) (fuel : nat) (p : P) (s : stk) : res (pobj * P * stk) :=
  match results s with
  | r :: rs => Ok (r, p, mkStk (context s) (curtype s) (curstack s) rs)
  | [] =>
      match fuel with
      | O => Err OutOfFuel
      | S f =>
          match nt p with
          | (Err ex, _) => Err ex
          | (Ok (pos, t), p') =>
              do (p'', s') <- step kw p' s pos t;
              nextobject nt kw flush f p'' (match context s' with [] => flush s' | _ => s' end)
          end
      end
  end.

(* PDFParser: flush is PSBaseParser.flush, which does nothing *)
Definition pdf_nextobject (e : env) (fuel : nat) (p : parser) (s : stk) := nextobject nexttoken (pdf_keyword e) (fun s => s) fuel p s.
(* PDFStreamParser: PDFParser.py:142-145 *)
Definition strm_nextobject (fuel : nat) (p : parser) (s : stk) := nextobject nexttoken stream_keyword flush_all fuel p s.

(* calling nextobject until it raises (PSStackParser.__iter__, lines 96-102, and PDFDocument/__init__.py:140-147):
   the objects, and the exception that ends the iteration *)
Fixpoint all_objects {P : Type} (nt : P -> res (Z * token) * P) (kw : P -> stk -> Z -> list Z -> res (P * stk))
  (flush : stk -> stk) (fuel : nat) (p : P) (s : stk) : list pobj * exn :=
  match fuel with
  | O => ([], OutOfFuel)
  | S f =>
      match nextobject nt kw flush f p s with
      | Ok (o, p', s') => let (os, e) := all_objects nt kw flush f p' s' in (o :: os, e)
      | Err e => ([], e)
      end
  end.
(* PDFParser.py:137-140: a PDFStreamParser reads a byte string *)
Definition strm_objects (fuel bufsiz : nat) (data : list Z) : list pobj * exn :=
  all_objects nexttoken stream_keyword flush_all fuel (open_at 0 (read_chunks bufsiz data)) stk0.
