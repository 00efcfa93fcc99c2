(* Model of the cross-reference readers: pdfmajor/parser/PDFDocument/PDFXRef.py, and of find_xref
   (PDFDocument/__init__.py:288-304).  settings.STRICT is False. *)
From Coq Require Import String.
From Verif Require Import Base PNG_Model Lex_Model Lines_Model Obj Stack_Model.

(* PDFXRef.py:18, 31-35: what get_pos returns: (None, pos, genno) or (strmid, index, genno) *)
Definition pos3 := (option Z * Z * Z)%type.

(* dictionaries with integer keys (self.offsets), in insertion order *)
Fixpoint zset {A} (d : list (Z * A)) (k : Z) (v : A) : list (Z * A) :=
  match d with
  | [] => [(k, v)]
  | (k', v') :: r => if k' =? k then (k', v) :: r else (k', v') :: zset r k v
  end.
Fixpoint zget {A} (d : list (Z * A)) (k : Z) : option A :=
  match d with [] => None | (k', v) :: r => if k' =? k then Some v else zget r k end.

(* ---------- PDFXRefStream, 167-234 ---------- *)
Record xrefstm := mkXS { xs_ranges : list (Z * Z); xs_fl1 : nat; xs_fl2 : nat; xs_fl3 : nat; xs_data : list Z }.
Definition entlen (x : xrefstm) : nat := (xs_fl1 x + xs_fl2 x + xs_fl3 x)%nat.

(* utils/generic.py choplist(2, index_array); only direct non-negative integers are modelled, anything else is a
   TypeError here (in the code, when the range is first compared) *)
Fixpoint int_pairs (l : list obj) : res (list (Z * Z)) :=
  match l with
  | [] => Ok []
  | OInt a :: OInt b :: r => do ps <- int_pairs r; Ok ((a, b) :: ps)
  | _ => Err TypeError
  end.
(* 182-203 load, on the parsed stream object: attributes and decoded data.  PDFNoValidXRef is not imported in
   PDFXRef.py: NameError. *)
Definition xs_load (attrs : list (obj * obj)) (get_data : res (list Z)) : res xrefstm :=
  match dget attrs "Type" with
  | None => Err KeyError
  | Some (OName t) =>
      if negb (list_eqb t (bs "XRef")) then Err NameError
      else match dget attrs "Size" with
           | None => Err KeyError
           | Some size =>
               do index <- match dget attrs "Index" with
                           | None => Ok [OInt 0; size]
                           | Some (OArr l) => Ok l
                           | Some _ => Err TypeError
                           end;
               if negb (Nat.even (length index)) then Err PDFSyntaxError
               else
                 do ranges <- int_pairs index;
                 match dget attrs "W" with
                 | None => Err KeyError
                 | Some (OArr [OInt a; OInt b; OInt c]) =>
                     do data <- get_data;
                     Ok (mkXS ranges (Z.to_nat a) (Z.to_nat b) (Z.to_nat c) data)
                 | Some (OArr [_; _; _]) => Err TypeError
                 | Some _ => Err ValueError
                 end
           end
  | Some _ => Err NameError
  end.

(* the slice data[offset:offset+entlen], offset = entlen*index *)
Definition ent (x : xrefstm) (index : Z) : list Z := firstn (entlen x) (skipn (entlen x * Z.to_nat index) (xs_data x)).
(* 218-226: the loop over the ranges; None: for ... else *)
Fixpoint xs_index (ranges : list (Z * Z)) (index objid : Z) : option Z :=
  match ranges with
  | [] => None
  | (start, n) :: r =>
      if (start <=? objid) && (objid <? start + n) then Some (index + (objid - start)) else xs_index r (index + n) objid
  end.
(* 217-234 *)
Definition xs_get_pos (x : xrefstm) (objid : Z) : res pos3 :=
  match xs_index (xs_ranges x) 0 objid with
  | None => Err KeyError
  | Some index =>
      let e := ent x index in
      do f1 <- nunpack (firstn (xs_fl1 x) e) 1;
      do f2 <- nunpack (firstn (xs_fl2 x) (skipn (xs_fl1 x) e)) 0;
      do f3 <- nunpack (skipn (xs_fl1 x + xs_fl2 x) e) 0;
      if f1 =? 1 then Ok (None, f2, f3) else if f1 =? 2 then Ok (Some f2, f3, 0) else Err KeyError
  end.
(* 207-215: the list yielded, and the exception that interrupts it if any.  Note that the offset restarts at each
   range. *)
Fixpoint xs_ids_range (x : xrefstm) (start : Z) (i : nat) (n : nat) : list Z * option exn :=
  match n with
  | O => ([], None)
  | S n' =>
      match nunpack (firstn (xs_fl1 x) (ent x (Z.of_nat i))) 1 with
      | Err e => ([], Some e)
      | Ok f1 => let (l, e) := xs_ids_range x start (S i) n' in
                 (if (f1 =? 1) || (f1 =? 2) then (start + Z.of_nat i) :: l else l, e)
      end
  end.
Fixpoint xs_ids (x : xrefstm) (ranges : list (Z * Z)) : list Z * option exn :=
  match ranges with
  | [] => ([], None)
  | (start, n) :: r =>
      match xs_ids_range x start 0 (Z.to_nat n) with
      | (l, Some e) => (l, Some e)
      | (l, None) => let (l', e) := xs_ids x r in (l ++ l', e)
      end
  end.
Definition xs_get_objids (x : xrefstm) := xs_ids x (xs_ranges x).

(* ---------- PDFXRef, 42-107 ---------- *)
(* bytes.strip(), bytes.split(b' ') *)
Definition strip (s : list Z) : list Z :=
  let ns := fun c => negb (is_space c) in
  rev (snd (span ns (rev (snd (span ns s))))).
Fixpoint split_sp (s : list Z) : list (list Z) :=
  match s with
  | [] => [[]]
  | c :: r => if c =? 32 then [] :: split_sp r
              else match split_sp r with f :: fs => (c :: f) :: fs | [] => [[c]] end
  end.
(* int(x) on bytes: plain numerals only (Python also accepts surrounding white space and underscores) *)
Definition int_of (s : list Z) : res Z := match py_int s with Some z => Ok z | None => Err ValueError end.

(* the parser as seen by nextline: position, buffer, chunks *)
Definition lstate := (Z * list Z * list (list Z))%type.
Definition lnext (st : lstate) : res (Z * list Z) * lstate := let '(p, b, cs) := st in nextline p b cs.

(* 67-78: the entries of a subsection *)
Fixpoint xt_entries (n : nat) (objid : Z) (st : lstate) (offs : list (Z * pos3)) : res (list (Z * pos3) * lstate) :=
  match n with
  | O => Ok (offs, st)
  | S n' =>
      match lnext st with
      | (Err PSEOF, _) => Err NameError (* PDFNoValidXRef is not imported *)
      | (Err e, _) => Err e
      | (Ok (_, line), st') =>
          match split_sp (strip line) with
          | [pos; genno; use] =>
              if list_eqb use (bs "n")
              then do p <- int_of pos; do g <- int_of genno; xt_entries n' (objid + 1) st' (zset offs objid (None, p, g))
              else xt_entries n' (objid + 1) st' offs
          | _ => Err NameError
          end
      end
  end.
(* 46-80 load: the offsets and the position of the trailer line.  Fuel counts subsections and blank lines. *)
Fixpoint xt_load (fuel : nat) (st : lstate) (offs : list (Z * pos3)) : res (list (Z * pos3) * Z) :=
  match fuel with
  | O => Err OutOfFuel
  | S f =>
      match lnext st with
      | (Err PSEOF, _) => Err NameError
      | (Err e, _) => Err e
      | (Ok (pos, line), st') =>
          match strip line with
          | [] => xt_load f st' offs
          | _ :: _ =>
              if prefixb (bs "trailer") line then Ok (offs, pos)
              else
                match split_sp (strip line) with
                | [a; b] =>
                    match py_int a, py_int b with
                    | Some start, Some nobjs =>
                        do (offs', st'') <- xt_entries (Z.to_nat nobjs) start st' offs; xt_load f st'' offs'
                    | _, _ => Err NameError
                    end
                | _ => Err NameError
                end
          end
      end
  end.
(* the object on top of the stack when nextobject raises PSEOF, if any: parser.pop(1), line 87 *)
Fixpoint pdf_last (e : env) (fuel : nat) (p : parser) (s : stk) : option obj :=
  match results s with
  | _ :: _ => None
  | [] =>
      match fuel with
      | O => None
      | S f =>
          match nexttoken p with
          | (Err _, _) => match fst (pop s 1) with (_, o) :: _ => Some o | [] => None end
          | (Ok (pos, t), p') =>
              match step (pdf_keyword e) p' s pos t with
              | Ok (p'', s') => pdf_last e f p'' s'
              | Err _ => None
              end
          end
      end
  end.
(* 82-93 load_trailer after parser.seek(pos); the trailer was empty before *)
Definition load_trailer (e : env) (fuel : nat) (pos : Z) : res (list (obj * obj)) :=
  let '(t, p) := nexttoken (seek e pos) in
  match t with
  | Err PSEOF => Err NameError (* parser.pop(1) is empty after seek *)
  | Err ex => Err ex
  | Ok (_, TKwd k) =>
      if list_eqb k (bs "trailer")
      then match pdf_nextobject e fuel p stk0 with
           | Ok (po, _, _) => Ok (dict_value e (snd po))
           | Err PSEOF =>
               match pdf_last e fuel p stk0 with
               | Some o => Ok (dict_value e o)
               | None => Err NameError (* PDFNoValidXRef is not imported *)
               end
           | Err ex => Err ex
           end
      else Err AssertionError
  | Ok _ => Err AssertionError
  end.
(* 44-80 of PDFXRef.load from a parser at position pos *)
Definition lstate_of (p : parser) : lstate := (Lex_Model.pos p, buf p, chunks p).
Definition xt_load_table (e : env) (fuel : nat) (st : lstate) : res (list (Z * pos3) * list (obj * obj)) :=
  do (offs, tpos) <- xt_load fuel st [];
  do tr <- load_trailer e fuel tpos;
  Ok (offs, tr).

(* ---------- find_xref, PDFDocument/__init__.py:288-304 ---------- *)
Fixpoint find_xref_loop (lines : list (list Z)) (prev : option (list Z)) : res Z :=
  match lines with
  | [] => Err PDFNoValidXRef
  | l :: r =>
      let s := strip l in
      if list_eqb s (bs "startxref") then
        match prev with None => Err TypeError | Some p => int_of p end
      else find_xref_loop r (match s with [] => prev | _ => Some s end)
  end.
Definition find_xref (bufsiz : nat) (file : list Z) : res Z := find_xref_loop (revreadlines bufsiz file) None.
