(* Model of object lookup: pdfmajor/parser/PDFDocument/__init__.py:124-221 (getobj and its helpers) and 307-338
   (read_xref_from).  settings.STRICT is False.  Python objects are values here: mutation of a returned object by
   the caller is not modelled. *)
From Coq Require Import String.
From Verif Require Import Base Lex_Model Lines_Model Obj Stack_Model Stream_Model XRef_Model.

(* Parsing an object can look up another object (an indirect Length) before it goes on: Ask i k looks up object i
   and goes on as k with the outcome. *)
Inductive prog := Ret (r : res obj) | Ask (i : Z) (k : res obj -> prog).

(* What getobj works on: the cross-reference sections (get_pos of each, in the order of self.xrefs), _getobj_parse
   at a position for an object number, _get_objects on a stream object, and decipher_all with objid and genno. *)
Record docdata := mkDoc {
  d_xrefs : list (Z -> res pos3);
  d_parse : Z -> Z -> prog;
  d_members : obj -> res (list obj * Z);
  d_decipher : option (Z -> Z -> obj -> res obj) }.

(* self._cached_objs and self._parsed_objs.  The key of the latter is stream.objid: None for the empty stream that
   stands for an object that is not a stream. *)
Record dstate := mkDS { ds_objs : list (Z * obj); ds_parsed : list (option Z * (list obj * Z)) }.
Definition dstate0 : dstate := mkDS [] [].
Definition okey_eqb (a b : option Z) : bool :=
  match a, b with Some x, Some y => x =? y | None, None => true | _, _ => false end.
Fixpoint oget {A} (d : list (option Z * A)) (k : option Z) : option A :=
  match d with [] => None | (k', v) :: r => if okey_eqb k' k then Some v else oget r k end.

(* Python list indexing objs[i] *)
Definition py_index {A} (l : list A) (i : Z) : option A :=
  if 0 <=? i then nth_error l (Z.to_nat i)
  else if - Z.of_nat (length l) <=? i then nth_error l (Z.to_nat (Z.of_nat (length l) + i)) else None.

Section getobj.
  Context (D : docdata) (caching : bool).
  Definition M (A : Type) := dstate -> res A * dstate.
  Definition ret {A} (r : res A) : M A := fun s => (r, s).
  Definition mbind {A B} (m : M A) (f : A -> M B) : M B :=
    fun s => let (r, s') := m s in match r with Ok a => f a s' | Err e => (Err e, s') end.

  Fixpoint run_prog (get : Z -> M obj) (p : prog) : M obj :=
    match p with
    | Ret r => ret r
    | Ask i k => fun s => let (r, s') := get i s in
                 match r with Err OutOfFuel => (Err OutOfFuel, s') | _ => run_prog get (k r) s' end
    end.

  (* PDFStream.validated_stream(self.getobj(strmid)): resolve1 follows references (at most n of them here); the
     result carries stream.objid *)
  Fixpoint follow (get : Z -> M obj) (n : nat) (id : Z) (o : obj) : M (option Z * obj) :=
    match o with
    | ORef j =>
        match n with
        | O => ret (Err OutOfFuel)
        | S n' => fun s => let (r, s') := get j s in
                  match r with
                  | Ok o' => follow get n' j o' s'
                  | Err PDFObjectNotFound => (Ok (None, OStream [] []), s')
                  | Err e => (Err e, s')
                  end
        end
    | OStream _ _ => ret (Ok (Some id, o))
    | _ => ret (Ok (None, OStream [] []))
    end.

  (* 124-137 _getobj_objstm *)
  Definition member_at (v : list obj * Z) (index : Z) : res obj :=
    match py_index (fst v) (snd v * 2 + index) with Some o => Ok o | None => Err PDFSyntaxError end.
  Definition getobj_objstm (key : option Z) (strm : obj) (index : Z) : M obj :=
    fun s =>
      match oget (ds_parsed s) key with
      | Some v => (member_at v index, s)
      | None =>
          match d_members D strm with
          | Err e => (Err e, s)
          | Ok v => (member_at v index, if caching then mkDS (ds_objs s) ((key, v) :: ds_parsed s) else s)
          end
      end.

  (* 203-210: what is tried for one cross-reference section *)
  Definition read_entry (get : Z -> M obj) (n : nat) (objid : Z) (p : pos3) : M obj :=
    let '(strmid, index, genno) := p in
    match strmid with
    | Some sid =>
        mbind (get sid) (fun o => mbind (follow get n sid o) (fun ks => getobj_objstm (fst ks) (snd ks) index))
    | None =>
        mbind (run_prog get (d_parse D index objid)) (fun o =>
          ret (match d_decipher D with Some dec => dec objid genno o | None => Ok o end))
    end.
  (* 197-217: the loop over the sections, with its else clause *)
  Fixpoint try_xrefs (get : Z -> M obj) (n : nat) (objid : Z) (xs : list (Z -> res pos3)) : M obj :=
    match xs with
    | [] => ret (Err PDFObjectNotFound)
    | x :: r =>
        match x objid with
        | Err KeyError => try_xrefs get n objid r
        | Err e => ret (Err e)
        | Ok p => fun s => let (o, s') := read_entry get n objid p s in
                  match o with
                  | Err PSEOF | Err PDFSyntaxError => try_xrefs get n objid r s'
                  | _ => (o, s')
                  end
        end
    end.
  (* 189-221 getobj; fuel bounds the depth of nested lookups *)
  Fixpoint getobj (fuel : nat) (objid : Z) : M obj :=
    match fuel with
    | O => ret (Err OutOfFuel)
    | S f =>
        if objid =? 0 then ret (Err AssertionError)
        else match d_xrefs D with
             | [] => ret (Err ParserError)
             | _ => fun s =>
                 match zget (ds_objs s) objid with
                 | Some o => (Ok o, s)
                 | None =>
                     let (o, s') := try_xrefs (getobj f) f objid (d_xrefs D) s in
                     match o with
                     | Ok v => (o, if caching then mkDS ((objid, v) :: ds_objs s') (ds_parsed s') else s')
                     | Err _ => (o, s')
                     end
                 end
             end
    end.
  (* a history of lookups on one document *)
  Fixpoint lookups (fuel : nat) (s : dstate) (ids : list Z) : list (res obj) :=
    match ids with [] => [] | i :: r => let (o, s') := getobj fuel i s in o :: lookups fuel s' r end.
End getobj.

(* ---------- 139-160 _get_objects, on the attributes and decoded data of the stream ---------- *)
Definition get_objects (bufsiz fuel : nat) (attrs : list (obj * obj)) (data : list Z) : res (list obj * Z) :=
  do n <- match dget attrs "N" with
          | None => Ok 0
          | Some (OInt n) => Ok n
          | Some (OBool b) => Ok (if b then 1 else 0)
          | Some _ => Err TypeError (* raised by n*2+index *)
          end;
  match strm_objects fuel bufsiz data with
  | (os, PSEOF) => Ok (map snd os, n)
  | (_, e) => Err e
  end.

(* ---------- 162-187 _getobj_parse ---------- *)
(* tokens compared with an object number: only integers are equal to it (Python's True == 1 and 1.0 == 1 are not
   reproduced) *)
Definition is_id (t : token) (objid : Z) : bool := match t with TInt z => z =? objid | _ => false end.
Definition is_obj_kwd (t : token) : bool := match t with TKwd k => list_eqb k (bs "obj") | _ => false end.
(* 170-178: reads tokens up to the keyword obj; x is the list of those read *)
Fixpoint until_obj (fuel : nat) (kwd : token) (p : parser) (x : list token) : res (list token * parser) :=
  if is_obj_kwd kwd then Ok (x, p)
  else match fuel with
       | O => Err OutOfFuel
       | S f => match nexttoken p with
                | (Err e, _) => Err e
                | (Ok (_, k), p') => until_obj f k p' (x ++ [k])
                end
       end.
Definition getobj_parse (e : env) (fuel : nat) (pos objid : Z) : res obj :=
  if pos <? 0 then Err ValueError (* fp.seek *)
  else
  match nexttoken (seek e pos) with
  | (Err ex, _) => Err ex
  | (Ok (_, objid1), p1) =>
    match nexttoken p1 with
    | (Err ex, _) => Err ex
    | (Ok (_, genno), p2) =>
      match nexttoken p2 with
      | (Err ex, _) => Err ex
      | (Ok (_, kwd), p3) =>
          do (objid1', kwd', p4) <-
            (if is_id objid1 objid then Ok (objid1, kwd, p3)
             else do (x, p') <- until_obj fuel kwd p3 [];
                  match x with
                  | [] => Ok (objid1, kwd, p')
                  | _ => match nth_error (rev x) 1 with
                         | Some t => Ok (t, KW "obj", p') (* x[-2] *)
                         | None => Err IndexError
                         end
                  end);
          if negb (is_id objid1' objid) then Err PDFSyntaxError
          else if negb (is_obj_kwd kwd') then Err PDFSyntaxError
          else do (po, _, _) <- pdf_nextobject e fuel p4 stk0; Ok (snd po)
      end
    end
  end.

(* ---------- 307-338 read_xref_from ---------- *)
(* load: what is at a position: a section (with its get_pos) and its trailer.  The trailer entries XRefStm and Prev
   are passed through int_value.  Fuel counts sections. *)
Section chain.
  Context {X : Type} (load : Z -> res (X * list (obj * obj))) (int_value : obj -> res Z).
  Fixpoint read_xref_from (fuel : nat) (start : Z) (xrefs : list X) : res (list X) :=
    match fuel with
    | O => Err OutOfFuel
    | S f =>
        do (x, trailer) <- load start;
        let xrefs1 := xrefs ++ [x] in
        do xrefs2 <- match dget trailer "XRefStm" with
                     | Some v => do pos <- int_value v; read_xref_from f pos xrefs1
                     | None => Ok xrefs1
                     end;
        match dget trailer "Prev" with
        | Some v => do pos <- int_value v; read_xref_from f pos xrefs2
        | None => Ok xrefs2
        end
    end.
End chain.

(* the section at a position, 309-325: an integer token starts a cross-reference stream, anything else a table.
   getdata decodes the stream (PDFStream.get_data). *)
Inductive section_ := STable (offs : list (Z * pos3)) | SStream (x : xrefstm).
Definition get_pos (x : section_) (objid : Z) : res pos3 :=
  match x with
  | STable offs => match zget offs objid with Some p => Ok p | None => Err KeyError end
  | SStream x => xs_get_pos x objid
  end.
Section load.
  Context (e : env) (getdata : list (obj * obj) -> list Z -> res (list Z)) (fuel : nat).
  (* PDFXRefStream.load, PDFXRef.py:182-187: three tokens are skipped, then an object *)
  Definition load_stream (pos : Z) : res (section_ * list (obj * obj)) :=
    match nexttoken (seek e pos) with
    | (Err ex, _) => Err ex
    | (Ok _, p1) =>
      match nexttoken p1 with
      | (Err ex, _) => Err ex
      | (Ok _, p2) =>
        match nexttoken p2 with
        | (Err ex, _) => Err ex
        | (Ok _, p3) =>
            do (po, _, _) <- pdf_nextobject e fuel p3 stk0;
            match snd po with
            | OStream attrs raw => do x <- xs_load attrs (getdata attrs raw); Ok (SStream x, attrs)
            | _ => Err NameError (* PDFNoValidXRef is not imported *)
            end
        end
      end
    end.
  Definition load_section (start : Z) : res (section_ * list (obj * obj)) :=
    if start <? 0 then Err ValueError
    else
    match nexttoken (seek e start) with
    | (Err PSEOF, _) => Err PDFNoValidXRef
    | (Err ex, _) => Err ex
    | (Ok (pos, TInt _), _) => load_stream pos
    | (Ok (_, t), p) =>
        let st := lstate_of p in
        do st1 <- match t with
                  | TKwd k => if list_eqb k (bs "xref")
                              then match lnext st with (Ok _, st') => Ok st' | (Err ex, _) => Err ex end
                              else Ok st
                  | _ => Ok st
                  end;
        do (offs, trailer) <- xt_load_table e fuel st1;
        Ok (STable offs, trailer)
    end.
End load.

(* ---------- the constructor, 57-105, with fallback=False ---------- *)
(* int_value on a trailer entry.  Simplification: an indirect XRefStm or Prev (which would be looked up in the sections
   read so far) is not modelled. *)
Definition int_direct (o : obj) : res Z :=
  match o with OInt z => Ok z | OBool b => Ok (if b then 1 else 0) | ORef _ => Err PDFNotImplementedError | _ => Ok 0 end.
Definition read_sections (e : env) (getdata : list (obj * obj) -> list Z -> res (list Z)) (fuel : nat) : res (list (section_ * list (obj * obj))) :=
  do pos <- find_xref (bufsiz e) (file e);
  read_xref_from (fun p => do (x, tr) <- load_section e getdata fuel p; Ok ((x, tr), tr)) int_direct fuel pos [].
(* the document object that getobj works on: no encryption; the parser of e *)
Definition document (e : env) (getdata : list (obj * obj) -> list Z -> res (list Z)) (fuel : nat)
  (xrefs : list (section_ * list (obj * obj))) : docdata :=
  mkDoc (map (fun x => get_pos (fst x)) xrefs)
        (fun pos objid => Ret (getobj_parse e fuel pos objid))
        (fun o => match o with OStream attrs raw => do data <- getdata attrs raw; get_objects (bufsiz e) fuel attrs data | _ => Err TypeError end)
        None.
