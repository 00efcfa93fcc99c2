(* Model of the recovery of documents without a usable cross-reference table: PDFXRefFallback,
   pdfmajor/parser/PDFDocument/PDFXRef.py:112-163, and of its use by the constructor, PDFDocument/__init__.py:71-82.
   settings.STRICT is False. *)
From Coq Require Import String.
From Verif Require Import Base Lex_Model Lines_Model Obj Stack_Model Stream_Model XRef_Model Doc_Model.
Open Scope Z_scope.

(* PDFXRef.py:117: a str pattern is matched against the line decoded as latin-1.  \s and \w for the characters below
   256; \d is [0-9] there. *)
Definition uspace (c : Z) : bool := ((9 <=? c) && (c <=? 13)) || ((28 <=? c) && (c <=? 32)) || (c =? 133) || (c =? 160).
Definition uword (c : Z) : bool :=
  is_digit c || is_alpha c || (c =? 95) || (c =? 170) || (c =? 178) || (c =? 179) || (c =? 181) || (c =? 185) || (c =? 186)
  || ((188 <=? c) && (c <=? 190)) || ((192 <=? c) && (c <=? 214)) || ((216 <=? c) && (c <=? 246)) || ((248 <=? c) && (c <=? 255)).
(* PDFOBJ_CUE.match(line) and its groups: ^(\d+)\s+(\d+)\s+obj\b *)
Definition nat_text (s : list Z) : option Z := match s with [] => None | _ => dec_digits 0 s end.
Definition cue (line : list Z) : option (Z * Z) :=
  let (a, r1) := span (fun c => negb (is_digit c)) line in
  let (s1, r2) := span (fun c => negb (uspace c)) r1 in
  let (b, r3) := span (fun c => negb (is_digit c)) r2 in
  let (s2, r4) := span (fun c => negb (uspace c)) r3 in
  match nat_text a, s1, nat_text b, s2 with
  | Some i, _ :: _, Some g, _ :: _ =>
      if prefixb (bs "obj") r4 && match skipn 3 r4 with c :: _ => negb (uword c) | [] => true end then Some (i, g) else None
  | _, _, _, _ => None
  end.

(* 160-162: offsets[objs[2*index]] = (objid, index, 0).  A dictionary key True or False is the number 1 or 0; keys that
   are no numbers are never looked up and left out (so is, as a simplification, a real number equal to an integer);
   lists, dictionaries are no keys. *)
Fixpoint put_members (n : nat) (index objid : Z) (objs : list obj) (offs : list (Z * pos3)) : res (list (Z * pos3)) :=
  match n, objs with
  | S n', k :: _ :: r =>
      do offs' <- match k with
                  | OInt i => Ok (zset offs i (Some objid, index, 0))
                  | OBool b => Ok (zset offs (if b then 1 else 0) (Some objid, index, 0))
                  | _ => if hashable k then Ok offs else Err TypeError
                  end;
      put_members n' (index + 1) objid r offs'
  | _, _ => Ok offs
  end.

Section fb.
  Context (e : env) (getdata : list (obj * obj) -> list Z -> res (list Z)).
  (* 143-162 on the object just read; N is not resolved, and min with something else than a number is a TypeError (a
     real N is treated as one: simplification) *)
  Definition expand (fuel : nat) (objid : Z) (o : obj) (offs : list (Z * pos3)) : res (list (Z * pos3)) :=
    match o with
    | OStream attrs raw =>
        match dget attrs "Type" with
        | Some (OName t) =>
            if list_eqb t (bs "ObjStm") then
              do data <- getdata attrs raw;
              match strm_objects fuel (bufsiz e) data with
              | (os, PSEOF) =>
                  do n <- match dget attrs "N" with
                          | None => Ok 0
                          | Some (OInt n) => Ok n
                          | Some (OBool b) => Ok (if b then 1 else 0)
                          | Some _ => Err TypeError
                          end;
                  put_members (Z.to_nat n) 0 objid (map snd os) offs
              | (_, ex) => Err ex
              end
            else Ok offs
        | _ => Ok offs
        end
    | _ => Ok offs
    end.
  (* 119-163: the offsets and the trailer; fuel counts lines *)
  Fixpoint fb_scan (fuel : nat) (st : lstate) (offs : list (Z * pos3)) : res (list (Z * pos3) * list (obj * obj)) :=
    match fuel with
    | O => Err OutOfFuel
    | S f =>
        match lnext st with
        | (Err PSEOF, _) => Ok (offs, [])
        | (Err ex, _) => Err ex
        | (Ok (pos, line), st') =>
            if prefixb (bs "trailer") line then do tr <- load_trailer e f pos; Ok (offs, tr)
            else match cue line with
                 | None => fb_scan f st' offs
                 | Some (objid, genno) =>
                     do (po, p', _) <- pdf_nextobject e f (seek e pos) stk0;
                     do offs' <- expand f objid (snd po) (zset offs objid (None, pos, genno));
                     fb_scan f (lstate_of p') offs'
                 end
        end
    end.
  Definition fb_load (fuel : nat) := fb_scan fuel (lstate_of (seek e 0)) [].
End fb.

(* PDFDocument/__init__.py:307-338 read_xref_from, with the list built so far when an exception is raised (self.xrefs is
   extended in place) *)
Section chain.
  Context {X : Type} (load : Z -> res (X * list (obj * obj))) (int_value : obj -> res Z).
  Fixpoint read_xrefs (fuel : nat) (start : Z) (xrefs : list X) : list X * option exn :=
    match fuel with
    | O => (xrefs, Some OutOfFuel)
    | S f =>
        match load start with
        | Err ex => (xrefs, Some ex)
        | Ok (x, trailer) =>
            match (match dget trailer "XRefStm" with
                   | Some v => match int_value v with Ok pos => read_xrefs f pos (xrefs ++ [x]) | Err ex => (xrefs ++ [x], Some ex) end
                   | None => (xrefs ++ [x], None)
                   end) with
            | (l, Some ex) => (l, Some ex)
            | (l, None) =>
                match dget trailer "Prev" with
                | Some v => match int_value v with Ok pos => read_xrefs f pos l | Err ex => (l, Some ex) end
                | None => (l, None)
                end
            end
        end
    end.
End chain.

(* __init__.py:71-82.  The sections are read before parser.fallback is set; then, unless fallback=False, the scan makes
   one more section, always. *)
Definition set_fallback (e : env) (b : bool) : env := mkEnv (file e) (bufsiz e) b (resolve e).
Definition read_regular (e : env) (getdata : list (obj * obj) -> list Z -> res (list Z)) (fuel : nat)
  : res (list (section_ * list (obj * obj))) :=
  match find_xref (bufsiz e) (file e) with
  | Err PDFNoValidXRef => Ok []
  | Err ex => Err ex
  | Ok pos =>
      match read_xrefs (fun p => do (x, tr) <- load_section e getdata fuel p; Ok ((x, tr), tr)) int_direct fuel pos [] with
      | (l, None) | (l, Some PDFNoValidXRef) => Ok l
      | (_, Some ex) => Err ex
      end
  end.
Definition open_sections (use_fallback : bool) (e : env) (getdata : list (obj * obj) -> list Z -> res (list Z)) (fuel : nat)
  : res (list (section_ * list (obj * obj))) :=
  do l <- read_regular (set_fallback e false) getdata fuel;
  if use_fallback
  then do (offs, tr) <- fb_load (set_fallback e true) getdata fuel; Ok (l ++ [(STable offs, tr)])
  else Ok l.
(* the document that lookups work on *)
Definition open_document (use_fallback : bool) (e : env) (getdata : list (obj * obj) -> list Z -> res (list Z)) (fuel : nat)
  : res docdata :=
  do l <- open_sections use_fallback e getdata fuel; Ok (document (set_fallback e use_fallback) getdata fuel l).
