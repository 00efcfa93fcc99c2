(* Model of pdfmajor/parser/PDFPage.py, interpreter/__init__.py (page list) and interpreter/PageInterpreter.py
   (coordinate transform). *)
From Coq Require Import String.
From Verif Require Import Base Obj Stream_Model Num Geom_Model.
From Coq Require Import Qcanon.
Open Scope Z_scope.

(* A generator that is consumed to its end: the items it yields, then either StopIteration or an exception. *)
Definition gen (A : Type) : Type := (list A * option exn)%type.
Definition gapp {A} (a b : gen A) : gen A :=
  match snd a with None => (fst a ++ fst b, snd b) | Some e => a end.
Definition gfail {A} (e : exn) : gen A := ([], Some e).
Definition gnil {A} : gen A := ([], None).
(* for x in l: yield from f x *)
Fixpoint gflat {A B} (f : A -> gen B) (l : list A) : gen B :=
  match l with [] => gnil | x :: r => gapp (f x) (gflat f r) end.
(* for x in g: yield f(x), where f may raise *)
Fixpoint gmap_list {A B} (f : A -> res B) (l : list A) : gen B :=
  match l with
  | [] => gnil
  | x :: r => match f x with Ok y => gapp ([y], None) (gmap_list f r) | Err e => gfail e end
  end.
Definition gmap {A B} (f : A -> res B) (g : gen A) : gen B := gapp (gmap_list f (fst g)) ([], snd g).

Definition dict := list (obj * obj).

Section pages.
  (* getobj: document.getobj; None: PDFObjectNotFound (other exceptions of getobj are not modelled here).
     depth: number of references followed by resolve1 (Stream_Model) before giving up as OutOfFuel *)
  Context (getobj : Z -> option obj) (depth : nat).
  Definition resolved (o : obj) : res obj := match resolve1 getobj depth ONull o with Some x => Ok x | None => Err OutOfFuel end.
  (* PDFStream/util.py:88-95 and 79-86, STRICT off *)
  Definition dict_value (o : obj) : res dict := do x <- resolved o; Ok (match x with ODict d => d | _ => [] end).
  Definition list_value (o : obj) : res (list obj) := do x <- resolved o; Ok (match x with OArr l => l | _ => [] end).

  (* PDFPage.py:75 *)
  Definition inheritable (k : obj) : bool :=
    existsb (key_eqb k) [ON "Resources"; ON "MediaBox"; ON "CropBox"; ON "Rotate"].
  Definition has_key (d : dict) (k : obj) : bool := match dict_get d k with Some _ => true | None => false end.
  (* PDFPage.py:86-88 *)
  Definition inherit (tree parent : dict) : dict :=
    fold_left (fun t kv => if inheritable (fst kv) && negb (has_key t (fst kv)) then dict_set t (fst kv) (snd kv) else t) parent tree.
  (* PDFPage.py:90-92; d.get(k) is None both for a missing key and for null *)
  Definition tree_type (d : dict) : option obj :=
    match dget d "Type" with Some ONull | None => dget d "type" | Some t => Some t end.
  Definition is_name (o : option obj) (s : string) : bool := match o with Some (OName n) => list_eqb n (bs s) | _ => false end.

  (* PDFPage.py:79-102 search; fuel: depth of the recursion.  A direct dictionary or another direct object has no
     attribute objid; a direct stream cannot occur in a parsed document (its objid is taken as 0 here). *)
  Fixpoint search (fuel : nat) (o : obj) (parent : dict) : gen (Z * dict) :=
    match fuel with
    | O => gfail OutOfFuel
    | S f =>
        match (match o with
               | OInt i => match getobj i with Some x => do d <- dict_value x; Ok (i, d) | None => Err PDFObjectNotFound end
               | OBool b => let i := if b then 1 else 0 in
                            match getobj i with Some x => do d <- dict_value x; Ok (i, d) | None => Err PDFObjectNotFound end
               | ORef i => do d <- dict_value o; Ok (i, d)
               | OStream _ _ => Ok (0, [])
               | _ => Err AttributeError
               end) with
        | Err e => gfail e
        | Ok (objid, d) =>
            let tree := inherit d parent in
            let t := tree_type tree in
            if is_name t "Pages" && has_key tree (ON "Kids") then
              match dget tree "Kids" with
              | Some kids => match list_value kids with
                             | Ok l => gflat (fun c => search f c tree) l
                             | Err e => gfail e
                             end
              | None => gnil
              end
            else if is_name t "Page" then ([(objid, tree)], None)
            else gnil
        end
    end.

  (* PDFPage.py:42-69; LastModified, Annots and B are not modelled *)
  Record page := mkPage { pg_id : Z; pg_attrs : dict; pg_resources : obj; pg_mediabox : obj; pg_cropbox : obj;
                          pg_rotate : Z; pg_contents : list obj }.
  Definition make_page (ia : Z * dict) : res page :=
    let '(objid, attrs) := ia in
    do _ <- resolved (match dget attrs "LastModified" with Some x => x | None => ONull end);
    do rs <- resolved (match dget attrs "Resources" with Some x => x | None => ODict [] end);
    do mb <- (match dget attrs "MediaBox" with Some x => resolved x | None => Err KeyError end);
    do cb <- (match dget attrs "CropBox" with Some x => resolved x | None => Ok mb end);
    do rot <- int_value getobj depth (match dget attrs "Rotate" with Some x => x | None => OInt 0 end);
    do cs <- (match dget attrs "Contents" with Some x => resolved x | None => Ok (OArr []) end);
    Ok (mkPage objid attrs rs mb cb ((rot + 360) mod 360) (match cs with OArr l => l | o => [o] end)).

  (* PDFPage.py:104-118; objids: for each cross-reference section the numbers its get_objids yields *)
  Definition fallback_pages (objids : list Z) : gen page :=
    gflat (fun i => match getobj i with
                    | Some (ODict d) => if is_name (dget d "Type") "Page"
                                        then match make_page (i, d) with Ok p => ([p], None) | Err e => gfail e end else gnil
                    | _ => gnil
                    end) objids.
  Definition create_pages (fuel : nat) (catalog : dict) (objids : list (list Z)) : gen page :=
    let g := match dget catalog "Pages" with
             | Some o => gmap make_page (search fuel o catalog)
             | None => gnil
             end in
    match g with
    | ([], None) => fallback_pages (concat objids)
    | _ => g
    end.
End pages.

(* PDFPage.py:133-139 get_pages: selection over the generator of all pages.  pagenos None and [] select everything. *)
Fixpoint select_from {A} (pagenos : list Z) (maxpages pageno : Z) (pages : list A) : list A * bool :=
  match pages with
  | [] => ([], false)
  | p :: r =>
      if (match pagenos with [] => false | _ => negb (existsb (Z.eqb pageno) pagenos) end)
      then select_from pagenos maxpages (pageno + 1) r
      else if negb (maxpages =? 0) && (maxpages <=? pageno + 1) then ([p], true)
      else let (l, stop) := select_from pagenos maxpages (pageno + 1) r in (p :: l, stop)
  end.
Definition get_pages {A} (check extractable : bool) (pagenos : list Z) (maxpages : Z) (g : gen A) : gen A :=
  if check && negb extractable then gfail PDFTextExtractionNotAllowed
  else let (l, stop) := select_from pagenos maxpages 0 (fst g) in (l, if stop then None else snd g).

(* PageInterpreter.py:9-23; the media box as four numbers *)
Definition page_ctm (rotate : Z) (x0 y0 x1 y1 : num) : matrix :=
  if rotate =? 90 then (qz 0, qz (-1), qz 1, qz 0, (- y0)%Qc, x1)
  else if rotate =? 180 then (qz (-1), qz 0, qz 0, qz (-1), x1, y1)
  else if rotate =? 270 then (qz 0, qz 1, qz (-1), qz 0, y1, (- x0)%Qc)
  else (qz 1, qz 0, qz 0, qz 1, (- x0)%Qc, (- y0)%Qc).
Definition page_size (x0 y0 x1 y1 : num) : num * num := ((x1 - x0)%Qc, (y1 - y0)%Qc).   (* width, height *)

(* interpreter/__init__.py: the list of loaded pages shared by all iterations.  source: what PDFPage.get_pages yields
   (and whether it ends by an exception). *)
Section iterate.
  Context {A : Type} (source : gen A).
  (* an iteration: not started, walking the stored list, loading (at a position), or over *)
  Inductive iter := Fresh | Walking (n : nat) | Loading (n : nat) | Over.
  Record interp := mkInterp { in_pages : list A; in_iters : list iter }.
  Inductive outcome := Yield (a : A) | Stop | Raise (e : exn).
  Definition load_step (pages : list A) (n : nat) : outcome * list A * iter :=
    match nth_error (fst source) n with
    | Some p => (Yield p, pages ++ [p], Loading (S n))
    | None => match snd source with
              | Some e => (Raise e, pages, Over)
              | None => match pages with [] => (Raise EmptyDocumentError, pages, Over) | _ => (Stop, pages, Over) end
              end
    end.
  Definition walk_step (pages : list A) (n : nat) : outcome * list A * iter :=
    match nth_error pages n with
    | Some p => (Yield p, pages, Walking (S n))
    | None => (Stop, pages, Over)
    end.
  Definition next_step (pages : list A) (i : iter) : outcome * list A * iter :=
    match i with
    | Fresh => match pages with [] => load_step pages 0 | _ => walk_step pages 0 end
    | Walking n => walk_step pages n
    | Loading n => load_step pages n
    | Over => (Stop, pages, Over)
    end.
  Inductive action := Iter | Next (k : nat).
  Definition set_nth {X} (l : list X) (k : nat) (x : X) : list X := firstn k l ++ x :: skipn (S k) l.
  Definition act (s : interp) (a : action) : interp * option (nat * outcome) :=
    match a with
    | Iter => (mkInterp (in_pages s) (in_iters s ++ [Fresh]), None)
    | Next k => match nth_error (in_iters s) k with
                | None => (s, None)
                | Some i => let '(o, ps, i') := next_step (in_pages s) i in
                            (mkInterp ps (set_nth (in_iters s) k i'), Some (k, o))
                end
    end.
  Fixpoint acts (s : interp) (l : list action) : interp * list (nat * outcome) :=
    match l with
    | [] => (s, [])
    | a :: r => let (s1, o) := act s a in let (s2, os) := acts s1 r in
                (s2, match o with Some x => x :: os | None => os end)
    end.
  (* the constructor, lines 33-36; preload loads everything *)
  Definition fresh_interp : interp := mkInterp [] [].
  Definition preloaded : res interp :=
    match snd source with
    | Some e => Err e
    | None => match fst source with [] => Err EmptyDocumentError | l => Ok (mkInterp l []) end
    end.
  (* what iteration k was given by a run *)
  Definition given (k : nat) (os : list (nat * outcome)) : list outcome :=
    map snd (filter (fun x => Nat.eqb (fst x) k) os).
End iterate.
