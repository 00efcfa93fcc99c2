(* Model of the outline, the name trees and the named destinations of a document: pdfmajor/parser/PDFDocument/__init__.py:
   223-285, and of text strings: pdfmajor/utils/text.py:1-45. *)
From Coq Require Import String.
From Verif Require Import Base Obj Stream_Model Page_Model CMap_Model.
Open Scope Z_scope.

(* text.py:2-35 PDFDocEncoding *)
Definition zrange (a : Z) (n : nat) : list Z := map (fun i => a + Z.of_nat i) (seq 0 n).
Definition pdfdoc_table : list Z :=
  zrange 0 22 ++ [23; 23] ++ [728; 711; 710; 729; 733; 731; 730; 732] ++ zrange 32 95 ++ [0] ++
  [8226; 8224; 8225; 8230; 8212; 8211; 402; 8260; 8249; 8250; 8722; 8240; 8222; 8220; 8221; 8216;
   8217; 8218; 8482; 64257; 64258; 321; 338; 352; 376; 381; 305; 322; 339; 353; 382; 0; 8364] ++
  zrange 161 12 ++ [0] ++ zrange 174 82.
(* text.py:37-42 decode_text on bytes (a byte is an index below 256) *)
Definition decode_text (s : list Z) : list Z :=
  match s with
  | 254 :: 255 :: r => utf16 r
  | _ => map (fun c => nth (Z.to_nat c) pdfdoc_table 0) s
  end.

(* one entry of the outline as get_outlines yields it: (level, title, dest, action, se) *)
Record oentry := mkOe { oe_level : Z; oe_title : list Z; oe_dest : option obj; oe_action : option obj; oe_se : option obj }.

Section doc.
  Context (getobj : Z -> option obj) (depth : nat) (catalog : dict).
  (* PDFStream/util.py:75-82 str_value, then decode_text: for something else than a string, ''.startswith(bytes) is a TypeError *)
  Definition title_of (o : obj) : res (list Z) :=
    do x <- resolved getobj depth o; match x with OStr s => Ok (decode_text s) | _ => Err TypeError end.
  (* 227-243 search; fuel: nesting of generators *)
  Fixpoint search_outline (fuel : nat) (entry : obj) (level : Z) : gen oentry :=
    match fuel with
    | O => gfail OutOfFuel
    | S f =>
        match dict_value getobj depth entry with
        | Err ex => gfail ex
        | Ok d =>
            gapp (match dget d "Title" with
                  | None => gnil
                  | Some t =>
                      match dget d "A", dget d "Dest" with
                      | None, None => gnil
                      | a, dst => match title_of t with Ok s => ([mkOe level s dst a (dget d "SE")], None) | Err ex => gfail ex end
                      end
                  end)
            (gapp (match dget d "First", dget d "Last" with Some x, Some _ => search_outline f x (level + 1) | _, _ => gnil end)
                  (match dget d "Next" with Some x => search_outline f x level | None => gnil end))
        end
    end.
  (* 223-225, 244 *)
  Definition get_outlines (fuel : nat) : gen oentry :=
    match dget catalog "Outlines" with None => gfail PDFNoOutlines | Some o => search_outline fuel o 0 end.

  (* a < b for a key (bytes: OStr, str: OName) and an object of the file: only bytes and bytes can be compared *)
  Fixpoint bytes_ltb (a b : list Z) : bool :=
    match a, b with
    | _, [] => false
    | [], _ :: _ => true
    | x :: a', y :: b' => (x <? y) || ((x =? y) && bytes_ltb a' b')
    end.
  Definition py_lt (a b : obj) : res bool := match a, b with OStr x, OStr y => Ok (bytes_ltb x y) | _, _ => Err TypeError end.
  (* dict(choplist(2, objs)) *)
  Fixpoint dict_of (objs : list obj) (d : dict) : res dict :=
    match objs with
    | k :: v :: r => if hashable k then dict_of r (dict_set d k v) else Err TypeError
    | _ => Ok d
    end.
  (* 264-266: the loop over the kids and the KeyError after it *)
  Fixpoint try_kids (look : obj -> res obj) (kids : list obj) : res obj :=
    match kids with
    | [] => Err KeyError
    | c :: r => do v <- look c; if truthy v then Ok v else try_kids look r
    end.
  (* 254-269 lookup; fuel: depth of the tree.  None is ONull.  A str is equal to no object of a Names array. *)
  Fixpoint lookup_tree (fuel : nat) (key : obj) (d : dict) : res obj :=
    match fuel with
    | O => Err OutOfFuel
    | S f =>
        do out <- match dget d "Limits" with
                  | None => Ok false
                  | Some o => do l <- list_value getobj depth o;
                      match l with
                      | [k1; k2] => do a <- py_lt key k1; if a then Ok true else py_lt k2 key
                      | _ => Err ValueError
                      end
                  end;
        if out then Ok ONull
        else match dget d "Names" with
             | Some o => do objs <- list_value getobj depth o; do m <- dict_of objs [];
                 match key with
                 | OStr _ => match dict_get m key with Some v => Ok v | None => Err KeyError end
                 | _ => Err KeyError
                 end
             | None =>
                 match dget d "Kids" with
                 | Some o => do kids <- list_value getobj depth o;
                     try_kids (fun c => do dc <- dict_value getobj depth c; lookup_tree f key dc) kids
                 | None => Err KeyError
                 end
             end
    end.
  (* 246-253 *)
  Definition lookup_name (fuel : nat) (cat : string) (key : obj) : res obj :=
    match dget catalog "Names" with
    | None => Err KeyError
    | Some o => do names <- dict_value getobj depth o;
        match dget names cat with
        | None => Err KeyError
        | Some t => do d0 <- dict_value getobj depth t; lookup_tree fuel key d0
        end
    end.
  (* 272-285 *)
  Definition get_dest (fuel : nat) (name : obj) : res obj :=
    match lookup_name fuel "Dests" name with
    | Err KeyError =>
        match dget catalog "Dests" with
        | None => Err PDFDestinationNotFound
        | Some o => do d0 <- dict_value getobj depth o;
            match dict_get d0 name with None => Err PDFDestinationNotFound | Some v => Ok v end
        end
    | r => r
    end.
End doc.
