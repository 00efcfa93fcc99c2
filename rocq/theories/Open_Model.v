(* Model of PDFDocument.__init__ (pdfmajor/parser/PDFDocument/__init__.py:57-126): which catalog, document information and
   encryption a document has, and of lookups in an encrypted document.  settings.STRICT is False. *)
From Coq Require Import String.
From Verif Require Import Base Lex_Model Lines_Model Obj Stack_Model Stream_Model XRef_Model Doc_Model Num Page_Model Sec_Model.
Open Scope Z_scope.

(* PDFStream/util.py:35-46 decipher_all, with a decipher that may raise *)
Section decipher.
  Context (f : list Z -> res (list Z)).
  Fixpoint decipher_obj (x : obj) : res obj :=
    match x with
    | OStr s => do t <- f s; Ok (OStr t)
    | OArr l => do l' <- (fix go l := match l with [] => Ok [] | y :: r => do y' <- decipher_obj y; do r' <- go r; Ok (y' :: r') end) l;
                Ok (OArr l')
    | ODict d => do d' <- (fix go d := match d with [] => Ok [] | (k, y) :: r => do y' <- decipher_obj y; do r' <- go r; Ok ((k, y') :: r') end) d;
                 Ok (ODict d')
    | _ => Ok x
    end.
End decipher.

Section open.
  Context (md5 sha256 : list Z -> list Z) (aes : list Z -> list Z -> list Z -> res (list Z)).
  (* __init__.py:206-212: an object read from the file.  The data of a stream are deciphered when get_data is called
     (PDFStream/__init__.py:80-85), with the object and generation number set here; in the model they are deciphered
     here, so that a failure is reported by the lookup and not by get_data. *)
  Definition doc_decipher (h : handler) (objid genno : Z) (o : obj) : res obj :=
    match o with
    | OStream attrs raw => do d <- decrypt md5 aes h objid genno raw (Some attrs); Ok (OStream attrs d)
    | _ => decipher_obj (fun s => decrypt md5 aes h objid genno s None) o
    end.
  (* the document under a handler *)
  Definition under (D : docdata) (h : option handler) : docdata :=
    mkDoc (d_xrefs D) (d_parse D) (d_members D) (option_map doc_decipher h).

  Record opened := mkOpened { op_catalog : dict; op_info : list dict; op_handler : option handler }.
  (* 68, 121-123: is_printable, is_modifiable, is_extractable *)
  Definition permission (o : opened) (p : handler -> bool) : bool := match op_handler o with None => true | Some h => p h end.

  Section scan.
    Context (D : docdata) (caching : bool) (fuel : nat) (password : list Z).
    (* PDFStream/util.py:10-18 resolve1 and PDFObjRef.resolve, on the document *)
    Fixpoint resolveM (get : Z -> M obj) (n : nat) (o : obj) : M obj :=
      match o with
      | ORef j =>
          match n with
          | O => ret (Err OutOfFuel)
          | S n' => fun s => let (r, s') := get j s in
                    match r with
                    | Ok o' => resolveM get n' o' s'
                    | Err PDFObjectNotFound => (Ok ONull, s')
                    | Err e => (Err e, s')
                    end
          end
      | _ => ret (Ok o)
      end.
    Definition as_dict (o : obj) : dict := match o with ODict d => d | _ => [] end.
    Definition as_list (o : obj) : list obj := match o with OArr l => l | _ => [] end.
    Definition dictM (h : option handler) (o : obj) : M dict :=
      mbind (resolveM (getobj (under D h) caching fuel) fuel o) (fun x => ret (Ok (as_dict x))).
    Definition listM (h : option handler) (o : obj) : M (list obj) :=
      mbind (resolveM (getobj (under D h) caching fuel) fuel o) (fun x => ret (Ok (as_list x))).
    (* lookups made while the handler is set up (entries of the encryption dictionary); simplification: what they read is
       not put in the cache, and their exceptions count as a missing object *)
    Definition view (h : option handler) (s : dstate) (i : Z) : option obj :=
      match fst (getobj (under D h) caching fuel i s) with Ok o => Some o | Err _ => None end.
    (* 88-93 and 110-126 *)
    Definition set_encryption (h : option handler) (t : dict) : M (option handler) :=
      match dget t "Encrypt" with
      | None => ret (Ok h)
      | Some enc =>
          match dget t "ID" with
          | None => ret (Err KeyError)
          | Some id =>
              mbind (listM h id) (fun docid => mbind (dictM h enc) (fun param s =>
                (do h' <- open_with md5 sha256 aes (view h s) fuel docid param password; Ok (Some h'), s)))
          end
      end.
    (* 83-101: the loop over the trailers with its else clause *)
    Fixpoint scan (trailers : list dict) (h : option handler) (info : list dict) : M opened :=
      match trailers with
      | [] => ret (Err PDFSyntaxError)
      | [] :: r => scan r h info
      | t :: r =>
          mbind (set_encryption h t) (fun h1 =>
          mbind (match dget t "Info" with
                 | None => ret (Ok info)
                 | Some v => mbind (dictM h1 v) (fun d => ret (Ok (info ++ [d])))
                 end) (fun info1 =>
          match dget t "Root" with
          | Some v => mbind (dictM h1 v) (fun d => ret (Ok (mkOpened d info1 h1)))
          | None => scan r h1 info1
          end))
      end.
  End scan.
End open.
