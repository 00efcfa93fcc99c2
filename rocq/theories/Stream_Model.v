(* Model of pdfmajor/parser/PDFStream: __init__.py (PDFStream), util.py, PDFObjRef.py.  settings.STRICT is False. *)
From Coq Require Import String.
From Verif Require Import Base A85_Model LZW_Model PNG_Model Obj.

Section stream.
  (* zlib.decompress (None: zlib.error), ccittfaxdecode, and doc.getobj (None: PDFObjectNotFound) *)
  Context (zlib : list Z -> option (list Z)) (ccitt : list Z -> obj -> res (list Z)) (getobj : Z -> option obj).

  (* PDFObjRef.py:27-31 *)
  Definition ref_resolve (default : obj) (i : Z) : obj := match getobj i with Some o => o | None => default end.

  (* util.py:8-16 resolve1: the while loop, fuel counts iterations; None: still looping *)
  Fixpoint resolve1 (fuel : nat) (default o : obj) : option obj :=
    match fuel with
    | O => None
    | S f => match o with ORef i => resolve1 f default (ref_resolve default i) | _ => Some o end
    end.

  (* util.py:19-32 resolve_all; dict has no iteritems in Python 3 *)
  Fixpoint map_res {A B} (f : A -> res B) (l : list A) : res (list B) :=
    match l with [] => Ok [] | x :: r => do y <- f x; do ys <- map_res f r; Ok (y :: ys) end.
  Fixpoint resolve_all (fuel : nat) (default o : obj) : res obj :=
    match fuel with
    | O => Err OutOfFuel
    | S f =>
        match resolve1 fuel default o with
        | None => Err OutOfFuel
        | Some (OArr l) => do l' <- map_res (resolve_all f default) l; Ok (OArr l')
        | Some (ODict _) => Err AttributeError
        | Some x => Ok x
        end
    end.

  (* __init__.py:52-56 get_any *)
  Fixpoint get_any (attrs : list (obj * obj)) (names : list string) (default : obj) : obj :=
    match names with
    | [] => default
    | n :: r => match dget attrs n with Some v => v | None => get_any attrs r default end
    end.
  (* truth value of an object; a real is taken to be true *)
  Definition truthy (o : obj) : bool :=
    match o with
    | ONull | OBool false | OInt 0 | OStr [] | OArr [] | ODict [] => false
    | _ => true
    end.
  (* fltr.resolve()[0], lines 72-73 *)
  Definition first_of (o : obj) : res obj :=
    match o with
    | OArr (x :: _) => Ok x
    | OArr [] => Err IndexError
    | OStr (c :: _) => Ok (OInt c)
    | OStr [] => Err IndexError
    | ODict d => match dict_get d (OInt 0) with Some v => Ok v | None => Err KeyError end
    | OStream d _ => match dict_get d (OInt 0) with Some v => Ok v | None => Err KeyError end
    | _ => Err TypeError
    end.
  (* __init__.py:58-75 *)
  Definition get_filters (attrs : list (obj * obj)) : res (list (obj * obj)) :=
    let filters := get_any attrs ["F"%string; "Filter"%string] ONull in
    let params := get_any attrs ["DP"%string; "DecodeParms"%string; "FDecodeParms"%string] (ODict []) in
    if negb (truthy filters) then Ok []
    else
      let fl := match filters with OArr l => l | _ => [filters] end in
      let pl := match params with OArr l => l | _ => repeat params (length fl) end in
      do fl' <- map_res (fun f => match f with ORef i => first_of (ref_resolve ONull i) | _ => Ok f end) fl;
      Ok (combine fl' pl).

  (* constants.py:6-14 *)
  Inductive fkind := Flate | LZW | Ascii85 | AsciiHex | RunLength | CCITT | DCT.
  Definition is_lit (o : obj) (a b : string) : bool :=
    match o with OName n => list_eqb n (bs a) || list_eqb n (bs b) | _ => false end.
  Definition filter_kind (f : obj) : option fkind :=
    if is_lit f "FlateDecode" "Fl" then Some Flate
    else if is_lit f "LZWDecode" "LZW" then Some LZW
    else if is_lit f "ASCII85Decode" "A85" then Some Ascii85
    else if is_lit f "ASCIIHexDecode" "AHx" then Some AsciiHex
    else if is_lit f "RunLengthDecode" "RL" then Some RunLength
    else if is_lit f "CCITTFaxDecode" "CCF" then Some CCITT
    else if is_lit f "DCTDecode" "DCT" then Some DCT
    else None.
  (* __init__.py:88-116: one filter; /Crypt and unknown filters: the exception class is not imported, NameError *)
  Definition apply_filter (f params : obj) (data : list Z) : res (list Z) :=
    match filter_kind f with
    | Some Flate => Ok (match zlib data with Some d => d | None => [] end)
    | Some LZW => lzwdecode data
    | Some Ascii85 => ascii85decode data
    | Some AsciiHex => Ok (asciihexdecode data)
    | Some RunLength => rldecode data
    | Some CCITT => ccitt data params
    | Some DCT => Ok data
    | None => Err NameError
    end.

  (* util.py:49-55 int_value; the references met in Predictor, Colors, ... are followed up to depth steps *)
  Definition int_value (depth : nat) (o : obj) : res Z :=
    match resolve1 depth ONull o with
    | None => Err OutOfFuel
    | Some (OInt z) => Ok z
    | Some (OBool b) => Ok (if b then 1 else 0)
    | Some _ => Ok 0
    end.
  Definition get_default (d : list (obj * obj)) (k : string) (v : obj) : obj := match dget d k with Some x => x | None => v end.
  (* __init__.py:118-132: "'Predictor' in params" raises TypeError on objects that are not containers *)
  Definition apply_predictor (depth : nat) (params : obj) (data : list Z) : res (list Z) :=
    if negb (truthy params) then Ok data
    else
      match params with
      | ODict d | OStream d _ =>
          match dget d "Predictor" with
          | None => Ok data
          | Some p =>
              do pred <- int_value depth p;
              if pred =? 1 then Ok data
              else if 10 <=? pred then
                do colors <- int_value depth (get_default d "Colors" (OInt 1));
                do columns <- int_value depth (get_default d "Columns" (OInt 1));
                do bpc <- int_value depth (get_default d "BitsPerComponent" (OInt 8));
                apply_png_predictor colors columns bpc data
              else Err NameError
          end
      | OArr _ => Ok data
      | _ => Err TypeError
      end.
  Fixpoint run_filters (depth : nat) (fs : list (obj * obj)) (data : list Z) : res (list Z) :=
    match fs with
    | [] => Ok data
    | (f, params) :: r =>
        do d1 <- apply_filter f params data;
        do d2 <- apply_predictor depth params d1;
        run_filters depth r d2
    end.

  (* __init__.py:21-30: the object.  decipher is self.decipher applied to this stream's objid, genno and attrs *)
  Record pdfstream := mkS { s_attrs : list (obj * obj); s_raw : option (list Z); s_data : option (list Z);
                            s_decipher : option (list Z -> res (list Z)) }.
  (* __init__.py:77-135 decode *)
  Definition decode (depth : nat) (s : pdfstream) : res pdfstream :=
    match s_data s, s_raw s with
    | None, Some raw =>
        do data <- match s_decipher s with Some f => f raw | None => Ok raw end;
        do fs <- get_filters (s_attrs s);
        do out <- run_filters depth fs data;
        Ok (mkS (s_attrs s) None (Some out) (s_decipher s))
    | _, _ => Err AssertionError
    end.
  (* __init__.py:137-140 and 142-143 *)
  Definition get_data (depth : nat) (s : pdfstream) : res (list Z) * pdfstream :=
    match s_data s with
    | Some d => (Ok d, s)
    | None => match decode depth s with
              | Ok s' => (match s_data s' with Some d => Ok d | None => Err TypeError end, s')
              | Err e => (Err e, s)
              end
    end.
  Definition get_rawdata (s : pdfstream) : option (list Z) := s_raw s.

  (* a history of calls on one stream object *)
  Inductive call := CData | CRaw.
  Inductive answer := AData (r : res (list Z)) | ARaw (r : option (list Z)).
  Fixpoint calls (depth : nat) (s : pdfstream) (cs : list call) : list answer :=
    match cs with
    | [] => []
    | CData :: r => let (a, s') := get_data depth s in AData a :: calls depth s' r
    | CRaw :: r => ARaw (get_rawdata s) :: calls depth s r
    end.
End stream.

(* util.py:35-46 decipher_all; decipher is already applied to objid and genno.  The dictionary is updated in place in
   the code; its keys and their order do not change. *)
Section decipher.
  Context (decipher : list Z -> list Z).
  Fixpoint decipher_all (x : obj) : obj :=
    match x with
    | OStr s => OStr (decipher s)
    | OArr l => OArr (map decipher_all l)
    | ODict d => ODict (map (fun kv => (fst kv, decipher_all (snd kv))) d)
    | _ => x
    end.
End decipher.
