(* Model of pdfmajor/interpreter/commands/state/layout/LTImage.py: LTImage.__init__ and save_image.
   The sides of the box are Python ints or floats (ints if all numbers they come from were written as integers).  Files are a map from paths
   to contents; open(path, 'wb') always succeeds and empties the file.  The inversion of CMYK images by PIL is a parameter (with `import PIL`
   alone its submodules may not even be there); what it leaves in the file when it fails is not modelled (taken as nothing). *)
From Coq Require Import String.
From Verif Require Import Base Obj Num Stream_Model Interp_Model BMP_Model Markup_Model.
From Coq Require Import Qcanon Qround.
Open Scope Z_scope.

Inductive pynum := PyInt (z : Z) | PyFloat (q : num).
(* int(x): towards zero *)
Definition py_int (x : pynum) : Z := match x with PyInt z => z | PyFloat q => qtrunc q end.
Definition pynum_of (o : obj) : option pynum :=
  match o with OInt z => Some (PyInt z) | OBool b => Some (PyInt (if b then 1 else 0)) | OReal t => Some (PyFloat (real_val t)) | _ => None end.
(* '%d' % x *)
Definition percent_d (x : pynum) : list Z := py_str_int (py_int x).
(* os.path.join of two texts *)
Definition path_join (a b : list Z) : list Z :=
  if hd 0 b =? 47 then b else match a with [] => b | _ => if last a 0 =? 47 then a ++ b else a ++ [47] ++ b end.

(* 21-33 __init__ *)
Record image := mkIm { im_name : list Z; im_bits : obj; im_cs : list obj; im_width : pynum; im_height : pynum }.
Definition make (name : list Z) (attrs : list (obj * obj)) (w h : pynum) : image :=
  mkIm name (get_any attrs ["BPC"; "BitsPerComponent"]%string (OInt 1))
       (match get_any attrs ["CS"; "ColorSpace"]%string ONull with OArr l => l | o => [o] end) w h.

Definition files := list Z -> option (list Z).
Definition fput (f : files) (p c : list Z) : files := fun q => if list_eqb q p then Some c else f q.

Section save.
  Context (zlib : list Z -> option (list Z)) (ccitt : list Z -> obj -> res (list Z)) (getobj : Z -> option obj) (depth : nat)
          (pillow : option (list Z) -> res (list Z)).
  Notation get_data := (get_data zlib ccitt getobj depth).
  (* bits == n: numbers compare by value *)
  Definition bits_are (im : image) (n : Z) : bool := match num_of (im_bits im) with Some q => qeqb q (qz n) | None => false end.
  (* 47-53: the extension.  The colour space is a list, so that the test of the third line never holds *)
  Inductive kind := KJpg | KBmp | KImg.
  Definition kind_of (im : image) (fs : list (obj * obj)) : kind :=
    if (match fs with [(f, _)] => is_lit f "DCTDecode" "DCT" | _ => false end) then KJpg
    else if bits_are im 1 then KBmp
    else KImg.
  Definition ext_of (im : image) (k : kind) : res (list Z) :=
    match k with
    | KJpg => Ok (bs ".jpg")
    | KBmp => Ok (bs ".w" ++ percent_d (im_width im) ++ bs "h" ++ percent_d (im_height im) ++ bs ".bmp")
    | KImg => match pynum_of (im_bits im) with
              | Some b => Ok (bs ".b" ++ percent_d b ++ bs "w" ++ percent_d (im_width im) ++ bs "h" ++ percent_d (im_height im) ++ bs ".img")
              | None => Err TypeError
              end
    end.
  (* 61-79: what is in the file when it is closed, the stream afterwards, the exception *)
  Definition content (im : image) (s : pdfstream) (k : kind) : list Z * pdfstream * option exn :=
    match k with
    | KJpg =>
        if existsb (fun o => match o with OName n => list_eqb n (bs "DeviceCMYK") | _ => false end) (im_cs im)
        then match pillow (get_rawdata s) with Ok c => (c, s, None) | Err e => ([], s, Some e) end
        else match get_rawdata s with Some r => (r, s, None) | None => ([], s, Some TypeError) end
    | KBmp =>
        match im_width im, im_height im with
        | PyInt w, PyInt h =>
            match bmp_init 1 w h with
            | Err e => ([], s, Some e)
            | Ok (_, hd) =>
                match get_data s with
                | (Err e, s') => (hd, s', Some e)
                | (Ok d, s') => match write_all 1 w h ((w + 7) / 8) d with Ok g => (g, s', None) | Err e => (hd, s', Some e) end
                end
            end
        | _, _ => ([], s, Some StructError)        (* struct.pack of a float *)
        end
    | KImg => match get_data s with (Ok d, s') => (d, s', None) | (Err e, s') => ([], s', Some e) end
    end.
  (* 39-80 save_image *)
  Definition save_image (im : image) (s : pdfstream) (fs : files) (outdir : list Z) (name : option (list Z)) : res (list Z) * pdfstream * files :=
    match get_filters getobj (s_attrs s) with
    | Err e => (Err e, s, fs)
    | Ok filters =>
        let k := kind_of im filters in
        match ext_of im k with
        | Err e => (Err e, s, fs)
        | Ok ext =>
            let path := path_join outdir ((match name with Some n => n | None => im_name im end) ++ ext) in
            match content im s k with
            | (c, s', None) => (Ok path, s', fput fs path c)
            | (c, s', Some e) => (Err e, s', fput fs path c)
            end
        end
    end.
  (* a history of uses of one image: its data asked for, or saved *)
  Inductive use := UData | USave (outdir : list Z) (name : option (list Z)).
  Inductive result := RData (r : res (list Z)) | RPath (r : res (list Z)).
  Fixpoint uses (im : image) (s : pdfstream) (fs : files) (us : list use) : list result * files :=
    match us with
    | [] => ([], fs)
    | UData :: r => let '(a, s') := get_data s in let '(rs, fs') := uses im s' fs r in (RData a :: rs, fs')
    | USave d n :: r => let '(a, s', fs1) := save_image im s fs d n in let '(rs, fs') := uses im s' fs1 r in (RPath a :: rs, fs')
    end.
End save.
