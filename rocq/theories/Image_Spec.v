(* Saved images: what should be where.  Of the model only the types of uses, results and files. *)
From Coq Require Import String.
From Verif Require Import Base Obj Num Stream_Spec Image_Model Convert_Spec.
From Coq Require Import Qcanon.
Open Scope Z_scope.

(* the whole part of a side of the box *)
Definition Whole (x : pynum) (z : Z) : Prop := 0 <= z /\ match x with PyInt n => n = z | PyFloat q => (qz z <= q /\ q < qz (z + 1))%Qc end.
(* the names of saved files end with the depth and the sizes of the image *)
Definition BmpName (w h : Z) (ext : list Z) : Prop := exists tw th, is_decimal tw w /\ is_decimal th h /\ ext = bs ".w" ++ tw ++ bs "h" ++ th ++ bs ".bmp".
Definition ImgName (b w h : Z) (ext : list Z) : Prop :=
  exists tb tw th, is_decimal tb b /\ is_decimal tw w /\ is_decimal th h /\ ext = bs ".b" ++ tb ++ bs "w" ++ tw ++ bs "h" ++ th ++ bs ".img".

(* a directory and a name with which a file is meant to be saved; own: the name the image goes by *)
Definition name_or (own : list Z) (n : option (list Z)) : list Z := match n with Some x => x | None => own end.
Definition proper (own : list Z) (u : use) : Prop :=
  match u with UData => True | USave d n => d <> [] /\ last d 0 <> 47 /\ hd 0 (name_or own n) <> 47 end.
Definition place (own ext : list Z) (d : list Z) (n : option (list Z)) : list Z := d ++ [47] ++ name_or own n ++ ext.
Definition places (own ext : list Z) (us : list use) : list (list Z) := flat_map (fun u => match u with UData => [] | USave d n => [place own ext d n] end) us.
(* every use gets its answer, every place saved to holds c, and no other file is touched *)
Definition Kept (own ext plain c : list Z) (us : list use) (before : files) (rs : list result) (after : files) : Prop :=
  Forall2 (fun u r => match u, r with
                      | UData, RData x => x = Ok plain
                      | USave d n, RPath x => x = Ok (place own ext d n)
                      | _, _ => False end) us rs /\
  (forall p, In p (places own ext us) -> after p = Some c) /\ (forall p, ~ In p (places own ext us) -> after p = before p).

(* colour spaces that mention DeviceCMYK *)
Definition Colour (attrs : list (obj * obj)) (c : obj) : Prop := dget attrs "CS" = Some c \/ dget attrs "CS" = None /\ dget attrs "ColorSpace" = Some c.
Definition Cmyk (attrs : list (obj * obj)) : Prop :=
  exists c, Colour attrs c /\ (c = ON "DeviceCMYK" \/ exists l, c = OArr l /\ In (ON "DeviceCMYK") l).
(* the bits for each component: 1 if nothing is said *)
Definition Depth (attrs : list (obj * obj)) (b : Z) : Prop :=
  dget attrs "BPC" = Some (OInt b) \/ dget attrs "BPC" = None /\ dget attrs "BitsPerComponent" = Some (OInt b) \/
  dget attrs "BPC" = None /\ dget attrs "BitsPerComponent" = None /\ b = 1.
(* one JPEG file and nothing around it *)
Definition is_jpeg (chain : list (list Z * obj)) : Prop := exists f p, chain = [(f, p)] /\ In f [bs "DCTDecode"; bs "DCT"].
