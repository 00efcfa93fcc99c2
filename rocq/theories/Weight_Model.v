(* Model of the display attributes of fonts: name, slant and weight.
   pdfmajor/interpreter/commands/state/PDFTextState/PDFFont/PDFFont.py:28-36, 92-103 and the descriptors chosen in fonts.py:26-46, 72-80,
   87-112, PDFFont/__init__.py:13-55.  Not modelled: Flags, Leading, Type 3 and CID attributes other than these. *)
From Coq Require Import String.
From Verif Require Import Base Obj Stream_Spec Num Page_Model Interp_Model Font_Model.
From Coq Require Import Qcanon.
Open Scope Z_scope.

(* utils/fontmetrics.py: FontName (the same as the key), ItalicAngle in tenths of a degree, FontWeight of the 14 fonts *)
Definition standard_styles : list (string * (Z * string)) :=
  [("Courier", (0, "Medium")); ("Courier-Bold", (0, "Bold")); ("Courier-BoldOblique", (-110, "Bold")); ("Courier-Oblique", (-110, "Medium"));
   ("Helvetica", (0, "Medium")); ("Helvetica-Bold", (0, "Bold")); ("Helvetica-BoldOblique", (-120, "Bold")); ("Helvetica-Oblique", (-120, "Medium"));
   ("Symbol", (0, "Medium")); ("Times-Bold", (0, "Bold")); ("Times-BoldItalic", (-150, "Bold")); ("Times-Italic", (-155, "Medium"));
   ("Times-Roman", (0, "Roman")); ("ZapfDingbats", (0, "Medium"))]%string.
Definition standard_style (n : list Z) : option (Z * string) :=
  match find (fun e => list_eqb n (bs (fst e))) standard_styles with Some e => Some (snd e) | None => None end.

(* what the attributes are made from: an entry of the table, or a descriptor of the document *)
Inductive described := Std (name : list Z) (tenths : Z) (weight : list Z) | Own (d : dict).
(* Python values: text, numbers, None, other objects *)
Inductive pyv := PText (t : list Z) | PNum (q : num) | PNone | PObj (o : obj).

(* str.lower, on the letters of ASCII only: no other character has b, o, l or d in its lower case *)
Definition lower (c : Z) : Z := if (65 <=? c) && (c <=? 90) then c + 32 else c.
Fixpoint prefix_of (p s : list Z) : bool :=
  match p, s with [], _ => true | a :: p', b :: s' => (a =? b) && prefix_of p' s' | _ :: _, [] => false end.
Fixpoint within (p s : list Z) : bool := prefix_of p s || match s with [] => false | _ :: r => within p r end.

Section fonts.
  Context (getobj : Z -> option obj) (depth : nat).
  (* fonts.py: the descriptor each class hands to PDFFont.__init__ *)
  Definition type1_described (spec : dict) : res described :=
    do bf <- (match dget spec "BaseFont" with None => Ok (Some (bs "unknown")) | Some (OName n) => Ok (Some n)
              | Some (OArr _) | Some (ODict _) => Err TypeError | Some _ => Ok None end);
    match (match bf with Some n => match standard_style n with Some s => Some (n, s) | None => None end | None => None end) with
    | Some (n, (a, w)) => Ok (Std n a (bs w))
    | None => do d <- dict_value getobj depth (get_or spec "FontDescriptor" (ODict [])); Ok (Own d)
    end.
  Definition type3_described (spec : dict) : res described :=
    match dget spec "FontDescriptor" with
    | Some o => do d <- dict_value getobj depth o; Ok (Own d)
    | None => match dget spec "FontBBox" with
              | Some b => Ok (Own [(ON "Ascent", OInt 0); (ON "Descent", OInt 0); (ON "FontBBox", b)])
              | None => Err KeyError
              end
    end.
  Definition cid_described (spec : dict) : res described :=
    match dget spec "FontDescriptor" with Some o => do d <- dict_value getobj depth o; Ok (Own d) | None => Ok (Own []) end.
  (* __init__.py:13-55; fuel bounds the nesting of Type0 fonts *)
  Fixpoint describe (fuel : nat) (spec : dict) : res described :=
    let is n := match get_or spec "Subtype" (ON "Type1") with OName s => list_eqb s (bs n) | _ => false end in
    if is "Type1"%string || is "MMType1"%string || is "TrueType"%string then type1_described spec
    else if is "Type3"%string then type3_described spec
    else if is "CIDFontType0"%string || is "CIDFontType2"%string then cid_described spec
    else if is "Type0"%string then
      match fuel with
      | O => Err RecursionError
      | S f =>
          match dget spec "DescendantFonts" with
          | None => Err KeyError
          | Some o =>
              do l <- list_value getobj depth o;
              match l with
              | [] => Err AssertionError
              | x :: _ =>
                  do sub <- dict_value getobj depth x;
                  do sub1 <- (match dget spec "Encoding" with Some e => do r <- resolved getobj depth e; Ok (dict_set sub (ON "Encoding") r) | None => Ok sub end);
                  do sub2 <- (match dget spec "ToUnicode" with Some e => do r <- resolved getobj depth e; Ok (dict_set sub1 (ON "ToUnicode") r) | None => Ok sub1 end);
                  describe f sub2
              end
          end
      end
    else type1_described spec.

  (* PDFFont.py:31-33 fontname *)
  Definition fontname (d : described) : res pyv :=
    match d with
    | Std n _ _ => Ok (PText n)
    | Own d => match dget d "FontName" with
               | None => Ok (PText (bs "unknown"))
               | Some o => do x <- resolved getobj depth o; Ok (match x with OName n => PText n | _ => PObj x end)
               end
    end.
  (* PDFFont.py:36 italic_angle *)
  Definition italic_angle (d : described) : res num :=
    match d with
    | Std _ a _ => Ok (qz a / qz 10)%Qc
    | Own d => do x <- resolved getobj depth (get_or d "ItalicAngle" (OInt 0)); Ok (match num_of x with Some q => q | None => qz 0 end)
    end.
  (* PDFFont.py:92-99 font_weight: the entry of the descriptor as it stands *)
  Definition font_weight (d : described) : res pyv :=
    match (match d with Std _ _ w => Some (PText w) | Own d => match dget d "FontWeight" with
             | Some o => Some (match num_of o with Some q => PNum q | None => match o with ONull => PNone | _ => PObj o end end) | None => None end end) with
    | Some v => Ok v
    | None =>
        do n <- fontname d;
        match n with
        | PText t => Ok (if within (bs "bold") (map lower t) then PText (bs "bold") else PNone)
        | PObj (OStr _) => Err TypeError          (* 'bold' in bytes *)
        | _ => Err AttributeError                  (* no lower *)
        end
    end.
  (* PDFFont.py:101-103 is_bold *)
  Definition is_bold (d : described) : res bool :=
    do w <- font_weight d;
    match w with
    | PText t => if list_eqb t (bs "bold") then Ok true else Err TypeError
    | PNum q => Ok (qlt (qz 549) q)
    | _ => Err TypeError
    end.
End fonts.
