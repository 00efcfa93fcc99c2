(* The descriptor of a font and what its name says (ISO 32000-1, 9.8).  Independent of the code. *)
From Coq Require Import String.
From Verif Require Import Base Obj Stream_Spec Num Font_Spec Font_Props FontTotal_Spec.
Open Scope Z_scope.

Definition STANDARD : list string := ["Courier"; "Courier-Bold"; "Courier-BoldOblique"; "Courier-Oblique"; "Helvetica"; "Helvetica-Bold";
  "Helvetica-BoldOblique"; "Helvetica-Oblique"; "Symbol"; "Times-Bold"; "Times-BoldItalic"; "Times-Italic"; "Times-Roman"; "ZapfDingbats"]%string.

(* the word bold, in letters of either case, somewhere in a name *)
Definition letter (c : Z) (x : Z) : Prop := x = c \/ x = c - 32.
Definition SaysBold (name : list Z) : Prop := exists before a b c d after, name = before ++ [a; b; c; d] ++ after /\
  letter 98 a /\ letter 111 b /\ letter 108 c /\ letter 100 d.

Section fonts.
  Context (getobj : Z -> option obj).
  (* DescriptorOf spec d: the entries of the descriptor of the font spec, which is not one of the standard 14 *)
  Inductive DescriptorOf : list (obj * obj) -> list (obj * obj) -> Prop :=
  | De_simple : forall spec n d, simple_type spec -> BaseName spec n -> ~ In n (map bs STANDARD) ->
      Value getobj spec "FontDescriptor" (ODict []) (ODict d) -> DescriptorOf spec d
  | De_type3 : forall spec o d, dget spec "Subtype" = Some (ON "Type3") -> dget spec "FontDescriptor" = Some o -> Leads getobj ONull o (ODict d) ->
      DescriptorOf spec d
  | De_cid : forall spec d, subtype spec CID -> Value getobj spec "FontDescriptor" (ODict []) (ODict d) -> DescriptorOf spec d
  | De_type0 : forall spec x l sub sub' d, dget spec "Subtype" = Some (ON "Type0") ->
      Value getobj spec "DescendantFonts" ONull (OArr (x :: l)) -> Leads getobj ONull x (ODict sub) -> merged getobj spec sub sub' ->
      DescriptorOf sub' d -> DescriptorOf spec d.
  (* the name a descriptor gives: unknown if it has none *)
  Definition NameOf (d : list (obj * obj)) (name : list Z) : Prop :=
    dget d "FontName" = None /\ name = bs "unknown" \/ exists o, dget d "FontName" = Some o /\ Leads getobj ONull o (OName name).
End fonts.
