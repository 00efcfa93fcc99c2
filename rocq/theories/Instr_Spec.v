(* What a page content means as a sequence of operands and operators (ISO 32000-1, 7.8.2 and 8.9.7). *)
From Coq Require Import String.
From Verif Require Import Base Lex_Model Lex_Spec Obj Stack_Spec Content_Spec.

(* an operator: any keyword that is not a bracket and does not begin or continue an inline image.  (The keyword null
   is not an object for the content parser, it is delivered as an operator: see C85_null_refuted.) *)
Definition operator (k : list Z) : Prop :=
  ~ In k [bs "["; bs "]"; bs "<<"; bs ">>"; bs "{"; bs "}"; bs "BI"; bs "ID"].

(* Instr os ts: the operands and operators os, in this order, are written by the tokens ts *)
Inductive Instr : list obj -> list token -> Prop :=
| In_nil : Instr [] []
| In_operand : forall o t os ts, Written false false o t -> Instr os ts -> Instr (o :: os) (t ++ ts)
| In_operator : forall k os ts, operator k -> Instr os ts -> Instr (OKwd k :: os) (TKwd k :: ts).

(* the text spells the tokens, when it is followed by rest *)
Definition SpellsBefore (text : list Z) (vals : list token) (rest : list Z) : Prop :=
  exists ts, LayoutP false 0 ts text rest /\ map snd ts = vals.

(* Contents os text: the text is a content stream with the operands and operators os, an inline image counting as an
   image object followed by the operator EI *)
Inductive Contents : list obj -> list Z -> Prop :=
| Ct_plain : forall os vals text, Instr os vals -> Spells text vals -> Contents os text
| Ct_image : forall os vals kvs etoks text w0 d nl w os' rest,
    Instr os vals -> NoDup (map fst kvs) -> WrittenE false false kvs etoks ->
    SpellsBefore text (vals ++ KW "BI" :: etoks) (bs "ID" ++ [w0] ++ d ++ nl ++ bs "EI" ++ [w] ++ rest) ->
    white w0 -> white w ->
    ~ marker_in (d ++ nl) -> (forall a, d ++ nl <> a ++ bs "E") -> (forall a, d ++ nl <> a ++ bs "EI") ->
    strips d nl -> (nl = [] -> d <> []) ->
    Contents os' rest ->
    Contents (os ++ [OStream (entries kvs) d; OK "EI"] ++ os') (text ++ bs "ID" ++ [w0] ++ d ++ nl ++ bs "EI" ++ [w] ++ rest).
