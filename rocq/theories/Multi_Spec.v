(* What the content of a page in several streams means (ISO 32000-1, 7.8.2): the streams are read one after the other,
   operands and operators may begin in one stream and end in a later one, as long as no token is cut in two; the data
   of an inline image is in the stream of its ID operator. *)
From Coq Require Import String.
From Verif Require Import Base Lex_Model Lex_Spec Obj Stack_Spec Content_Spec Instr_Spec.

(* PageContent os pending streams: the tokens pending, read from earlier streams, and then the streams, have the operands
   and operators os, an inline image counting as an image object followed by the operator EI *)
Inductive PageContent : list obj -> list token -> list (list Z) -> Prop :=
| Pg_end : forall os pending, Instr os pending -> PageContent os pending []
| Pg_stream : forall os pending text vals streams,
    Spells text vals -> PageContent os (pending ++ vals) streams -> PageContent os pending (text :: streams)
| Pg_image : forall os pending vals vals0 kvs etoks text w0 d nl w os' rest streams,
    pending ++ vals = vals0 ++ KW "BI" :: etoks ->
    Instr os vals0 -> NoDup (map fst kvs) -> WrittenE false false kvs etoks ->
    SpellsBefore text vals (bs "ID" ++ [w0] ++ d ++ nl ++ bs "EI" ++ [w] ++ rest) ->
    white w0 -> white w ->
    ~ marker_in (d ++ nl) -> (forall a, d ++ nl <> a ++ bs "E") -> (forall a, d ++ nl <> a ++ bs "EI") ->
    strips d nl -> (nl = [] -> d <> []) ->
    PageContent os' [] (rest :: streams) ->
    PageContent (os ++ [OStream (entries kvs) d; OK "EI"] ++ os') pending
           ((text ++ bs "ID" ++ [w0] ++ d ++ nl ++ bs "EI" ++ [w] ++ rest) :: streams).
