(* What page contents mean: tokens of several streams, inline images (ISO 32000-1, 7.8.2 and 8.9.7). *)
From Coq Require Import String.
From Verif Require Import Base Lex_Model Lex_Spec Obj Stack_Model Stack_Spec Content_Model.

(* the stream spells these tokens; every token is finished, and every comment closed, inside the stream *)
Definition Spells (text : list Z) (vals : list token) : Prop :=
  exists ts, LayoutP false 0 ts text [] /\ map snd ts = vals.

(* the end marker: E, I, white space *)
Definition marker_in (d : list Z) : Prop := exists a w b, d = a ++ [69; 73; w] ++ b /\ is_space w = true.

(* what the reader removes from d ++ nl is exactly nl: one end of line; a LF (or nothing) can only be told from the
   data if the data does not itself end with an end-of-line byte *)
Definition strips (d nl : list Z) : Prop :=
  nl = [13; 10] \/ nl = [13] \/ ((nl = [10] \/ nl = []) /\ forall a x, d = a ++ [x] -> is_eol x = false).

(* the parser stands at offset k of its only stream s (t is fp.tell(), the buffer is what was read ahead) *)
Definition at_point (s : list Z) (k : nat) (c : cp) : Prop :=
  exists t, cfp c = Some (s, t) /\ cstreams c = [] /\ cpos c = Z.of_nat k /\ (k + length (cbuf c) = t)%nat /\ (t <= length s)%nat /\
    cbuf c ++ skipn t s = skipn k s.
