(* How objects are written as tokens and tokens as text, followed by anything (ISO 32000-1, 7.3). *)
From Coq Require Import String.
From Verif Require Import Base Lex_Model Lex_Spec Obj.

(* LayoutP pos toks text rest: as Layout, but the text is followed by arbitrary bytes rest *)
Inductive LayoutP (exact : bool) : Z -> list (Z * token) -> list Z -> list Z -> Prop :=
| LP_end : forall pos g rest, Sep g -> LayoutP exact pos [] g rest
| LP_tok : forall pos g t sp k ts text rest,
    Sep g -> Spell t sp k -> follows exact k (text ++ rest) ->
    LayoutP exact (pos + Z.of_nat (length g) + Z.of_nat (length sp)) ts text rest ->
    LayoutP exact pos ((pos + Z.of_nat (length g), t) :: ts) (g ++ sp ++ text) rest.

(* the dictionary entries that count: a null value is the same as an absent entry *)
Definition entries (kvs : list (list Z * obj)) : list (obj * obj) :=
  flat_map (fun kv => match snd kv with ONull => [] | v => [(OName (fst kv), v)] end) kvs.

(* Written nulls refs o toks: the tokens toks are a way of writing the object o; the keyword null is allowed only if
   nulls = true, indirect references only if refs = true.  Dictionaries have distinct keys. *)
Inductive Written (nulls refs : bool) : obj -> list token -> Prop :=
| W_null : nulls = true -> Written nulls refs ONull [KW "null"]
| W_bool : forall b, Written nulls refs (OBool b) [TBool b]
| W_int : forall z, Written nulls refs (OInt z) [TInt z]
| W_real : forall t, Written nulls refs (OReal t) [TReal t]
| W_str : forall s, Written nulls refs (OStr s) [TStr s]
| W_name : forall n, Written nulls refs (OName n) [TLit n]
| W_ref : forall i g, refs = true -> Written nulls refs (ORef i) [TInt i; TInt g; KW "R"]
| W_arr : forall os ts, WrittenL nulls refs os ts -> Written nulls refs (OArr os) (KW "[" :: ts ++ [KW "]"])
| W_dict : forall kvs ts, NoDup (map fst kvs) -> WrittenE nulls refs kvs ts ->
    Written nulls refs (ODict (entries kvs)) (KW "<<" :: ts ++ [KW ">>"])
with WrittenL (nulls refs : bool) : list obj -> list token -> Prop :=
| WL_nil : WrittenL nulls refs [] []
| WL_cons : forall o os t ts, Written nulls refs o t -> WrittenL nulls refs os ts -> WrittenL nulls refs (o :: os) (t ++ ts)
with WrittenE (nulls refs : bool) : list (list Z * obj) -> list token -> Prop :=
| WE_nil : WrittenE nulls refs [] []
| WE_cons : forall k o kvs t ts, Written nulls refs o t -> WrittenE nulls refs kvs ts ->
    WrittenE nulls refs ((k, o) :: kvs) (TLit k :: t ++ ts).

Scheme Written_mut := Induction for Written Sort Prop
  with WrittenL_mut := Induction for WrittenL Sort Prop
  with WrittenE_mut := Induction for WrittenE Sort Prop.
Combined Scheme Written_ind3 from Written_mut, WrittenL_mut, WrittenE_mut.

(* WrittenM os ts: the objects one after the other as in an object stream, with stray keywords obj and endobj (which
   do not belong there) before, between or after them *)
Definition stray (t : token) : Prop := t = KW "obj" \/ t = KW "endobj".
Inductive WrittenM : list obj -> list token -> Prop :=
| WM_end : forall a, Forall stray a -> WrittenM [] a
| WM_cons : forall o os a t ts, Forall stray a -> Written false true o t -> WrittenM os ts -> WrittenM (o :: os) (a ++ t ++ ts).

(* p occurs in s at offset k and not before *)
Definition FirstAt (p : list Z) (k : nat) (s : list Z) : Prop :=
  (exists b, s = firstn k s ++ p ++ b) /\ (k <= length s)%nat /\
  (forall a b, s = a ++ p ++ b -> (k <= length a)%nat).
