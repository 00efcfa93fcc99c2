(* What character maps mean (ISO 32000-1, 9.7.5 and 9.10.3; Adobe Technical Notes 5014 and 5411), independent of the code. *)
From Coq Require Import String.
From Verif Require Import Base Lex_Model Obj Stack_Spec.

(* ---------- code maps ---------- *)
Definition Prefix (p c : list Z) : Prop := exists r, c = p ++ r.
(* p is the beginning of a code, but not a code *)
Definition Begins (m : list (list Z * Z)) (p : list Z) : Prop := exists c v, In (c, v) m /\ Prefix p c /\ p <> c.
(* codes are not empty and none is the beginning of another (so no code has two values) *)
Definition prefix_free (m : list (list Z * Z)) : Prop :=
  (forall c v, In (c, v) m -> c <> []) /\
  (forall c v c' v', In (c, v) m -> In (c', v') m -> Prefix c c' -> c = c' /\ v = v').
(* Seg m text cids: cutting the text into codes gives cids.  Bytes that cannot continue a code are dropped together with the
   incomplete code before them; an incomplete code at the end is dropped. *)
Inductive Seg (m : list (list Z * Z)) : list Z -> list Z -> Prop :=
| Seg_end : forall p, p = [] \/ Begins m p -> Seg m p []
| Seg_code : forall c v rest out, In (c, v) m -> Seg m rest out -> Seg m (c ++ rest) (v :: out)
| Seg_bad : forall p i rest out, p = [] \/ Begins m p -> (forall c v, In (c, v) m -> ~ Prefix (p ++ [i]) c) ->
    Seg m rest out -> Seg m (p ++ i :: rest) out.

(* ---------- big-endian numbers and UTF-16 ---------- *)
Fixpoint be (n : nat) (v : Z) : list Z := match n with O => [] | S k => be k (v / 256) ++ [v mod 256] end.
Definition num_of (b : list Z) : Z := fold_left (fun a c => a * 256 + c) b 0.
(* Unicode scalar values *)
Definition scalar (c : Z) : Prop := 0 <= c < 55296 \/ 57344 <= c <= 1114111.
Definition utf16_unit (c : Z) : list Z :=
  if c <? 65536 then be 2 c
  else be 2 (55296 + (c - 65536) / 1024) ++ be 2 (56320 + (c - 65536) mod 1024).
Definition utf16_of (text : list Z) : list Z := flat_map utf16_unit text.

(* ---------- ToUnicode programs ---------- *)
(* the value of a code after assignments made one after the other *)
Fixpoint last_for {A} (asg : list (Z * A)) (k : Z) : option A :=
  match asg with
  | [] => None
  | (k', v) :: r => match last_for r k with Some x => Some x | None => if k' =? k then Some v else None end
  end.
Definition code_len (c : list Z) : Prop := (1 <= length c <= 4)%nat.

(* one bfchar line: a code and its text *)
Inductive CharLine : list obj -> list (Z * list Z) -> Prop :=
| BfChar : forall code text, code_len code -> Forall scalar text ->
    CharLine [OStr code; OStr (utf16_of text)] [(num_of code, text)].
(* one bfrange line.  The destination is a text whose last character is counted up, or an array of texts *)
Inductive RangeLine : list obj -> list (Z * list Z) -> Prop :=
| BfRange : forall lo hi t c, code_len lo -> length hi = length lo -> num_of lo <= num_of hi -> Forall scalar t ->
    0 <= c -> c + (num_of hi - num_of lo) < 55296 \/ (57344 <= c /\ c + (num_of hi - num_of lo) < 65536) ->
    RangeLine [OStr lo; OStr hi; OStr (utf16_of (t ++ [c]))]
      (map (fun i => (num_of lo + Z.of_nat i, t ++ [c + Z.of_nat i])) (seq 0 (Z.to_nat (num_of hi - num_of lo + 1))))
| BfRangeHigh : forall lo hi t c, code_len lo -> length hi = length lo -> num_of lo <= num_of hi -> Forall scalar t ->
    65536 <= c <= 1114111 -> (c - 65536) mod 1024 + (num_of hi - num_of lo) < 1024 ->  (* the high surrogate stays the same *)
    RangeLine [OStr lo; OStr hi; OStr (utf16_of (t ++ [c]))]
      (map (fun i => (num_of lo + Z.of_nat i, t ++ [c + Z.of_nat i])) (seq 0 (Z.to_nat (num_of hi - num_of lo + 1))))
| BfRangeArr : forall lo hi texts, code_len lo -> length hi = length lo ->
    num_of hi - num_of lo + 1 = Z.of_nat (length texts) -> Forall (Forall scalar) texts ->
    RangeLine [OStr lo; OStr hi; OArr (map (fun t => OStr (utf16_of t)) texts)]
      (combine (map (fun i => num_of lo + Z.of_nat i) (seq 0 (length texts))) texts).
Inductive Lines (one : list obj -> list (Z * list Z) -> Prop) : list obj -> list (Z * list Z) -> Prop :=
| Lines_nil : Lines one [] []
| Lines_cons : forall l a ls r, one l a -> Lines one ls r -> Lines one (l ++ ls) (a ++ r).

Definition operators : list (list Z) := map bs
  ["begincmap"; "endcmap"; "def"; "usecmap"; "begincodespacerange"; "endcodespacerange"; "begincidrange"; "endcidrange";
   "begincidchar"; "endcidchar"; "beginbfrange"; "endbfrange"; "beginbfchar"; "endbfchar"; "beginnotdefrange"; "endnotdefrange";
   "["; "]"; "<<"; ">>"; "{"; "}"]%string.

(* what may follow endcmap: objects and operators other than begincmap *)
Inductive Tail : list token -> Prop :=
| T_nil : Tail []
| T_object : forall o t ts, Written false false o t -> Tail ts -> Tail (t ++ ts)
| T_operator : forall k ts, k <> bs "begincmap" -> ~ In k (map bs ["["; "]"; "<<"; ">>"; "{"; "}"]%string) -> Tail ts -> Tail (TKwd k :: ts).

(* Program operands toks asg: the tokens toks, run with the objects operands waiting, make the assignments asg.  Everything a
   ToUnicode CMap contains may occur: objects and other PostScript operators (which leave something on the stack), definitions,
   codespace ranges, other ranges.  After endcmap anything may follow but begincmap. *)
Inductive Program : list obj -> list token -> list (Z * list Z) -> Prop :=
| Pr_end : forall st, Program st [] []
| Pr_endcmap : forall st ts, Tail ts -> Program st (KW "endcmap" :: ts) []
| Pr_object : forall st o t ts asg, Written false false o t -> Program (st ++ [o]) ts asg -> Program st (t ++ ts) asg
| Pr_operator : forall st k ts asg, ~ In k operators -> Program (st ++ [OKwd k]) ts asg -> Program st (TKwd k :: ts) asg
| Pr_begincmap : forall st ts asg, Program [] ts asg -> Program st (KW "begincmap" :: ts) asg
| Pr_def : forall st k v ts asg, hashable k = true -> Program st ts asg -> Program (st ++ [k; v]) (KW "def" :: ts) asg
| Pr_usecmap : forall st n ts asg, Program st ts asg -> Program (st ++ [OName n]) (KW "usecmap" :: ts) asg
| Pr_skipped : forall st b e os t ts asg,
    In (b, e) [("begincodespacerange", "endcodespacerange"); ("begincidrange", "endcidrange"); ("begincidchar", "endcidchar");
               ("beginnotdefrange", "endnotdefrange")]%string ->
    WrittenL false false os t -> Program [] ts asg -> Program st (KW b :: t ++ KW e :: ts) asg
| Pr_bfchar : forall st os t ls asg ts, Lines CharLine os ls -> WrittenL false false os t -> Program [] ts asg ->
    Program st (KW "beginbfchar" :: t ++ KW "endbfchar" :: ts) (ls ++ asg)
| Pr_bfrange : forall st os t ls asg ts, Lines RangeLine os ls -> WrittenL false false os t -> Program [] ts asg ->
    Program st (KW "beginbfrange" :: t ++ KW "endbfrange" :: ts) (ls ++ asg).

(* ---------- glyph names and encodings ---------- *)
(* decimal value of digits *)
Definition decimal (ds : list Z) : Z := fold_left (fun a c => 10 * a + (c - 48)) ds 0.
Definition digit_char (c : Z) : Prop := 48 <= c <= 57.
(* what the library takes a glyph name to mean: the glyph list, or else the first number written in the name *)
Inductive Means (glyphs : list Z -> option (list Z)) : list Z -> list Z -> Prop :=
| M_list : forall n t, glyphs n = Some t -> Means glyphs n t
| M_number : forall a ds b, glyphs (a ++ ds ++ b) = None -> Forall (fun c => ~ digit_char c) a -> Forall digit_char ds -> ds <> [] ->
    (forall c r, b = c :: r -> ~ digit_char c) -> decimal ds <= 1114111 -> Means glyphs (a ++ ds ++ b) [decimal ds].
(* a name that means nothing: not in the glyph list and without digits *)
Definition Meaningless (glyphs : list Z -> option (list Z)) (n : list Z) : Prop :=
  glyphs n = None /\ Forall (fun c => ~ digit_char c) n.

(* the codes and names declared by a Differences array, in order *)
Fixpoint declared (code : Z) (diff : list obj) : list (Z * list Z) :=
  match diff with
  | OInt i :: r => declared i r
  | OName n :: r => (code, n) :: declared (code + 1) r
  | _ => []
  end.
Definition differences (diff : list obj) : Prop := Forall (fun o => (exists i, o = OInt i) \/ (exists n, o = OName n)) diff.
(* assignments of names, as assignments of texts; names that mean nothing assign nothing *)
Inductive Texts (glyphs : list Z -> option (list Z)) : list (Z * list Z) -> list (Z * list Z) -> Prop :=
| Tx_nil : Texts glyphs [] []
| Tx_means : forall c n t l r, Means glyphs n t -> Texts glyphs l r -> Texts glyphs ((c, n) :: l) ((c, t) :: r)
| Tx_none : forall c n l r, Meaningless glyphs n -> Texts glyphs l r -> Texts glyphs ((c, n) :: l) r.

(* ---------- the clear text of a Type 1 font program ---------- *)
(* Header outer st toks asg: tokens run with st on the stack inside open procedures whose stacks are outer.  Only
   "code /name put" matters; other operators do nothing (they are not run, so procedures are read once, where they stand). *)
Definition brackets : list (list Z) := map bs ["["; "]"; "<<"; ">>"; "{"; "}"]%string.
Inductive Header : list (list obj) -> list obj -> list token -> list (Z * list Z) -> Prop :=
| H_end : forall outer st, Header outer st [] []
| H_object : forall outer st o t ts asg, Written false false o t -> Header outer (st ++ [o]) ts asg -> Header outer st (t ++ ts) asg
| H_operator : forall outer st k ts asg, k <> bs "put" -> ~ In k brackets -> Header outer st ts asg -> Header outer st (TKwd k :: ts) asg
| H_put : forall outer st i n ts asg, Header outer st ts asg -> Header outer (st ++ [OInt i; OName n]) (KW "put" :: ts) ((i, n) :: asg)
| H_put_other : forall outer st k v ts asg,
    (forall i, k <> OInt i) -> (forall b, k <> OBool b) -> Header outer st ts asg -> Header outer (st ++ [k; v]) (KW "put" :: ts) asg
| H_open : forall outer st ts asg, Header (st :: outer) [] ts asg -> Header outer st (KW "{" :: ts) asg
| H_close : forall outer st0 st ts asg, Header outer (st0 ++ [OArr st]) ts asg -> Header (st0 :: outer) st (KW "}" :: ts) asg.
