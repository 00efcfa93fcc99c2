(* Specification of the markup texts, written from XML 1.0 (fifth edition) and RFC 8259, independently of the writers. *)
From Verif Require Export Markup_Model. (* only for the type of client calls *)
From Coq Require Import String.
Open Scope Z_scope.
Import ListNotations.

(* ---------- references in XML/HTML text (XML 1.0, 4.1 and 4.6) ---------- *)
Definition decimal_value (ds : list Z) : Z := fold_left (fun a c => 10 * a + (c - 48)) ds 0.
Definition hex_value (ds : list Z) : Z := fold_left (fun a c => 16 * a + hexval c) ds 0.
(* the character a reference stands for; n is the text between & and ; *)
Definition reference (n : list Z) : option Z :=
  if list_eqb n (bs "amp") then Some 38 else if list_eqb n (bs "lt") then Some 60
  else if list_eqb n (bs "gt") then Some 62 else if list_eqb n (bs "quot") then Some 34
  else if list_eqb n (bs "apos") then Some 39
  else match n with
       | 35 :: 120 :: d :: r => if forallb is_hex (d :: r) then Some (hex_value (d :: r)) else None
       | 35 :: d :: r => if forallb is_digit (d :: r) then Some (decimal_value (d :: r)) else None
       | _ => None
       end.
(* the text with its references expanded; None if some & does not begin a reference *)
Fixpoint expand_in (name : option (list Z)) (x : list Z) : option (list Z) :=
  match x with
  | [] => match name with None => Some [] | Some _ => None end
  | c :: x' =>
      match name with
      | None => if c =? 38 then expand_in (Some []) x'
                else match expand_in None x' with Some t => Some (c :: t) | None => None end
      | Some n => if c =? 59 then match reference n, expand_in None x' with Some v, Some t => Some (v :: t) | _, _ => None end
                  else expand_in (Some (n ++ [c])) x'
      end
  end.
Definition expand (x : list Z) : option (list Z) := expand_in None x.

(* ---------- a reader of XML elements ---------- *)
(* The reader accepts a part of XML only (ASCII names, double quotes, no white space around =, no CDATA, comments or
   processing instructions, no raw carriage return and no raw > in text); what it accepts is a well-formed element with
   the tree it returns. *)
Inductive xtree := TElem (tag : list Z) (attrs : list (list Z * list Z)) (inside : list xtree) | TText (t : list Z).

Definition xml_white (c : Z) : bool := (c =? 32) || (c =? 10).
(* production [2] Char, without tab and carriage return *)
Definition xml_char (c : Z) : bool :=
  (c =? 10) || ((32 <=? c) && (c <=? 55295)) || ((57344 <=? c) && (c <=? 65533)) || ((65536 <=? c) && (c <=? 1114111)).
Definition name_start (c : Z) : bool := ((65 <=? c) && (c <=? 90)) || ((97 <=? c) && (c <=? 122)) || (c =? 95).
Definition name_char (c : Z) : bool := name_start c || is_digit c || (c =? 45) || (c =? 46).

Inductive xmode :=
| MText (t : list Z)                                                        (* character data read so far *)
| MLt                                                                       (* after < *)
| MName (n : list Z)                                                        (* in the name of a start tag *)
| MTag (n : list Z) (a : list (list Z * list Z))                            (* in a start tag, after white space *)
| MAttr (n : list Z) (a : list (list Z * list Z)) (an : list Z)             (* in the name of an attribute *)
| MEq (n : list Z) (a : list (list Z * list Z)) (an : list Z)               (* after = *)
| MVal (n : list Z) (a : list (list Z * list Z)) (an v : list Z)            (* in an attribute value *)
| MAfter (n : list Z) (a : list (list Z * list Z))                          (* after an attribute value *)
| MSlash (n : list Z) (a : list (list Z * list Z))                          (* after / in an empty-element tag *)
| MEnd                                                                      (* after </ *)
| MEndName (n : list Z).                                                    (* in the name of an end tag *)

(* an open element: its name, its attributes and what it holds so far; the outermost entry collects the document *)
Notation frame := (list Z * list (list Z * list Z) * list xtree)%type.
Definition put (t : xtree) (f : frame) : frame := let '(n, a, k) := f in (n, a, k ++ [t]).
Definition has_attr (n : list Z) (a : list (list Z * list Z)) : bool := existsb (fun p => list_eqb n (fst p)) a.

(* end the character data t: its references are expanded and it is kept if it is not empty *)
Definition flush (t : list Z) (f : frame) : option frame :=
  match t with
  | [] => Some f
  | _ => match expand t with
         | Some t' => if forallb xml_char t' then Some (put (TText t') f) else None
         | None => None
         end
  end.
Definition add_attr (a : list (list Z * list Z)) (an v : list Z) : option (list (list Z * list Z)) :=
  if has_attr an a then None
  else match expand v with Some v' => if forallb xml_char v' then Some (a ++ [(an, v')]) else None | None => None end.

Notation xstate := (xmode * list frame)%type.
Definition xstep (s : xstate) (c : Z) : option xstate :=
  let '(m, st) := s in
  if negb (xml_char c) then None else
  match m, st with
  | MText t, f :: st' =>
      if c =? 60 then match flush t f with Some f' => Some (MLt, f' :: st') | None => None end
      else if c =? 62 then None else Some (MText (t ++ [c]), st)
  | MLt, _ => if c =? 47 then Some (MEnd, st) else if name_start c then Some (MName [c], st) else None
  | MName n, _ =>
      if name_char c then Some (MName (n ++ [c]), st)
      else if xml_white c then Some (MTag n [], st)
      else if c =? 62 then Some (MText [], (n, [], []) :: st)
      else if c =? 47 then Some (MSlash n [], st) else None
  | MTag n a, _ =>
      if xml_white c then Some (MTag n a, st)
      else if name_start c then Some (MAttr n a [c], st)
      else if c =? 62 then Some (MText [], (n, a, []) :: st)
      else if c =? 47 then Some (MSlash n a, st) else None
  | MAttr n a an, _ =>
      if name_char c then Some (MAttr n a (an ++ [c]), st) else if c =? 61 then Some (MEq n a an, st) else None
  | MEq n a an, _ => if c =? 34 then Some (MVal n a an [], st) else None
  | MVal n a an v, _ =>
      if c =? 34 then match add_attr a an v with Some a' => Some (MAfter n a', st) | None => None end
      else if (c =? 60) || (c =? 10) then None else Some (MVal n a an (v ++ [c]), st)
  | MAfter n a, _ =>
      if xml_white c then Some (MTag n a, st)
      else if c =? 62 then Some (MText [], (n, a, []) :: st)
      else if c =? 47 then Some (MSlash n a, st) else None
  | MSlash n a, f :: st' => if c =? 62 then Some (MText [], put (TElem n a []) f :: st') else None
  | MEnd, _ => if name_start c then Some (MEndName [c], st) else None
  | MEndName n, (n', a, k) :: f :: st' =>
      if name_char c then Some (MEndName (n ++ [c]), st)
      else if (c =? 62) && list_eqb n n' then Some (MText [], put (TElem n' a k) f :: st') else None
  | _, _ => None
  end.
Fixpoint xrun (s : xstate) (x : list Z) : option xstate :=
  match x with [] => Some s | c :: x' => match xstep s c with Some s' => xrun s' x' | None => None end end.
(* the nodes of a text in which every element is closed in order *)
Definition xml_read (x : list Z) : option (list xtree) :=
  match xrun (MText [], [([], [], [])]) x with
  | Some (MText t, [f]) => match flush t f with Some (_, _, k) => Some k | None => None end
  | _ => None
  end.
(* a document is one element with nothing but white space around it *)
Definition white_text (t : xtree) : bool := match t with TText x => forallb xml_white x | TElem _ _ _ => false end.
Definition document (k : list xtree) : option xtree :=
  match filter (fun t => negb (white_text t)) k with [TElem n a i] => Some (TElem n a i) | _ => None end.
Definition xml_document (x : list Z) : option xtree :=
  match xml_read x with Some k => document k | None => None end.

(* ---------- what a document must hold, given what the client did ---------- *)
(* the attribute of a tree is the client's, references expanded *)
Definition attr_shows (a b : list Z * list Z) : Prop := fst a = fst b /\ expand (snd a) = Some (snd b).
Definition text_node (t : list Z) : list xtree := match t with [] => [] | _ => [TText t] end.
(* An element shows as an element of the same name and attributes; inside it stand the elements opened inside it, in
   order, with nothing but white space between them; an element that was only given a text, without additional
   characters, holds exactly that text; one given a line of text holds it with white space before and after it. *)
Inductive Shows : xcall -> xtree -> Prop :=
| Shows_elem tag attrs attrs' nle noadd inside ks :
    Forall2 attr_shows attrs attrs' -> Holds inside ks -> Shows (CElm tag attrs nle noadd inside) (TElem tag attrs' ks)
| Shows_text tag attrs attrs' nle t t' :
    Forall2 attr_shows attrs attrs' -> expand t = Some t' ->
    Shows (CElm tag attrs nle true [CText t [] []]) (TElem tag attrs' (text_node t'))
| Shows_line tag attrs attrs' nle t t' w w' :
    Forall2 attr_shows attrs attrs' -> expand t = Some t' -> forallb xml_white w = true -> forallb xml_white w' = true ->
    Shows (CElm tag attrs nle false [CText t nl sp]) (TElem tag attrs' [TText (w ++ t' ++ w')])
| Shows_single tag attrs attrs' : Forall2 attr_shows attrs attrs' -> Shows (CSingle tag attrs) (TElem tag attrs' [])
with Holds : list xcall -> list xtree -> Prop :=
| Holds_nil : Holds [] []
| Holds_white w cs ks : white_text w = true -> Holds cs ks -> Holds cs (w :: ks)
| Holds_cons c t cs ks : Shows c t -> Holds cs ks -> Holds (c :: cs) (t :: ks).

(* what the client must respect: names are names, attributes are distinct, and values and texts are already escaped *)
Definition is_name (n : list Z) : Prop := match n with c :: r => name_start c = true /\ forallb name_char r = true | [] => False end.
Definition escaped (x : list Z) : Prop :=
  Forall (fun c => xml_char c = true /\ c <> 60) x /\ exists y, expand x = Some y /\ forallb xml_char y = true.
Definition good_attrs (attrs : list (list Z * list Z)) : Prop :=
  NoDup (map fst attrs) /\
  Forall (fun a => is_name (fst a) /\ escaped (snd a) /\ Forall (fun c => c <> 34 /\ c <> 10) (snd a)) attrs.
Inductive Good : xcall -> Prop :=
| Good_elem tag attrs nle noadd inside :
    is_name tag -> good_attrs attrs -> Forall Good inside -> Good (CElm tag attrs nle noadd inside)
| Good_text tag attrs nle t :
    is_name tag -> good_attrs attrs -> escaped t -> Forall (fun c => c <> 62) t -> Good (CElm tag attrs nle true [CText t [] []])
| Good_line tag attrs nle t :
    is_name tag -> good_attrs attrs -> escaped t -> Forall (fun c => c <> 62) t -> Good (CElm tag attrs nle false [CText t nl sp])
| Good_single tag attrs : is_name tag -> good_attrs attrs -> Good (CSingle tag attrs).

(* production [26] VersionNum ::= '1.' [0-9]+ *)
Definition version_num (v : list Z) : bool :=
  match v with 49 :: 46 :: (d :: r) => is_digit d && forallb is_digit r | _ => false end.

(* ---------- JSON (RFC 8259) ---------- *)
Inductive json := JNum (t : list Z) | JStr (x : list Z) | JArr (l : list json) | JObj (l : list (list Z * json))
                | JTrue | JFalse | JNull.

Definition json_white (c : Z) : bool := (c =? 32) || (c =? 9) || (c =? 10) || (c =? 13).
Fixpoint jskip (x : list Z) : list Z := match x with c :: x' => if json_white c then jskip x' else x | [] => [] end.
Fixpoint span (p : Z -> bool) (x : list Z) : list Z * list Z :=
  match x with c :: x' => if p c then let '(a, b) := span p x' in (c :: a, b) else ([], x) | [] => ([], []) end.

(* section 6: number = [ minus ] int [ frac ] [ exp ] *)
Definition json_exp (x : list Z) : bool :=
  match x with
  | [] => true
  | e :: r => ((e =? 101) || (e =? 69)) &&
      (let r := match r with s :: r' => if (s =? 43) || (s =? 45) then r' else r | [] => r end in
       match r with [] => false | _ => forallb is_digit r end)
  end.
Definition json_frac (x : list Z) : bool :=
  match x with
  | 46 :: r => let '(d, r') := span is_digit r in match d with [] => false | _ => json_exp r' end
  | _ => json_exp x
  end.
Definition json_int (x : list Z) : bool :=
  match x with
  | 48 :: r => json_frac r
  | d :: _ => is_digit d && (let '(_, r) := span is_digit x in json_frac r)
  | [] => false
  end.
Definition json_number (x : list Z) : bool := match x with 45 :: r => json_int r | _ => json_int x end.
Definition number_char (c : Z) : bool := is_digit c || (c =? 43) || (c =? 45) || (c =? 46) || (c =? 101) || (c =? 69).

(* section 7: the inside of a string, after the opening quote *)
Definition hex_unit (a b c d : Z) : option Z :=
  if is_hex a && is_hex b && is_hex c && is_hex d
  then Some (4096 * hexval a + 256 * hexval b + 16 * hexval c + hexval d) else None.
Definition cons_str (c : Z) (r : option (list Z * list Z)) : option (list Z * list Z) :=
  match r with Some (s, x) => Some (c :: s, x) | None => None end.
Fixpoint jstr (x : list Z) : option (list Z * list Z) :=
  match x with
  | 34 :: r => Some ([], r)
  | 92 :: 117 :: a :: b :: c :: d :: r =>
      match hex_unit a b c d with
      | None => None
      | Some u =>
          if (55296 <=? u) && (u <=? 56319) then
            match r with
            | 92 :: 117 :: a' :: b' :: c' :: d' :: r' =>
                match hex_unit a' b' c' d' with
                | Some w => if (56320 <=? w) && (w <=? 57343)
                            then cons_str (65536 + (u - 55296) * 1024 + (w - 56320)) (jstr r') else cons_str u (jstr r)
                | None => None
                end
            | _ => cons_str u (jstr r)
            end
          else cons_str u (jstr r)
      end
  | 92 :: e :: r =>
      if (e =? 34) || (e =? 92) || (e =? 47) then cons_str e (jstr r)
      else if e =? 98 then cons_str 8 (jstr r) else if e =? 102 then cons_str 12 (jstr r)
      else if e =? 110 then cons_str 10 (jstr r) else if e =? 114 then cons_str 13 (jstr r)
      else if e =? 116 then cons_str 9 (jstr r) else None
  | c :: r => if (c <? 32) || (c =? 92) then None else cons_str c (jstr r)
  | [] => None
  end.

(* section 2-5, by recursive descent; the first argument bounds the number of calls *)
Fixpoint jvalue (k : nat) (x : list Z) : option (json * list Z) :=
  match k with
  | O => None
  | S k' =>
      match jskip x with
      | 34 :: r => match jstr r with Some (s, r') => Some (JStr s, r') | None => None end
      | 123 :: r =>
          match jskip r with
          | 125 :: r' => Some (JObj [], r')
          | _ => match jmembers k' r with Some (l, r') => Some (JObj l, r') | None => None end
          end
      | 91 :: r =>
          match jskip r with
          | 93 :: r' => Some (JArr [], r')
          | _ => match jelements k' r with Some (l, r') => Some (JArr l, r') | None => None end
          end
      | 116 :: 114 :: 117 :: 101 :: r => Some (JTrue, r)
      | 102 :: 97 :: 108 :: 115 :: 101 :: r => Some (JFalse, r)
      | 110 :: 117 :: 108 :: 108 :: r => Some (JNull, r)
      | y => let '(n, r) := span number_char y in if json_number n then Some (JNum n, r) else None
      end
  end
with jmembers (k : nat) (x : list Z) : option (list (list Z * json) * list Z) :=
  match k with
  | O => None
  | S k' =>
      match jskip x with
      | 34 :: r =>
          match jstr r with
          | None => None
          | Some (s, r1) =>
              match jskip r1 with
              | 58 :: r2 =>
                  match jvalue k' r2 with
                  | None => None
                  | Some (v, r3) =>
                      match jskip r3 with
                      | 44 :: r4 => match jmembers k' r4 with Some (l, r5) => Some ((s, v) :: l, r5) | None => None end
                      | 125 :: r4 => Some ([(s, v)], r4)
                      | _ => None
                      end
                  end
              | _ => None
              end
          end
      | _ => None
      end
  end
with jelements (k : nat) (x : list Z) : option (list json * list Z) :=
  match k with
  | O => None
  | S k' =>
      match jvalue k' x with
      | None => None
      | Some (v, r) =>
          match jskip r with
          | 44 :: r' => match jelements k' r' with Some (l, r'') => Some (v :: l, r'') | None => None end
          | 93 :: r' => Some ([v], r')
          | _ => None
          end
      end
  end.
(* a text is a JSON text with value v when the reader takes all of it *)
Definition JsonText (x : list Z) (v : json) : Prop :=
  exists k r, jvalue k x = Some (v, r) /\ jskip r = [].

(* ---------- what a JSON file must hold, given what the client did ---------- *)
Fixpoint of_py (v : pyval) : json :=
  match v with
  | PyStr x => JStr x
  | PyNum t => JNum t
  | PyList l => JArr (map of_py l)
  | PyDict l => JObj (map (fun p => (fst p, of_py (snd p))) l)
  end.
(* the value made by a call and whether an exception stopped it; an exception cuts off what follows it at every level *)
Fixpoint told (c : jcall) : json * bool :=
  let list_told :=
    fix go (l : list (list Z * jcall)) : list (list Z * json) * bool :=
      match l with
      | [] => ([], false)
      | (_, JRaise) :: _ => ([], true)
      | (k, c) :: r => let '(v, stopped) := told c in
                       if stopped then ([(k, v)], true) else let '(l', stopped') := go r in ((k, v) :: l', stopped')
      end in
  match c with
  | JNumber t => (JNum t, false)
  | JString x => (JStr x, false)
  | JPlace v => (of_py v, false)
  | JObject l => let '(m, stopped) := list_told l in (JObj m, stopped)
  | JArray l => let '(m, stopped) := list_told l in (JArr (map snd m), stopped)
  | JRaise => (JNull, true)
  end.

(* what the client must respect *)
Definition scalar (c : Z) : Prop := 0 <= c < 55296 \/ 57344 <= c < 1114112.
Definition plain_char (c : Z) : Prop := 32 <= c /\ c <> 92.            (* no control character and no backslash *)
Inductive GoodPy : pyval -> Prop :=
| GoodPy_str x : Forall scalar x -> GoodPy (PyStr x)
| GoodPy_num t : json_number t = true -> GoodPy (PyNum t)
| GoodPy_list l : Forall GoodPy l -> GoodPy (PyList l)
| GoodPy_dict l : Forall (fun p => Forall scalar (fst p) /\ GoodPy (snd p)) l -> GoodPy (PyDict l).
Inductive GoodJ : jcall -> Prop :=
| GoodJ_num t : json_number t = true -> GoodJ (JNumber t)
| GoodJ_str x : Forall plain_char x -> GoodJ (JString x)
| GoodJ_place v : GoodPy v -> GoodJ (JPlace v)
| GoodJ_obj l : NoDup (map fst l) -> Forall (fun p => Forall (fun c => plain_char c /\ c <> 34) (fst p) /\ GoodJ (snd p)) l ->
    GoodJ (JObject l)
| GoodJ_arr l : Forall (fun p => GoodJ (snd p)) l -> GoodJ (JArray l)
| GoodJ_raise : GoodJ JRaise.
