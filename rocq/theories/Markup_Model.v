(* Model of the text writers: utils/text.py enc, converters/writers/xml.py, converters/writers/html.py and
   converters/writers/json.py.  A Python str is the list of its code points.  What a writer has written is the text
   handed to outfile.write before .encode(codec); the codec is applied piecewise by the code and is not modelled here
   (for enc the ascii codec is).  The open file itself (FileAccessException after close) is not modelled. *)
From Verif Require Export Base.
From Coq Require Import String.
Open Scope Z_scope.
Import ListNotations.

(* str(n) of a non-negative int *)
Fixpoint dec_digits (k : nat) (n : Z) (acc : list Z) : list Z :=
  match k with
  | O => acc
  | S k' => let acc' := (48 + n mod 10) :: acc in if n <? 10 then acc' else dec_digits k' (n / 10) acc'
  end.
Definition py_str_nat (n : Z) : list Z := dec_digits (S (Z.to_nat (Z.log2 n))) n [].
(* str(n) *)
Definition py_str_int (n : Z) : list Z := if n <? 0 then 45 :: py_str_nat (- n) else py_str_nat n.

(* x.replace(c, r) for a one-character c *)
Definition replace1 (c : Z) (r : list Z) (x : list Z) : list Z := flat_map (fun a => if a =? c then r else [a]) x.

(* x.encode('ascii', 'xmlcharrefreplace') *)
Definition charref_ascii (x : list Z) : list Z :=
  flat_map (fun a => if a <? 128 then [a] else bs "&#" ++ py_str_nat a ++ bs ";") x.

(* utils/text.py:49-56 enc(x, codec); the first argument is a str or a bytes, the second None or 'ascii' *)
Inductive strbytes := Str (x : list Z) | Byt (b : list Z).
Definition enc (x : strbytes) (ascii : bool) : list Z :=
  match x with
  | Byt _ => []
  | Str x =>
      let x := replace1 34 (bs "&quot;") (replace1 60 (bs "&lt;") (replace1 62 (bs "&gt;") (replace1 38 (bs "&amp;") x))) in
      if ascii then charref_ascii x else x
  end.

(* xml.sax.saxutils.escape as used by converters/xml.py:116 (Python's library): & then > then < *)
Definition sax_escape (x : list Z) : list Z := replace1 60 (bs "&lt;") (replace1 62 (bs "&gt;") (replace1 38 (bs "&amp;") x)).

(* ---------- XML and HTML writer ---------- *)
(* What a client does with a maker: opens an element and does things inside it, places a singleton, writes a text,
   or lets an exception out. *)
Inductive xcall :=
| CElm (tag : list Z) (attrs : list (list Z * list Z)) (nolineend no_additional_char : bool) (inside : list xcall)
| CSingle (tag : list Z) (attrs : list (list Z * list Z))
| CText (text lineend deep_space : list Z)
| CRaise.

Fixpoint times (n : nat) (x : list Z) : list Z := match n with O => [] | S n' => x ++ times n' x end.

(* writers/xml.py:32-34 write: deep_space*levels + text + lineend *)
Definition xwrite (level : nat) (text lineend deep : list Z) : list Z := times level deep ++ text ++ lineend.

(* writers/xml.py:45-48: a dict, so names do not repeat; items in insertion order *)
Fixpoint join (sep : list Z) (l : list (list Z)) : list Z :=
  match l with [] => [] | [x] => x | x :: r => x ++ sep ++ join sep r end.
Definition attr_text (attrs : list (list Z * list Z)) : list Z :=
  join (bs " ") (map (fun a => fst a ++ bs "=" ++ [34] ++ snd a ++ [34]) attrs).

Definition nl : list Z := [10].
Definition sp : list Z := [32].

(* writers/xml.py:36-62 elm and singleton.  The result is the text written and whether an exception came out; elm is a
   generator context manager without try/finally: when the body raises nothing more is written. *)
Fixpoint xrender (level : nat) (c : xcall) : list Z * bool :=
  match c with
  | CElm tag attrs nolineend noadd inside =>
      let lineend := if noadd then [] else nl in
      let deep := if noadd then [] else sp in
      let '(t, raised) :=
        (fix go (l : list xcall) : list Z * bool :=
           match l with
           | [] => ([], false)
           | c :: r => let '(t, raised) := xrender (S level) c in
                       if raised then (t, true) else let '(t', raised') := go r in (t ++ t', raised')
           end) inside in
      let head := xwrite level (bs "<" ++ tag ++ bs " " ++ attr_text attrs ++ bs ">") lineend sp in
      if raised then (head ++ t, true)
      else (head ++ t ++ xwrite level (bs "</" ++ tag ++ bs ">") (if nolineend then [] else nl) deep, false)
  | CSingle tag attrs => (xwrite level (bs "<" ++ tag ++ bs " " ++ attr_text attrs ++ bs " />") nl sp, false)
  | CText text lineend deep => (xwrite level text lineend deep, false)
  | CRaise => ([], true)
  end.
Fixpoint xrender_list (level : nat) (l : list xcall) : list Z * bool :=
  match l with
  | [] => ([], false)
  | c :: r => let '(t, raised) := xrender level c in
              if raised then (t, true) else let '(t', raised') := xrender_list level r in (t ++ t', raised')
  end.

(* writers/xml.py:10-17 __enter__: the declaration, without a line end *)
Definition xml_prolog (codec : list Z) : list Z :=
  match codec with
  | [] => bs "<?xml version=" ++ [34] ++ bs "1.0.0" ++ [34] ++ bs " ?>"
  | _ => bs "<?xml version=" ++ [34] ++ bs "1.0.0" ++ [34] ++ bs " encoding=" ++ [34] ++ codec ++ [34] ++ bs " ?>"
  end.
(* the text in the file when the with block is left *)
Definition xml_file (codec : list Z) (doc : list xcall) : list Z * bool :=
  let '(t, raised) := xrender_list 0 doc in (xml_prolog codec ++ t, raised).

(* writers/html.py:43-47: css becomes the style attribute of the same dict *)
Fixpoint set_attr (n v : list Z) (attrs : list (list Z * list Z)) : list (list Z * list Z) :=
  match attrs with
  | [] => [(n, v)]
  | (n', v') :: r => if list_eqb n n' then (n', v) :: r else (n', v') :: set_attr n v r
  end.
Definition html_attrs (attrs : list (list Z * list Z)) (css : option (list (list Z * list Z))) : list (list Z * list Z) :=
  match css with
  | None => attrs
  | Some css => set_attr (bs "style") (join (bs ";") (map (fun a => fst a ++ bs ": " ++ snd a) css)) attrs
  end.

(* ---------- JSON writer ---------- *)
(* the values json.dumps is given (converters/json.py:129-146, 159-165): str, list, dict with str keys, and numbers,
   represented by the text repr() gives them *)
Inductive pyval := PyStr (x : list Z) | PyNum (t : list Z) | PyList (l : list pyval) | PyDict (l : list (list Z * pyval)).

(* json.dumps of Python's library, default arguments: ensure_ascii, separators ', ' and ': ' *)
Definition hex4 (c : Z) : list Z :=
  let d v := if v <? 10 then 48 + v else 87 + v in
  [d (c / 4096 mod 16); d (c / 256 mod 16); d (c / 16 mod 16); d (c mod 16)].
Definition dump_char (c : Z) : list Z :=
  if c =? 34 then [92; 34] else if c =? 92 then [92; 92] else if c =? 10 then bs "\n" else if c =? 13 then bs "\r"
  else if c =? 9 then bs "\t" else if c =? 12 then bs "\f" else if c =? 8 then bs "\b"
  else if (32 <=? c) && (c <? 127) then [c]
  else if c <? 65536 then bs "\u" ++ hex4 c
  else let v := c - 65536 in bs "\u" ++ hex4 (55296 + v / 1024) ++ bs "\u" ++ hex4 (56320 + v mod 1024).
Definition dump_str (x : list Z) : list Z := [34] ++ flat_map dump_char x ++ [34].
Fixpoint dumps (v : pyval) : list Z :=
  match v with
  | PyStr x => dump_str x
  | PyNum t => t
  | PyList l => bs "[" ++ join (bs ", ") (map dumps l) ++ bs "]"
  | PyDict l => bs "{" ++ join (bs ", ") (map (fun p => dump_str (fst p) ++ bs ": " ++ dumps (snd p)) l) ++ bs "}"
  end.

(* What a client does with an object or array maker.  In an object every call carries a key, in an array the key is not
   used.  JRaise: the client lets an exception out instead. *)
Inductive jcall :=
| JNumber (t : list Z)                    (* number(val): t is str(val) *)
| JString (x : list Z)
| JPlace (v : pyval)
| JObject (inside : list (list Z * jcall))
| JArray (inside : list (list Z * jcall))
| JRaise.

(* json.py:42-45 write *)
Definition jwrite (level : nat) (text prefix : list Z) : list Z := prefix ++ times level (bs "  ") ++ text.
(* json.py:57-59 string *)
Definition jstring_text (x : list Z) : list Z := [34] ++ replace1 34 [92; 34] x ++ [34].
(* json.py:47-53 write_prop of an object; keys is the set of keys so far *)
Definition has_key (k : list Z) (keys : list (list Z)) : bool := existsb (list_eqb k) keys.
Definition jprop (level : nat) (keys : list (list Z)) (k val : list Z) : list Z * list (list Z) :=
  if has_key k keys then ([], keys)
  else (jwrite level ([34] ++ k ++ [34] ++ bs ": " ++ val) (match keys with [] => nl | _ => bs "," ++ nl end), k :: keys).
(* json.py:103-108 write_prop of an array *)
Definition jelem (level : nat) (count : nat) (val : list Z) : list Z :=
  jwrite level val (match count with O => nl | _ => bs "," ++ nl end).

(* json.py:55-76 and 110-131.  An object or array inside another is opened with the level of its parent and raises it by
   one (24-27, 86-89), so level here is the level of the enclosing maker after __enter__.  __exit__ (29-31, 91-93) runs
   also when the body raised: it writes the closing brace and the exception goes on.  The result is the text of the value
   itself and whether an exception came out; jrender is called with the level of the maker the value is put in. *)
Fixpoint jrender (level : nat) (c : jcall) : list Z * bool :=
  match c with
  | JNumber t => (t, false)
  | JString x => (jstring_text x, false)
  | JPlace v => (dumps v, false)
  | JObject inside =>
      let '(t, raised) :=
        (fix go (keys : list (list Z)) (l : list (list Z * jcall)) : list Z * bool :=
           match l with
           | [] => ([], false)
           | (_, JRaise) :: _ => ([], true)
           | (k, c) :: r =>
               let '(v, raised) := jrender (S level) c in
               let '(t, keys') :=
                 match c with
                 | JObject _ | JArray _ => let '(p, keys') := jprop (S level) keys k [] in (p ++ v, keys')
                 | _ => jprop (S level) keys k v
                 end in
               if raised then (t, true) else let '(t', raised') := go keys' r in (t ++ t', raised')
           end) [] inside in
      (bs "{" ++ t ++ jwrite level (bs "}") nl, raised)
  | JArray inside =>
      let '(t, raised) :=
        (fix go (count : nat) (l : list (list Z * jcall)) : list Z * bool :=
           match l with
           | [] => ([], false)
           | (_, JRaise) :: _ => ([], true)
           | (_, c) :: r =>
               let '(v, raised) := jrender (S level) c in
               let t := match c with
                        | JObject _ | JArray _ => jelem (S level) count [] ++ v
                        | _ => jelem (S level) count v
                        end in
               if raised then (t, true) else let '(t', raised') := go (S count) r in (t ++ t', raised')
           end) O inside in
      (bs "[" ++ t ++ jwrite level (bs "]") nl, raised)
  | JRaise => ([], true)
  end.
(* json.py:7-11 JSONMaker: the file holds one object *)
Definition json_file (inside : list (list Z * jcall)) : list Z * bool := jrender 0 (JObject inside).
