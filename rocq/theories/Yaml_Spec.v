(* A reader for a part of YAML 1.2 (https://yaml.org/spec/1.2.2): block mappings, block sequences (with compact nested collections),
   plain scalars on one line, flow sequences, flow mappings, scalars in single quotes.  Scalars are read as strings: which of them
   stand for numbers is left open.  None: not in this part of YAML, or not YAML. *)
From Coq Require Import String.
From Verif Require Import Base.
Open Scope Z_scope.
Import ListNotations.

Inductive yaml := YNull | YStr (x : list Z) | YSeq (l : list yaml) | YMap (l : list (list Z * yaml)).

(* ---------- lines: indentation and content; lines with nothing, and comment lines, are left out ---------- *)
Fixpoint ltrim (x : list Z) : list Z := match x with c :: r => if c =? 32 then ltrim r else x | [] => [] end.
Definition rtrim (x : list Z) : list Z := rev (ltrim (rev x)).
Fixpoint split_lines (x : list Z) : list (list Z) :=
  match x with
  | [] => [[]]
  | c :: r => if (c =? 10) || (c =? 13) then [] :: split_lines r
              else match split_lines r with l :: ls => (c :: l) :: ls | [] => [[c]] end
  end.
Notation yline := (nat * list Z)%type.
Definition line_of (raw : list Z) : list yline :=
  let c := rtrim raw in
  match ltrim c with
  | [] => []
  | d :: r => if d =? 35 then [] else [(length c - length (d :: r), d :: r)%nat]
  end.
Definition text_lines (x : list Z) : list yline := flat_map line_of (split_lines x).

(* ---------- scalars ---------- *)
(* a colon before a space or at the end: what comes before it and after it *)
Fixpoint key_split (x : list Z) : option (list Z * list Z) :=
  match x with
  | [] => None
  | c :: r =>
      if (c =? 58) && match r with [] => true | d :: _ => d =? 32 end then Some ([], r)
      else match key_split r with Some (k, v) => Some (c :: k, v) | None => None end
  end.
Fixpoint space_hash (x : list Z) : bool :=
  match x with c :: r => ((c =? 32) && match r with d :: _ => d =? 35 | [] => false end) || space_hash r | [] => false end.
Definition flow_mark (c : Z) : bool := existsb (Z.eqb c) (bs ",[]{}").
Definition indicator (c : Z) : bool := existsb (Z.eqb c) (bs "-?:,[]{}#&*!|>'%@`" ++ [34]).
Definition printable (c : Z) : bool :=
  ((32 <=? c) && (c <=? 126)) || ((160 <=? c) && (c <=? 55295) && negb (c =? 8232) && negb (c =? 8233)) || ((57344 <=? c) && (c <=? 65533) && negb (c =? 65279)) || ((65536 <=? c) && (c <=? 1114111)).
Definition plainb (x : list Z) : bool :=
  match x with
  | [] => false
  | c :: r => (negb (indicator c) || ((c =? 45) || (c =? 63) || (c =? 58)) && match r with d :: _ => negb (d =? 32) | [] => false end) &&
              negb (c =? 32) && negb (hd 0 (rev x) =? 32)
  end && match key_split x with None => true | Some _ => false end && negb (space_hash x) && forallb printable x.
(* up to the closing quote; a doubled quote stands for one *)
Fixpoint quoted (x : list Z) : option (list Z * list Z) :=
  match x with
  | [] => None
  | c :: r =>
      if c =? 39 then
        match r with
        | d :: r' => if d =? 39 then match quoted r' with Some (s, t) => Some (39 :: s, t) | None => None end else Some ([], r)
        | [] => Some ([], r)
        end
      else match quoted r with Some (s, t) => Some (c :: s, t) | None => None end
  end.
(* up to a mark of a flow collection, or a colon and a space *)
Fixpoint flow_span (x : list Z) : list Z * list Z :=
  match x with
  | [] => ([], [])
  | c :: r => if flow_mark c || ((c =? 58) && match r with d :: _ => d =? 32 | [] => false end) then ([], x) else let (s, t) := flow_span r in (c :: s, t)
  end.
(* what follows a mark, if the text, without spaces before it, begins with it *)
Definition after (mark : Z) (x : list Z) : option (list Z) := match ltrim x with d :: r => if d =? mark then Some r else None | [] => None end.
Fixpoint flow (k : nat) (x : list Z) : option (yaml * list Z) :=
  match k with
  | O => None
  | S k =>
      match after 39 x, after 91 x, after 123 x with
      | Some r, _, _ => match quoted r with Some (s, t) => Some (YStr s, t) | None => None end
      | _, Some r, _ => match after 93 r with Some t => Some (YSeq [], t) | None => match flow_items k r with Some (l, t) => Some (YSeq l, t) | None => None end end
      | _, _, Some r => match after 125 r with Some t => Some (YMap [], t) | None => match flow_pairs k r with Some (l, t) => Some (YMap l, t) | None => None end end
      | None, None, None => let (s, t) := flow_span (ltrim x) in if plainb (rtrim s) then Some (YStr (rtrim s), t) else None
      end
  end
with flow_items (k : nat) (x : list Z) : option (list yaml * list Z) :=
  match k with
  | O => None
  | S k =>
      match flow k x with
      | Some (v, r) =>
          match after 44 r, after 93 r with
          | Some t, _ => match flow_items k t with Some (l, t') => Some (v :: l, t') | None => None end
          | None, Some t => Some ([v], t)
          | None, None => None
          end
      | None => None
      end
  end
with flow_pairs (k : nat) (x : list Z) : option (list (list Z * yaml) * list Z) :=
  match k with
  | O => None
  | S k =>
      match flow k x with
      | Some (YStr s, r) =>
          match after 58 r with
          | Some t =>
              match flow k t with
              | Some (v, r') =>
                  match after 44 r', after 125 r' with
                  | Some t', _ => match flow_pairs k t' with Some (l, t'') => Some ((s, v) :: l, t'') | None => None end
                  | None, Some t' => Some ([(s, v)], t')
                  | None, None => None
                  end
              | None => None
              end
          | None => None
          end
      | _ => None
      end
  end.
(* a value on one line *)
Definition opens (x : list Z) : bool := match x with c :: _ => (c =? 91) || (c =? 123) || (c =? 39) | [] => false end.
Definition inline (k : nat) (x : list Z) : option yaml :=
  if opens x then match flow k x with Some (v, r) => match ltrim r with [] => Some v | _ => None end | None => None end
  else if plainb x then Some (YStr x) else None.

(* ---------- block collections: what they stand for, and the lines after them ---------- *)
Definition dash (c : list Z) : bool := match c with d :: r => (d =? 45) && match r with e :: _ => e =? 32 | [] => true end | [] => false end.
Fixpoint block (k : nat) (ls : list yline) : option (yaml * list yline) :=
  match k with
  | O => None
  | S k =>
      match ls with
      | [] => None
      | (m, c) :: _ =>
          if dash c then match items k m ls with Some (l, r) => Some (YSeq l, r) | None => None end
          else match entries k m [] ls with Some (l, r) => Some (YMap l, r) | None => None end
      end
  end
(* the items of a sequence whose dashes are at indentation m *)
with items (k m : nat) (ls : list yline) : option (list yaml * list yline) :=
  match k with
  | O => None
  | S k =>
      match ls with
      | [] => Some ([], [])
      | (m', c) :: r =>
          if (m' <? m)%nat then Some ([], ls) else if (m <? m')%nat then None
          else if dash c then
            let c' := ltrim (tl c) in
            match (match c' with
                   | [] => match r with (m', _) :: _ => if (m <? m')%nat then block k r else Some (YNull, r) | [] => Some (YNull, r) end
                   | _ => if dash c' || (negb (opens c') && match key_split c' with Some _ => true | None => false end)
                          then block k ((m + (length c - length c'), c')%nat :: r)
                          else match inline k c' with Some v => Some (v, r) | None => None end
                   end) with
            | Some (v, r') => match items k m r' with Some (l, r'') => Some (v :: l, r'') | None => None end
            | None => None
            end
          else Some ([], ls)
      end
  end
(* the entries of a mapping whose keys are at indentation m; the keys seen before may not come again *)
with entries (k m : nat) (seen : list (list Z)) (ls : list yline) : option (list (list Z * yaml) * list yline) :=
  match k with
  | O => None
  | S k =>
      match ls with
      | [] => Some ([], [])
      | (m', c) :: r =>
          if (m' <? m)%nat then Some ([], ls) else if (m <? m')%nat then None
          else if dash c then None
          else
            match key_split c with
            | Some (key, v) =>
                if plainb key && negb (existsb (list_eqb key) seen) then
                  match (match ltrim v with
                         | [] => match r with
                                 | (m', c') :: _ => if (m <? m')%nat || ((m' =? m)%nat && dash c') then block k r else Some (YNull, r)
                                 | [] => Some (YNull, r)
                                 end
                         | v' => match inline k v' with Some x => Some (x, r) | None => None end
                         end) with
                  | Some (x, r') => match entries k m (key :: seen) r' with Some (l, r'') => Some ((key, x) :: l, r'') | None => None end
                  | None => None
                  end
                else None
            | None => None
            end
      end
  end.
Definition read_yaml (k : nat) (text : list Z) : option yaml :=
  match text_lines text with
  | [] => Some YNull
  | ls => match block k ls with Some (v, []) => Some v | _ => None end
  end.
(* the text is YAML for the value *)
Definition YamlText (text : list Z) (v : yaml) : Prop := exists n, forall k, (n <= k)%nat -> read_yaml k text = Some v.
Lemma yaml_unique text v w : YamlText text v -> YamlText text w -> v = w.
Proof. intros (n & H) (m & G). specialize (H (n + m)%nat ltac:(lia)). specialize (G (n + m)%nat ltac:(lia)). congruence. Qed.

Example yaml_sample : read_yaml 60 (bs "a: b c
# comment
d:
  e: -5

  f: ['x', 'it''s', {'g': 1.5, h: []}]
i:
- j: k
  l:
    - m
    - n: o
-
- {}
p:
") = Some (YMap [(bs "a", YStr (bs "b c")); (bs "d", YMap [(bs "e", YStr (bs "-5"));
  (bs "f", YSeq [YStr (bs "x"); YStr (bs "it's"); YMap [(bs "g", YStr (bs "1.5")); (bs "h", YSeq [])]])]);
  (bs "i", YSeq [YMap [(bs "j", YStr (bs "k")); (bs "l", YSeq [YStr (bs "m"); YMap [(bs "n", YStr (bs "o"))]])]; YNull; YMap []]); (bs "p", YNull)]).
Proof. reflexivity. Qed.
Example yaml_bad : map (read_yaml 60) (map bs ["a: b: c"; "a: b
a: c"; "a: b
  c: d"; "- a
b: c"; "a: [b, c"; "a: *b"]%string) = repeat None 6.
Proof. reflexivity. Qed.
