(* Model of the tokenizer: pdfmajor/parser/PSStackParser/PSBaseParser.py and constants.py. *)
From Coq Require Import String.
From Verif Require Import Base.

(* constants.py:17-28, the regular expressions, as predicates on one byte.
   Python's \s in a bytes pattern does not include NUL. *)
Definition is_eol (c : Z) : bool := (c =? 13) || (c =? 10).
(* END_LITERAL and END_KEYWORD: [#/%\[\]()<>{}\s] *)
Definition is_end_literal (c : Z) : bool :=
  (c =? 35) || (c =? 47) || (c =? 37) || (c =? 91) || (c =? 93) || (c =? 40) || (c =? 41)
  || (c =? 60) || (c =? 62) || (c =? 123) || (c =? 125) || is_space c.
Definition is_end_hex (c : Z) : bool := negb (is_space c || is_hex c).
Definition is_end_number (c : Z) : bool := negb (is_digit c).
Definition is_end_string (c : Z) : bool := (c =? 40) || (c =? 41) || (c =? 92).
Definition is_oct (c : Z) : bool := (48 <=? c) && (c <=? 55).
Definition is_alpha (c : Z) : bool := ((65 <=? c) && (c <=? 90)) || ((97 <=? c) && (c <=? 122)).
(* constants.py:28 ESC_STRING *)
Definition esc_string (c : Z) : option Z :=
  if c =? 98 then Some 8 else if c =? 116 then Some 9 else if c =? 110 then Some 10
  else if c =? 102 then Some 12 else if c =? 114 then Some 13 else if c =? 40 then Some 40
  else if c =? 41 then Some 41 else if c =? 92 then Some 92 else None.

(* Tokens.  A float is kept as its source text (the conversion float(text) is not modelled); the name of a
   literal is kept as its bytes (the code turns it into a str when it is valid UTF-8, injectively). *)
Inductive token : Type :=
| TInt (z : Z) | TReal (text : list Z) | TBool (b : bool)
| TStr (s : list Z) | TLit (name : list Z) | TKwd (name : list Z).

Definition KW (s : string) : token := TKwd (bs s).

(* the value of _current_parse_func *)
Inductive mode : Type :=
| MMain | MComment | MLiteral | MLitHex | MNumber | MFloat | MKeyword
| MString | MString1 | MWopen | MWclose | MHexString.

(* PSBaseParser.py:59-63 and the attributes paren, oct, hex set by the parse functions *)
Record lex := mkLex {
  mode_ : mode; cur : list Z; curpos : Z; paren : Z; oct : list Z; hexd : list Z }.

Definition lex0 : lex := mkLex MMain [] 0 0 [] [].

(* REGEX.search(s, i): the part before the first byte satisfying p, and the rest from that byte on *)
Fixpoint span (p : Z -> bool) (s : list Z) : list Z * list Z :=
  match s with
  | [] => ([], [])
  | c :: r => if p c then ([], s) else let (a, b) := span p r in (c :: a, b)
  end.

(* int(text) for a text [+-]?[0-9]*; None is the ValueError of an empty digit string *)
Fixpoint dec_digits (acc : Z) (s : list Z) : option Z :=
  match s with
  | [] => Some acc
  | c :: r => if is_digit c then dec_digits (acc * 10 + (c - 48)) r else None
  end.
Definition py_int (s : list Z) : option Z :=
  match s with
  | [] => None
  | c :: r =>
      if c =? 43 then match r with [] => None | _ => dec_digits 0 r end
      else if c =? 45 then match r with [] => None | _ => option_map Z.opp (dec_digits 0 r) end
      else dec_digits 0 s
  end.

(* float(text) succeeds on [+-]?[0-9]*.[0-9]* exactly when there is at least one digit *)
Definition py_float_ok (s : list Z) : bool := existsb is_digit s.

(* int(text, 8) and int(text, 16) on digit strings *)
Definition oct_val (s : list Z) : Z := fold_left (fun a c => a * 8 + (c - 48)) s 0.
Definition hex_val (s : list Z) : Z := fold_left (fun a c => a * 16 + hexval c) s 0.

(* constants.py:23 HEX_PAIR and PSBaseParser.py:335: pairs of digits become one byte; a last single digit c
   becomes the byte int(c, 16) *)
Fixpoint hex_pair_sub (s : list Z) : list Z :=
  match s with
  | a :: r => match r with
              | b :: r' => (16 * hexval a + hexval b) :: hex_pair_sub r'
              | [] => [hexval a]
              end
  | [] => []
  end.

Definition lres := res (lex * option (Z * token) * list Z).

Definition set_mode (l : lex) (m : mode) := mkLex m (cur l) (curpos l) (paren l) (oct l) (hexd l).
Definition set_cur (l : lex) (c : list Z) := mkLex (mode_ l) c (curpos l) (paren l) (oct l) (hexd l).
Definition app_cur (l : lex) (c : list Z) := set_cur l (cur l ++ c).

(* PSBaseParser.py:131-173 _parse_main.  Here and below s is buf[charpos:], never empty, and pos is
   bufpos+charpos; the result is the new state, the token added (at most one) and the unread part of s. *)
Definition parse_main (l : lex) (pos : Z) (s : list Z) : lres :=
  let (sp, r) := span (fun c => negb (is_space c)) s in
  match r with
  | [] => Ok (l, None, [])
  | c :: r' =>
      let p := pos + Z.of_nat (length sp) in
      let go m t := Ok (mkLex m t p (paren l) (oct l) (hexd l), None, r') in
      if c =? 37 then go MComment [37]
      else if c =? 47 then go MLiteral []
      else if (c =? 45) || (c =? 43) || is_digit c then go MNumber [c]
      else if c =? 46 then go MFloat [c]
      else if is_alpha c then go MKeyword [c]
      else if c =? 40 then Ok (mkLex MString [] p 1 (oct l) (hexd l), None, r')
      else if c =? 60 then go MWopen []
      else if c =? 62 then go MWclose []
      else Ok (mkLex (mode_ l) (cur l) p (paren l) (oct l) (hexd l), Some (p, TKwd [c]), r')
  end.

(* PSBaseParser.py:179-189 *)
Definition parse_comment (l : lex) (s : list Z) : lres :=
  let (a, r) := span is_eol s in
  match r with
  | [] => Ok (app_cur l a, None, [])
  | _ => Ok (set_mode (app_cur l a) MMain, None, r)
  end.

(* PSBaseParser.py:191-209 *)
Definition parse_literal (l : lex) (s : list Z) : lres :=
  let (a, r) := span is_end_literal s in
  let l' := app_cur l a in
  match r with
  | [] => Ok (l', None, [])
  | c :: r' =>
      if c =? 35 then Ok (mkLex MLitHex (cur l') (curpos l) (paren l) (oct l) [], None, r')
      else Ok (set_mode l' MMain, Some (curpos l, TLit (cur l')), r)
  end.

(* PSBaseParser.py:211-219 *)
Definition parse_literal_hex (l : lex) (s : list Z) : lres :=
  match s with
  | [] => Ok (l, None, [])
  | c :: r =>
      if is_hex c && Nat.ltb (length (hexd l)) 2
      then Ok (mkLex MLitHex (cur l) (curpos l) (paren l) (oct l) (hexd l ++ [c]), None, r)
      else
        let l' := match hexd l with [] => l | h => app_cur l [hex_val h] end in
        Ok (set_mode l' MLiteral, None, s)
  end.

(* PSBaseParser.py:221-238 *)
Definition parse_number (l : lex) (s : list Z) : lres :=
  let (a, r) := span is_end_number s in
  let l' := app_cur l a in
  match r with
  | [] => Ok (l', None, [])
  | c :: r' =>
      if c =? 46 then Ok (set_mode (app_cur l' [c]) MFloat, None, r')
      else
        Ok (set_mode l' MMain,
            match py_int (cur l') with Some z => Some (curpos l, TInt z) | None => None end, r)
  end.

(* PSBaseParser.py:240-252 *)
Definition parse_float (l : lex) (s : list Z) : lres :=
  let (a, r) := span is_end_number s in
  let l' := app_cur l a in
  match r with
  | [] => Ok (l', None, [])
  | _ =>
      Ok (set_mode l' MMain,
          if py_float_ok (cur l') then Some (curpos l, TReal (cur l')) else None, r)
  end.

(* PSBaseParser.py:254-269 *)
Definition parse_keyword (l : lex) (s : list Z) : lres :=
  let (a, r) := span is_end_literal s in
  let l' := app_cur l a in
  match r with
  | [] => Ok (l', None, [])
  | _ =>
      let t := if list_eqb (cur l') (bs "true") then TBool true
               else if list_eqb (cur l') (bs "false") then TBool false
               else TKwd (cur l') in
      Ok (set_mode l' MMain, Some (curpos l, t), r)
  end.

(* PSBaseParser.py:271-294 *)
Definition parse_string (l : lex) (s : list Z) : lres :=
  let (a, r) := span is_end_string s in
  let l' := app_cur l a in
  match r with
  | [] => Ok (l', None, [])
  | c :: r' =>
      if c =? 92 then Ok (mkLex MString1 (cur l') (curpos l) (paren l) [] (hexd l), None, r')
      else if c =? 40 then
        Ok (mkLex MString (cur l' ++ [c]) (curpos l) (paren l + 1) (oct l) (hexd l), None, r')
      else
        let p' := paren l - 1 in
        if negb (p' =? 0)
        then Ok (mkLex MString (cur l' ++ [c]) (curpos l) p' (oct l) (hexd l), None, r')
        else Ok (mkLex MMain (cur l') (curpos l) p' (oct l) (hexd l), Some (curpos l, TStr (cur l')), r')
  end.

(* PSBaseParser.py:296-308.  int2byte of an octal value above 255 raises struct.error. *)
Definition parse_string_1 (l : lex) (s : list Z) : lres :=
  match s with
  | [] => Ok (l, None, [])
  | c :: r =>
      if is_oct c && Nat.ltb (length (oct l)) 3
      then Ok (mkLex MString1 (cur l) (curpos l) (paren l) (oct l ++ [c]) (hexd l), None, r)
      else
        match oct l with
        | _ :: _ =>
            if oct_val (oct l) <? 256
            then Ok (set_mode (app_cur l [oct_val (oct l)]) MString, None, s)
            else Err StructError
        | [] =>
            match esc_string c with
            | Some v => Ok (set_mode (app_cur l [v]) MString, None, r)
            | None => Ok (set_mode l MString, None, r)
            end
        end
  end.

(* PSBaseParser.py:310-318 *)
Definition parse_wopen (l : lex) (s : list Z) : lres :=
  match s with
  | c :: r => if c =? 60 then Ok (set_mode l MMain, Some (curpos l, KW "<<"), r)
              else Ok (set_mode l MHexString, None, s)
  | [] => Ok (set_mode l MHexString, None, s)
  end.

(* PSBaseParser.py:320-326 *)
Definition parse_wclose (l : lex) (s : list Z) : lres :=
  match s with
  | c :: r => if c =? 62 then Ok (set_mode l MMain, Some (curpos l, KW ">>"), r)
              else Ok (set_mode l MMain, None, s)
  | [] => Ok (set_mode l MMain, None, s)
  end.

(* PSBaseParser.py:328-338 *)
Definition parse_hexstring (l : lex) (s : list Z) : lres :=
  let (a, r) := span is_end_hex s in
  let l' := app_cur l a in
  match r with
  | [] => Ok (l', None, [])
  | _ => Ok (set_mode l' MMain,
             Some (curpos l, TStr (hex_pair_sub (filter (fun c => negb (is_space c)) (cur l')))), r)
  end.

(* PSBaseParser.py:343 self._current_parse_func(self.buf, self.charpos) *)
Definition parse_func (l : lex) (pos : Z) (s : list Z) : lres :=
  match mode_ l with
  | MMain => parse_main l pos s
  | MComment => parse_comment l s
  | MLiteral => parse_literal l s
  | MLitHex => parse_literal_hex l s
  | MNumber => parse_number l s
  | MFloat => parse_float l s
  | MKeyword => parse_keyword l s
  | MString => parse_string l s
  | MString1 => parse_string_1 l s
  | MWopen => parse_wopen l s
  | MWclose => parse_wclose l s
  | MHexString => parse_hexstring l s
  end.

(* The parser: lexer state, current position bufpos+charpos, unread part of the buffer, and the results of
   the future fp.read(BUFSIZ) calls (each non-empty; the end of the list is the end of the file). *)
Record parser := mkParser { lx : lex; pos : Z; buf : list Z; chunks : list (list Z) }.

(* PSBaseParser.py:66-75 fillbuf: PSEOF when nothing is left (modelled by None) *)
Definition fillbuf (b : list Z) (cs : list (list Z)) : option (list Z * list (list Z)) :=
  match b with
  | _ :: _ => Some (b, cs)
  | [] => match cs with
          | [] => None
          | c :: cs' => Some (c, cs')
          end
  end.

(* PSBaseParser.py:340-346 nexttoken.  Every parse function adds at most one token, so _tokens is empty
   whenever the loop is entered.  The result also carries the state left behind. *)
Fixpoint nexttoken_loop (fuel : nat) (l : lex) (pos : Z) (b : list Z) (cs : list (list Z))
  : res (Z * token) * parser :=
  match fuel with
  | O => (Err OutOfFuel, mkParser l pos b cs)
  | S f =>
      match fillbuf b cs with
      | None => (Err PSEOF, mkParser l pos b cs)
      | Some (b1, cs1) =>
          match parse_func l pos b1 with
          | Err e => (Err e, mkParser l pos b1 cs1)
          | Ok (l', t, b2) =>
              let pos' := pos + Z.of_nat (length b1 - length b2) in
              match t with
              | Some tk => (Ok tk, mkParser l' pos' b2 cs1)
              | None => nexttoken_loop f l' pos' b2 cs1
              end
          end
      end
  end.

Definition lex_fuel (n : nat) : nat := (3 * n + 3)%nat.
Definition nexttoken (p : parser) : res (Z * token) * parser :=
  nexttoken_loop (lex_fuel (length (buf p) + length (concat (chunks p)))) (lx p) (pos p) (buf p) (chunks p).

(* PSBaseParser.py:50-64 seek(0), over a file read in the given chunks *)
Definition open_at (pos : Z) (cs : list (list Z)) : parser := mkParser lex0 pos [] cs.

(* all the tokens, until nexttoken raises; the exception that ends the iteration *)
Fixpoint tokens_loop (fuel : nat) (p : parser) : list (Z * token) * exn :=
  match fuel with
  | O => ([], OutOfFuel)
  | S f =>
      match nexttoken p with
      | (Ok t, p') => let (ts, e) := tokens_loop f p' in (t :: ts, e)
      | (Err e, _) => ([], e)
      end
  end.
Definition tokens (p : parser) : list (Z * token) * exn :=
  tokens_loop (lex_fuel (length (buf p) + length (concat (chunks p)))) p.

(* fp.read(n) called repeatedly on the data: chunks of n bytes, the last one shorter *)
Fixpoint chop (fuel n : nat) (data : list Z) : list (list Z) :=
  match fuel, data with
  | _, [] => []
  | O, _ => []
  | S f, _ => firstn n data :: chop f n (skipn n data)
  end.
Definition read_chunks (bufsiz : nat) (data : list Z) : list (list Z) := chop (length data) bufsiz data.
