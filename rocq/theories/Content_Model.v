(* Model of PDFContentParser.py, and of the symbol tables of PSStackParser/types.py and constants.py. *)
From Coq Require Import String.
From Verif Require Import Base Lex_Model Obj Stack_Model.

(* ---- types.py:60-81 PSSymbolTable ---- *)
(* The dictionary maps a name to the object created for it; objects are identified by their creation number, and
   the list heap gives the name attribute of each object ever created. *)
Section symtab.
  Context {N : Type} (eqb : N -> N -> bool).
  Record symtab := mkTab { tab : list (N * nat); heap : list N }.
  Definition tab0 : symtab := mkTab [] [].
  Fixpoint tab_find (d : list (N * nat)) (n : N) : option nat :=
    match d with [] => None | (k, v) :: r => if eqb k n then Some v else tab_find r n end.
  (* types.py:75-81 intern *)
  Definition intern (t : symtab) (n : N) : nat * symtab :=
    match tab_find (tab t) n with
    | Some i => (i, t)
    | None => let i := length (heap t) in (i, mkTab ((n, i) :: tab t) (heap t ++ [n]))
    end.
  Fixpoint interns (t : symtab) (ns : list N) : list nat * symtab :=
    match ns with
    | [] => ([], t)
    | n :: r => let (i, t1) := intern t n in let (is_, t2) := interns t1 r in (i :: is_, t2)
    end.
End symtab.

(* ---- PDFContentParser.py:19-23 the state: lexer, bufpos+charpos, unread part of the buffer, current fp (its
   contents and fp.tell()), the data of the streams not yet opened (get_data of each; validated_stream is not
   modelled) ---- *)
Record cp := mkCp { clx : lex; cpos : Z; cbuf : list Z; cfp : option (list Z * nat); cstreams : list (list Z) }.

(* PSBaseParser.__init__ calls seek(0), which opens the first stream: PSEOF if there is none *)
Definition copen (streams : list (list Z)) : res cp :=
  match streams with
  | [] => Err PSEOF
  | s :: r => Ok (mkCp lex0 0 [] (Some (s, O)) r)
  end.

(* PDFContentParser.py:39-50 fillbuf: read from fp, at its end go on with the next stream.  Result: bufpos, buf, fp,
   streams; None is PSEOF (fp is then None and no stream is left). *)
Fixpoint open_next (n : nat) (streams : list (list Z)) : option (Z * list Z * (list Z * nat) * list (list Z)) :=
  match streams with
  | [] => None
  | s :: r =>
      match s with
      | [] => open_next n r
      | _ => let b := firstn n s in Some (0, b, (s, length b), r)
      end
  end.
Definition cfill (n : nat) (c : cp) : option cp :=
  match cbuf c with
  | _ :: _ => Some c
  | [] =>
      let next := match open_next n (cstreams c) with
                  | None => None
                  | Some (p, b, fp, r) => Some (mkCp (clx c) p b (Some fp) r)
                  end in
      match cfp c with
      | None => next
      | Some (s, t) =>
          match firstn n (skipn t s) with
          | [] => next
          | b => Some (mkCp (clx c) (Z.of_nat t) b (Some (s, (t + length b)%nat)) (cstreams c))
          end
      end
  end.

(* PSBaseParser.py:340-346 nexttoken with this fillbuf *)
Fixpoint cnexttoken_loop (fuel n : nat) (c : cp) : res (Z * token) * cp :=
  match fuel with
  | O => (Err OutOfFuel, c)
  | S f =>
      match cfill n c with
      | None => (Err PSEOF, mkCp (clx c) (cpos c) [] None [])
      | Some c1 =>
          match parse_func (clx c1) (cpos c1) (cbuf c1) with
          | Err e => (Err e, c1)
          | Ok (l', t, b2) =>
              let c2 := mkCp l' (cpos c1 + Z.of_nat (length (cbuf c1) - length b2)) b2 (cfp c1) (cstreams c1) in
              match t with
              | Some tk => (Ok tk, c2)
              | None => cnexttoken_loop f n c2
              end
          end
      end
  end.
(* bytes still to be read *)
Definition cahead (c : cp) : list Z :=
  cbuf c ++ match cfp c with Some (s, t) => skipn t s | None => [] end ++ concat (cstreams c).
Definition cnexttoken (n : nat) (c : cp) : res (Z * token) * cp := cnexttoken_loop (lex_fuel (length (cahead c))) n c.

(* ---- PDFContentParser.py:52-80 get_inline_data, target = EI ---- *)
(* re.sub(br'(\x0d\x0a|[\x0d\x0a])$', b'', data): $ matches at the end and just before a final newline *)
Definition dollar (r : list Z) : bool := match r with [] => true | [c] => c =? 10 | _ => false end.
Fixpoint sub_eol (d : list Z) : list Z :=
  match d with
  | [] => []
  | c :: r =>
      match r with
      | c2 :: r2 => if (c =? 13) && (c2 =? 10) && dollar r2 then sub_eol r2
                    else if is_eol c && dollar r then sub_eol r else c :: sub_eol r
      | [] => if is_eol c then [] else [c]
      end
  end.
(* the loop 56-77, i is the number of bytes of the marker matched so far; result: data before stripping *)
Fixpoint inline_loop (fuel n : nat) (c : cp) (i : nat) (data : list Z) : res (list Z * cp) :=
  match fuel with
  | O => Err OutOfFuel
  | S f =>
      if Nat.leb i 2 then
        match cfill n c with
        | None => Err PSEOF
        | Some c1 =>
            match i with
            | O =>
                let (a, r) := span (fun x => x =? 69) (cbuf c1) in
                match r with
                | e :: r' => inline_loop f n (mkCp (clx c1) (cpos c1 + Z.of_nat (length a) + 1) r' (cfp c1) (cstreams c1)) 1 (data ++ a ++ [e])
                | [] => inline_loop f n (mkCp (clx c1) (cpos c1 + Z.of_nat (length a)) [] (cfp c1) (cstreams c1)) 0 (data ++ a)
                end
            | _ =>
                match cbuf c1 with
                | x :: r =>
                    let i' := if (Nat.leb 2 i) && is_space x then S i
                              else if Nat.ltb i 2 && (x =? 73) then S i else O in
                    inline_loop f n (mkCp (clx c1) (cpos c1 + 1) r (cfp c1) (cstreams c1)) i' (data ++ [x])
                | [] => Err IndexError
                end
            end
        end
      else Ok (data, c)
  end.
(* 31-34 seek: the current fp, or the next stream, is repositioned *)
Definition cseek (c : cp) (pos : Z) : res cp :=
  match cfp c with
  | Some (s, _) => Ok (mkCp lex0 pos [] (Some (s, Z.to_nat pos)) (cstreams c))
  | None => match cstreams c with [] => Err PSEOF | s :: r => Ok (mkCp lex0 pos [] (Some (s, Z.to_nat pos)) r) end
  end.
Definition get_inline_data (n : nat) (c : cp) (pos : Z) : res (list Z * cp) :=
  do c0 <- cseek c pos;
  do (data, c1) <- inline_loop (2 * length (cahead c0) + 4) n c0 0 [];
  Ok (sub_eol (firstn (length data - 3) data), c1).

(* 90-108 do_keyword; an odd number of objects raises PSTypeError, which is swallowed after end_type has already
   closed the inline dictionary *)
Definition content_keyword (n : nat) (c : cp) (s : stk) (pos : Z) (k : list Z) : res (cp * stk) :=
  if list_eqb k (bs "BI") then Ok (c, start_type s pos KInline)
  else if list_eqb k (bs "ID") then
    match end_type s KInline with
    | Some (_, objs, s') =>
        if Nat.even (length objs)
        then do d <- build_dict false [] objs;
             do (data, c') <- get_inline_data n c (pos + 3);
             Ok (c', push (push stk0 (pos + 3, OStream d data)) (pos + 3, OKwd (bs "EI")))
        else Ok (c, s')
    | None => Ok (c, s)
    end
  else Ok (c, push s (pos, OKwd k)).

Definition content_nextobject (n fuel : nat) (c : cp) (s : stk) := nextobject (cnexttoken n) (content_keyword n) flush_all fuel c s.
Definition content_objects (n fuel : nat) (streams : list (list Z)) : list pobj * exn :=
  match copen streams with
  | Err e => ([], e)
  | Ok c => all_objects (cnexttoken n) (content_keyword n) flush_all fuel c stk0
  end.

(* all the tokens, until nexttoken raises *)
Fixpoint ctokens_loop (fuel n : nat) (c : cp) : list (Z * token) * exn :=
  match fuel with
  | O => ([], OutOfFuel)
  | S f =>
      match cnexttoken n c with
      | (Ok t, c') => let (ts, e) := ctokens_loop f n c' in (t :: ts, e)
      | (Err e, _) => ([], e)
      end
  end.
Definition ctokens (n : nat) (c : cp) : list (Z * token) * exn := ctokens_loop (lex_fuel (length (cahead c))) n c.
Definition content_tokens (n : nat) (streams : list (list Z)) : list (Z * token) * exn :=
  match copen streams with Err e => ([], e) | Ok c => ctokens n c end.
