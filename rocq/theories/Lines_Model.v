(* Model of the line readers: pdfmajor/parser/PSStackParser/PSBaseParser.py:77-129. *)
From Verif Require Import Base Lex_Model.

(* PSBaseParser.py:77-104 nextline, as a loop on (linebuf, eol, buffer, chunks still to be read).  The result is
   the line or the PSEOF of fillbuf, and the bytes left.  linepos is tell() at the call, added by nextline.
   EOL.search is span is_eol: m.end(0) is one past the first CR or LF. *)
Fixpoint nextline_loop (fuel : nat) (line : list Z) (eol : bool) (b : list Z) (cs : list (list Z))
  : res (list Z) * (list Z * list (list Z)) :=
  match fuel with
  | O => (Err OutOfFuel, (b, cs))
  | S f =>
      match fillbuf b cs with
      | None => (Err PSEOF, (b, cs))
      | Some (b1, cs1) =>
          if eol then
            match b1 with
            | c :: r => if c =? 10 then (Ok (line ++ [c]), (r, cs1)) else (Ok line, (b1, cs1))
            | [] => (Ok line, (b1, cs1))
            end
          else
            let (a, r) := span is_eol b1 in
            match r with
            | c :: r' =>
                if c =? 13 then nextline_loop f (line ++ a ++ [c]) true r' cs1
                else (Ok (line ++ a ++ [c]), (r', cs1))
            | [] => nextline_loop f (line ++ a) false [] cs1
            end
      end
  end.

(* on a parser whose position is pos *)
Definition nextline (pos : Z) (b : list Z) (cs : list (list Z)) : res (Z * list Z) * (Z * list Z * list (list Z)) :=
  let (r, st) := nextline_loop (length cs + 3) [] false b cs in
  match r with
  | Ok l => (Ok (pos, l), (pos + Z.of_nat (length l), fst st, snd st))
  | Err e => (Err e, (pos, fst st, snd st))
  end.

(* calling nextline until it raises: the lines, and the exception *)
Fixpoint all_lines (fuel : nat) (pos : Z) (b : list Z) (cs : list (list Z)) : list (Z * list Z) * exn :=
  match fuel with
  | O => ([], OutOfFuel)
  | S f =>
      match nextline pos b cs with
      | (Ok l, (pos', b', cs')) => let (ls, e) := all_lines f pos' b' cs' in (l :: ls, e)
      | (Err e, _) => ([], e)
      end
  end.
Definition lines_of (cs : list (list Z)) : list (Z * list Z) * exn := all_lines (length (concat cs) + 1) 0 [] cs.

(* max(s.rfind(CR), s.rfind(LF)): the part before the last end-of-line byte, and the part from it on *)
Fixpoint last_eol (s : list Z) : option (list Z * list Z) :=
  match s with
  | [] => None
  | c :: r =>
      match last_eol r with
      | Some (a, b) => Some (c :: a, b)
      | None => if is_eol c then Some ([], s) else None
      end
  end.

(* PSBaseParser.py:121-128: the inner loop; what it yields, and buf after it *)
Fixpoint rev_inner (fuel : nat) (s buf : list Z) : list (list Z) * list Z :=
  match fuel with
  | O => ([], buf)
  | S f =>
      match last_eol s with
      | None => ([], s ++ buf)
      | Some (a, b) => let (ys, buf') := rev_inner f a [] in ((b ++ buf) :: ys, buf')
      end
  end.

(* PSBaseParser.py:106-129 revreadlines on a file with the given contents *)
Fixpoint rev_outer (fuel bufsiz : nat) (data : list Z) (prevpos : nat) (buf : list Z) : list (list Z) :=
  match fuel with
  | O => []
  | S f =>
      match prevpos with
      | O => []
      | _ =>
          let pos := (prevpos - bufsiz)%nat in
          let s := firstn (prevpos - pos) (skipn pos data) in
          match s with
          | [] => []
          | _ => let (ys, buf') := rev_inner (S (length s)) s buf in ys ++ rev_outer f bufsiz data pos buf'
          end
      end
  end.
Definition revreadlines (bufsiz : nat) (data : list Z) : list (list Z) :=
  rev_outer (S (length data)) bufsiz data (length data) [].
