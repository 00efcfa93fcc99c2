(* Model of pdfmajor/utils/lzw.py. *)
From Verif Require Import Base.

(* utils/lzw.py:15-22 LZWDecoder.__init__: the unread bytes of fp, buff, bpos, nbits, table, prevbuf *)
Record lzw := mkLZW {
  fp : list Z; buff : Z; bpos : Z; nbits : Z;
  table : option (list (option (list Z)));
  prevbuf : option (list Z) }.
Definition lzw_init (data : list Z) : lzw := mkLZW data 0 8 9 None None.

(* utils/lzw.py:24-47 readbits: returns the value and the new (fp, buff, bpos); None = EOFError *)
Fixpoint readbits (fp : list Z) (buff bpos v bits : Z) : option (Z * (list Z * Z * Z)) :=
  let r := 8 - bpos in
  if bits <=? r then
    Some (Z.lor (Z.shiftl v bits) (Z.land (Z.shiftr buff (r - bits)) (Z.shiftl 1 bits - 1)),
          (fp, buff, bpos + bits))
  else
    match fp with
    | [] => None
    | x :: fp' =>
        readbits fp' x 0 (Z.lor (Z.shiftl v r) (Z.land buff (Z.shiftl 1 r - 1))) (bits - r)
    end.

(* utils/lzw.py:52-54: the table after a Clear code *)
Definition base_table : list (option (list Z)) :=
  map (fun n => Some [Z.of_nat n]) (seq 0 256) ++ [None; None].

(* utils/lzw.py:70-76: the code width after the table has reached l entries *)
Definition next_nbits (l nb : Z) : Z :=
  if l =? 511 then 10 else if l =? 1023 then 11 else if l =? 2047 then 12 else nb.

(* truth value of prevbuf: None and b'' are false *)
Definition truthy (p : option (list Z)) : bool :=
  match p with None | Some [] => false | _ => true end.

(* utils/lzw.py:49-78 feed: new (nbits, table, prevbuf) and the bytes returned.
   Indexing None raises TypeError, indexing past the end IndexError; a None entry (only codes 256/257,
   handled before) concatenated would be a TypeError. *)
Definition feed (code nb : Z) (tab : option (list (option (list Z)))) (pb : option (list Z))
  : res (Z * option (list (option (list Z))) * option (list Z) * list Z) :=
  if code =? 256 then Ok (9, Some base_table, Some [], [])
  else if code =? 257 then Ok (nb, tab, pb, [])
  else if negb (truthy pb) then
    match tab with
    | None => Err TypeError
    | Some t =>
        match nth_error t (Z.to_nat code) with
        | None => Err IndexError
        | Some None => Err TypeError
        | Some (Some x) => Ok (nb, tab, Some x, x)
        end
    end
  else
    match tab, pb with
    | Some t, Some p =>
        let len := Z.of_nat (length t) in
        if code <? len then
          match nth_error t (Z.to_nat code) with
          | Some (Some x) =>
              Ok (next_nbits (len + 1) nb, Some (t ++ [Some (p ++ firstn 1 x)]), Some x, x)
          | _ => Err TypeError
          end
        else if code =? len then
          let x := p ++ firstn 1 p in
          Ok (next_nbits (len + 1) nb, Some (t ++ [Some x]), Some x, x)
        else Err CorruptDataError
    | _, _ => Err TypeError
    end.

(* utils/lzw.py:80-94 run, joined by line 101.  The statement at 92-93 evaluates self.table[258:] after
   each yield: TypeError while the table is still None.  Each code needs at least one more byte of fp, so
   the length of the data is enough fuel. *)
Fixpoint lzw_run (fuel : nat) (s : lzw) (out : list Z) : res (list Z) :=
  match readbits (fp s) (buff s) (bpos s) 0 (nbits s) with
  | None => Ok out
  | Some (code, (fp', buff', bpos')) =>
      match fuel with
      | O => Err OutOfFuel
      | S f =>
          match feed code (nbits s) (table s) (prevbuf s) with
          | Err CorruptDataError => Ok out
          | Err e => Err e
          | Ok (nb, tab, pb, x) =>
              match tab with
              | None => Err TypeError
              | Some _ => lzw_run f (mkLZW fp' buff' bpos' nb tab pb) (out ++ x)
              end
          end
      end
  end.

(* utils/lzw.py:98-101 *)
Definition lzwdecode (data : list Z) : res (list Z) := lzw_run (length data) (lzw_init data) [].
