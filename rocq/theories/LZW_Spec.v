(* Specification of LZW encoding as in PDF Reference 3.3.3 / TIFF 6.0: dictionary, code widths with early
   change, bit packing.  Independent of the decoder model. *)
From Verif Require Import Base.

(* n-bit big-endian representation of v *)
Fixpoint to_bits (n : nat) (v : Z) : list bool :=
  match n with
  | O => []
  | S n' => Z.odd (v / 2 ^ Z.of_nat n') :: to_bits n' v
  end.
Definition bits_val (l : list bool) : Z := fold_left (fun a (b : bool) => 2 * a + (if b then 1 else 0)) l 0.

(* pack bits into bytes, most significant first, padding the last byte with 0 *)
Fixpoint pack_bits (fuel : nat) (l : list bool) : list Z :=
  match fuel, l with
  | _, [] => []
  | O, _ => []
  | S f, _ => bits_val (firstn 8 (l ++ repeat false 7)) :: pack_bits f (skipn 8 l)
  end.
Definition pack (l : list bool) : list Z := pack_bits (length l) l.

(* the width of the code written after n codes since the last Clear: the n-th code after a Clear completes
   entry 258+n-2, ... ; early change by one *)
Definition code_width (n : nat) : nat :=
  if Nat.leb (258 + n) 511 then 9
  else if Nat.leb (258 + n) 1023 then 10
  else if Nat.leb (258 + n) 2047 then 11 else 12.

Fixpoint write_codes (n : nat) (codes : list Z) : list bool :=
  match codes with
  | [] => []
  | c :: cs => to_bits (code_width n) c ++ write_codes (if c =? 256 then 0%nat else S n) cs
  end.

(* dictionary: entry i is the string of code 258+i *)
Fixpoint find_index (w : list Z) (d : list (list Z)) (i : Z) : option Z :=
  match d with
  | [] => None
  | x :: r => if list_eqb x w then Some i else find_index w r (i + 1)
  end.
Definition code_of (w : list Z) (d : list (list Z)) : option Z :=
  match w with
  | [] => None
  | [c] => Some c
  | _ => find_index w d 258
  end.

(* the greedy encoder of the TIFF/PDF specification; [full m] says whether to clear the table once it has m
   entries beyond the first 258.  w is the current prefix. *)
Fixpoint lzw_codes (full : nat -> bool) (s w : list Z) (d : list (list Z)) : list Z :=
  match s with
  | [] => match code_of w d with Some c => [c; 257] | None => [257] end
  | k :: s' =>
      match code_of (w ++ [k]) d with
      | Some _ => lzw_codes full s' (w ++ [k]) d
      | None =>
          match code_of w d with
          | Some c =>
              if full (S (length d))
              then c :: 256 :: lzw_codes full s' [k] []
              else c :: lzw_codes full s' [k] (d ++ [w ++ [k]])
          | None => []
          end
      end
  end.

Definition lzw_encode (full : nat -> bool) (s : list Z) : list Z :=
  pack (write_codes 0 (256 :: lzw_codes full s [] [])).

(* 12-bit codes: the table may not outgrow codes 258..4095 *)
Definition clears_in_time (full : nat -> bool) : Prop := forall m, (3838 < m)%nat -> full m = true.

(* any LZW encoder, greedy or not: LzwSeq n d prev s cs -- after n codes since the last Clear, with
   dictionary d and previous string prev, the codes cs mean s and end with EOD *)
Inductive LzwSeq : list (list Z) -> option (list Z) -> list Z -> list Z -> Prop :=
| LS_eod d p : LzwSeq d p [] [257]
| LS_clear d p s cs : LzwSeq [] None s cs -> LzwSeq d p s (256 :: cs)
| LS_first c s cs : LzwSeq [] (Some [c]) s cs -> LzwSeq [] None (c :: s) (c :: cs)
| LS_code d p w s c cs k w' :
    w = k :: w' ->
    code_of w (d ++ [p ++ [k]]) = Some c -> c <= 4095 ->
    LzwSeq (d ++ [p ++ [k]]) (Some w) s cs ->
    LzwSeq d (Some p) (w ++ s) (c :: cs).
