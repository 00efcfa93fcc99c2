(* Model of pdfmajor/utils/ascii85.py: ascii85decode and asciihexdecode. *)
From Verif Require Import Base.

(* struct.pack('>L', b): big-endian 32-bit; struct.error outside 0..2^32-1. *)
Definition pack_L (b : Z) : res (list Z) :=
  if (0 <=? b) && (b <? 2 ^ 32)
  then Ok [b / 2 ^ 24; (b / 2 ^ 16) mod 256; (b / 2 ^ 8) mod 256; b mod 256]
  else Err StructError.

(* utils/ascii85.py:41-42, the loop  for _ in range(5-n): b = b*85+84 *)
Fixpoint a85_pad (k : nat) (b : Z) : Z :=
  match k with O => b | S k' => a85_pad k' (b * 85 + 84) end.

(* utils/ascii85.py:28-45, the loop over the bytes, with its variables n, b, out. *)
Fixpoint a85_go (data : list Z) (n : nat) (b : Z) (out : list Z) : res (list Z) :=
  match data with
  | [] => Ok out
  | c :: rest =>
      if (33 <=? c) && (c <=? 117) then
        let n' := S n in
        let b' := b * 85 + (c - 33) in
        if Nat.eqb n' 5 then
          do w <- pack_L b'; a85_go rest 0 0 (out ++ w)
        else a85_go rest n' b' out
      else if c =? 122 then
        if Nat.eqb n 0 then a85_go rest n b (out ++ [0; 0; 0; 0]) else Err AssertionError
      else if c =? 126 then
        if Nat.eqb n 0 then Ok out
        else do w <- pack_L (a85_pad (5 - n) b); Ok (out ++ firstn (n - 1) w)
      else a85_go rest n b out
  end.

(* utils/ascii85.py:15-45 *)
Definition ascii85decode (data : list Z) : res (list Z) := a85_go data 0 0 [].

(* utils/ascii85.py:48,67-68  hex_re.findall: leftmost non-overlapping adjacent digit pairs,
   each decoded with int(x,16). *)
Fixpoint hex_pairs (data : list Z) : list Z :=
  match data with
  | [] => []
  | a :: rest =>
      match rest with
      | b :: rest' =>
          if is_hex a && is_hex b then (16 * hexval a + hexval b) :: hex_pairs rest'
          else hex_pairs rest
      | [] => []
      end
  end.

(* the sub-pattern (?:[a-f\d]{2}|\s)* matched against the whole of data (it is deterministic:
   a digit must start a pair, a blank stands alone) *)
Fixpoint pairs_or_space (data : list Z) : bool :=
  match data with
  | [] => true
  | a :: rest =>
      if is_space a then pairs_or_space rest
      else match rest with
           | b :: rest' => is_hex a && is_hex b && pairs_or_space rest'
           | [] => false
           end
  end.

(* the sub-pattern [\s>]*$ anchored at the end: dropping the longest suffix of blanks and '>' *)
Fixpoint drop_tail_rev (r : list Z) : list Z :=
  match r with
  | c :: r' => if is_space c || (c =? 62) then drop_tail_rev r' else r
  | [] => []
  end.

(* utils/ascii85.py:49,70-72  trail_re.search(data).group(1): the group is necessarily the last
   byte that is neither blank nor '>'; it must be a digit and what precedes it must match
   (?:[a-f\d]{2}|\s)*. *)
Definition trail_digit (data : list Z) : option Z :=
  match drop_tail_rev (rev data) with
  | c :: pre => if is_hex c && pairs_or_space (rev pre) then Some c else None
  | [] => None
  end.

(* utils/ascii85.py:52-73 *)
Definition asciihexdecode (data : list Z) : list Z :=
  hex_pairs data ++
  match trail_digit data with Some c => [16 * hexval c] | None => [] end.

(* parser/PDFStream/util.py:129-137: the while loop of rldecode; the index i is represented by the
   remaining suffix data[i:].  data[j] / data[i+1] out of range raises IndexError. *)
Fixpoint rl_go (fuel : nat) (data out : list Z) : res (list Z) :=
  match data with
  | [] => Ok out
  | len :: rest =>
      match fuel with
      | O => Err OutOfFuel
      | S f =>
          if len =? 128 then Ok out
          else if (0 <=? len) && (len <? 128) then
            let k := Z.to_nat (len + 1) in
            if Nat.ltb (length rest) k then Err IndexError
            else rl_go f (skipn k rest) (out ++ firstn k rest)
          else
            match rest with
            | [] => Err IndexError
            | b :: rest' => rl_go f rest' (out ++ repeat b (Z.to_nat (257 - len)))
            end
      end
  end.

(* parser/PDFStream/util.py:108-137.  The fuel never runs out (rldecode_no_fuel). *)
Definition rldecode (data : list Z) : res (list Z) := rl_go (length data) data [].
