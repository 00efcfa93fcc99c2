(* The character map of a TrueType program (OpenType specification, table directory and table cmap, formats 0 and 4): the glyph of each
   character code.  Independent of the code: bytes are looked up by their position in the file. *)
From Coq Require Import String.
From Verif Require Import Base.
Open Scope Z_scope.

Section program.
  Context (p : list Z).
  Definition byte_at (i : Z) : Z := nth (Z.to_nat i) p 0.
  Definition u16 (i : Z) : Z := byte_at i * 256 + byte_at (i + 1).
  Definition u32 (i : Z) : Z := u16 i * 65536 + u16 (i + 2).
  (* the table called tag begins at off: one of the entries of the directory says so *)
  Definition TableAt (tag : string) (off : Z) : Prop :=
    exists k, 0 <= k < u16 4 /\ map byte_at [12 + 16 * k; 13 + 16 * k; 14 + 16 * k; 15 + 16 * k] = bs tag /\ off = u32 (20 + 16 * k).
  (* a subtable of the map begins at pos *)
  Definition SubtableAt (pos : Z) : Prop := exists off i, TableAt "cmap" off /\ 0 <= i < u16 (off + 2) /\ pos = off + u32 (off + 8 + 8 * i).
  (* the glyph of the code c *)
  Definition Glyph (c g : Z) : Prop := exists pos, SubtableAt pos /\
    (u16 pos = 0 /\ 0 <= c < 256 /\ g = byte_at (pos + 6 + c) \/
     u16 pos = 4 /\ exists n i, u16 (pos + 6) = 2 * n /\ 0 <= i < n /\
       let fin := u16 (pos + 14 + 2 * i) in let start := u16 (pos + 16 + 2 * n + 2 * i) in
       let delta := u16 (pos + 16 + 4 * n + 2 * i) in let at_range := pos + 16 + 6 * n + 2 * i in
       start <= c <= fin /\ (u16 at_range = 0 /\ g = (c + delta) mod 65536 \/
                             u16 at_range <> 0 /\ g = (u16 (at_range + u16 at_range + 2 * (c - start)) + delta) mod 65536)).
End program.
