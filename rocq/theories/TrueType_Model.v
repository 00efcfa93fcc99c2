(* Model of pdfmajor/interpreter/commands/state/PDFTextState/PDFFont/TrueTypeFont.py: the table directory of an embedded TrueType
   program and create_unicode_map. *)
From Coq Require Import String.
From Verif Require Import Base Obj Stack_Model PNG_Model Num Interp_Model CMap_Model.
Open Scope Z_scope.

(* fp.read(n) at position pos, unpacked as n/size unsigned big-endian numbers of size bytes: struct.error if bytes are missing *)
Fixpoint fields (size n : nat) (s : list Z) : list Z :=
  match n with O => [] | S k => be_val (firstn size s) :: fields size k (skipn size s) end.
Definition unpack (data : list Z) (pos : Z) (size n : nat) : res (list Z) :=
  let s := firstn (size * n) (skipn (Z.to_nat pos) data) in
  if Nat.eqb (length s) (size * n) then Ok (fields size n s) else Err StructError.
(* the format h: two bytes with sign *)
Definition signed16 (v : Z) : Z := if v <? 32768 then v else v - 65536.

(* 8-23 __init__: fonttype is bytes 0-3, the number of tables bytes 4-5 of the 8 bytes that follow, then entries of 16 bytes: name,
   checksum, offset, length.  A struct.error ends the reading and keeps the entries read so far.  The keys of the dictionary are
   bytes (OStr). *)
Fixpoint ttf_entries (n : nat) (s : list Z) (acc : list (obj * (Z * Z))) : list (obj * (Z * Z)) :=
  match n with
  | O => acc
  | S k => if (length (firstn 16 s) <? 16)%nat then acc
           else ttf_entries k (skipn 16 s) (assoc_set acc (OStr (firstn 4 s)) (be_val (firstn 4 (skipn 8 s)), be_val (firstn 4 (skipn 12 s))))
  end.
Definition ttf_tables (data : list Z) : list (obj * (Z * Z)) :=
  let s := skipn 4 data in
  if (length (firstn 8 s) <? 8)%nat then [] else ttf_entries (Z.to_nat (be_val (firstn 2 s))) (skipn 8 s) [].

(* char2gid: a dictionary; the last assignment wins, the order is that of the first one *)
Definition gids := list (Z * Z).
Fixpoint gset (m : gids) (c g : Z) : gids :=
  match m with [] => [(c, g)] | (c', g') :: r => if c' =? c then (c, g) :: r else (c', g') :: gset r c g end.
(* 38-39 char2gid.update(enumerate(...)) *)
Fixpoint gset_list (m : gids) (c : Z) (l : list Z) : gids := match l with [] => m | g :: r => gset_list (gset m c g) (c + 1) r end.
(* 40-57 format 2.  gid is a tuple, and gid += delta raises TypeError; so only subheaders without entries pass *)
Definition format2 (data : list Z) (pos : Z) (m : gids) : res gids :=
  do keys <- unpack data pos 2 256;
  let n := Z.to_nat (fold_left Z.max keys 0 / 8 + 1) in
  do hs <- unpack data (pos + 512) 2 (4 * n);
  (fix go (i : nat) (hs : list Z) : res gids :=
     match hs with
     | _ :: entcount :: _ :: offset :: r =>
         if entcount =? 0 then go (S i) r
         else do _ <- unpack data (pos + 512 + 8 * Z.of_nat i + 6 + offset) 2 1; Err TypeError
     | _ => Ok m
     end) O hs.
(* 67-75 one segment of format 4: the codes sc .. ec *)
Fixpoint seg_delta (m : gids) (c : Z) (n : nat) (idd : Z) : gids :=
  match n with O => m | S k => seg_delta (gset m c (Z.land (c + idd) 65535)) (c + 1) k idd end.
Fixpoint seg_array (data : list Z) (pos : Z) (m : gids) (c : Z) (n : nat) (idd : Z) : res gids :=
  match n with
  | O => Ok m
  | S k => do v <- unpack data pos 2 1; match v with [g] => seg_array data (pos + 2) (gset m c (Z.land (g + idd) 65535)) (c + 1) k idd | _ => Err StructError end
  end.
Fixpoint format4_segs (data : list Z) (pos : Z) (m : gids) (ecs scs idds idrs : list Z) : res gids :=
  match ecs, scs, idds, idrs with
  | ec :: ecs', sc :: scs', idd :: idds', idr :: idrs' =>
      let n := Z.to_nat (ec + 1 - sc) in
      do m1 <- (if idr =? 0 then Ok (seg_delta m sc n (signed16 idd)) else seg_array data (pos + idr) m sc n (signed16 idd));
      format4_segs data pos m1 ecs' scs' idds' idrs'
  | _, _, _, _ => Ok m
  end.
(* 58-75 format 4 *)
Definition format4 (data : list Z) (pos : Z) (m : gids) : res gids :=
  do h <- unpack data pos 2 4;
  let k := Z.to_nat (match h with sc :: _ => sc / 2 | [] => 0 end) in
  let w := 2 * Z.of_nat k in
  do ecs <- unpack data (pos + 8) 2 k;
  do scs <- unpack data (pos + 8 + w + 2) 2 k;
  do idds <- unpack data (pos + 8 + 2 * w + 2) 2 k;
  do idrs <- unpack data (pos + 8 + 3 * w + 2) 2 k;
  format4_segs data (pos + 8 + 3 * w + 2) m ecs scs idds idrs.
(* 35-77 one subtable *)
Definition subtable (data : list Z) (pos : Z) (m : gids) : res gids :=
  do h <- unpack data pos 2 3;
  match h with
  | f :: _ => if f =? 0 then do l <- unpack data (pos + 6) 1 256; Ok (gset_list m 0 l)
              else if f =? 2 then format2 data (pos + 6) m
              else if f =? 4 then format4 data (pos + 6) m
              else Err AssertionError
  | [] => Err StructError
  end.
(* 31-32 the list of subtables: platform, encoding, offset *)
Fixpoint subtables (data : list Z) (pos : Z) (n : nat) : res (list Z) :=
  match n with
  | O => Ok []
  | S k => do _ <- unpack data pos 2 2; do o <- unpack data (pos + 4) 4 1; do r <- subtables data (pos + 8) k; Ok (o ++ r)
  end.
(* 25-83 create_unicode_map.  The key of the lookup is the str 'cmap' (in this model, as everywhere, a str is an OName). *)
Definition create_unicode_map (data : list Z) : res umap :=
  match assoc_get (ttf_tables data) (ON "cmap") with
  | None => Err CMapNotFound
  | Some (base, _) =>
      do h <- unpack data base 2 2;
      do offs <- subtables data (base + 4) (Z.to_nat (match h with [_; n] => n | _ => 0 end));
      do m <- fold_m (fun m o => subtable data (base + o) m) [] offs;
      fold_m (fun u cg => add_cid2unichr (fun _ => None) u (snd cg) (OInt (fst cg))) [] m
  end.
