(* What a stream's filters mean (ISO 32000-1, 7.3.8.2 and 7.4), references, and decryption of objects. *)
From Coq Require Import String.
From Verif Require Import Base A85_Spec LZW_Spec PNG_Spec Obj.

(* the filters a stream declares, with the parameters of each (an empty dictionary if there are none) *)
Inductive Declared (attrs : list (obj * obj)) : list (list Z * obj) -> Prop :=
| D_none : dget attrs "F" = None -> dget attrs "Filter" = None -> Declared attrs []
| D_one : forall f, dget attrs "F" = None -> dget attrs "Filter" = Some (OName f) ->
    dget attrs "DP" = None -> dget attrs "DecodeParms" = None -> dget attrs "FDecodeParms" = None ->
    Declared attrs [(f, ODict [])]
| D_one_parms : forall f p, dget attrs "F" = None -> dget attrs "Filter" = Some (OName f) ->
    dget attrs "DP" = None -> dget attrs "DecodeParms" = Some (ODict p) -> Declared attrs [(f, ODict p)]
| D_array : forall fs, dget attrs "F" = None -> dget attrs "Filter" = Some (OArr (map OName fs)) ->
    dget attrs "DP" = None -> dget attrs "DecodeParms" = None -> dget attrs "FDecodeParms" = None ->
    Declared attrs (map (fun f => (f, ODict [])) fs)
| D_array_parms : forall fps, dget attrs "F" = None -> dget attrs "Filter" = Some (OArr (map (fun fp => OName (fst fp)) fps)) ->
    dget attrs "DP" = None -> dget attrs "DecodeParms" = Some (OArr (map snd fps)) -> Declared attrs fps
| D_inline : forall fps, dget attrs "F" = Some (OArr (map (fun fp => OName (fst fp)) fps)) ->
    dget attrs "DP" = Some (OArr (map snd fps)) -> Declared attrs fps.

Section codes.
  Context (zlib : list Z -> option (list Z)) (ccitt : list Z -> obj -> res (list Z)).
  (* Codes f params plain coded: coded is plain encoded for the filter f *)
  Inductive Codes : list Z -> obj -> list Z -> list Z -> Prop :=
  | C_flate : forall f p plain coded, In f [bs "FlateDecode"; bs "Fl"] -> zlib coded = Some plain -> Codes f p plain coded
  | C_lzw : forall f p plain cs, In f [bs "LZWDecode"; bs "LZW"] -> bytes plain -> LzwSeq [] None plain cs ->
      Codes f p plain (pack (write_codes 0 (256 :: cs)))
  | C_a85 : forall f p plain e e' tail, In f [bs "ASCII85Decode"; bs "A85"] -> bytes plain -> A85 plain e ->
      spread a85_ignorable e e' -> Codes f p plain (e' ++ 126 :: tail)
  | C_ahex : forall f p plain e t, In f [bs "ASCIIHexDecode"; bs "AHx"] -> HexPairText plain e ->
      Forall (fun c => white c \/ c = 62) t -> Codes f p plain (e ++ t)
  | C_rl : forall f p rs, In f [bs "RunLengthDecode"; bs "RL"] -> Forall run_ok rs ->
      Codes f p (flat_map run_mean rs) (flat_map run_write rs)
  | C_rl_eod : forall f p rs tail, In f [bs "RunLengthDecode"; bs "RL"] -> Forall run_ok rs ->
      Codes f p (flat_map run_mean rs) (flat_map run_write rs ++ 128 :: tail)
  | C_ccitt : forall f p plain coded, In f [bs "CCITTFaxDecode"; bs "CCF"] -> ccitt coded p = Ok plain -> Codes f p plain coded
  | C_dct : forall f p d, In f [bs "DCTDecode"; bs "DCT"] -> Codes f p d d.

  (* Predicted params plain coded: the predictor the parameters ask for *)
  Inductive Predicted : obj -> list Z -> list Z -> Prop :=
  | P_null : forall d, Predicted ONull d d
  | P_absent : forall ps d, dget ps "Predictor" = None -> Predicted (ODict ps) d d
  | P_one : forall ps d, dget ps "Predictor" = Some (OInt 1) -> Predicted (ODict ps) d d
  | P_png : forall ps pred colors columns img, dget ps "Predictor" = Some (OInt pred) -> 10 <= pred ->
      (dget ps "Colors" = Some (OInt (Z.of_nat colors)) \/ dget ps "Colors" = None /\ colors = 1%nat) ->
      (dget ps "Columns" = Some (OInt (Z.of_nat columns)) \/ dget ps "Columns" = None /\ columns = 1%nat) ->
      (dget ps "BitsPerComponent" = Some (OInt 8) \/ dget ps "BitsPerComponent" = None) ->
      image_ok colors columns img -> all_supported colors true img ->
      Predicted (ODict ps) (concat (map snd img)) (png_encode colors columns img).

  (* Encoded chain plain raw: plain encoded by the last filter of the chain, ..., finally by the first, gives raw *)
  Inductive Encoded : list (list Z * obj) -> list Z -> list Z -> Prop :=
  | E_nil : forall d, Encoded [] d d
  | E_cons : forall f p r plain mid pmid raw, Encoded r plain mid -> Predicted p mid pmid -> Codes f p pmid raw ->
      Encoded ((f, p) :: r) plain raw.
End codes.

(* following references: Leads o v when the chain of references starting at o ends with v, which is not a reference *)
Section refs.
  Context (getobj : Z -> option obj) (default : obj).
  Inductive Leads : obj -> obj -> Prop :=
  | Leads_stop : forall o, (forall i, o <> ORef i) -> Leads o o
  | Leads_ref : forall i o v, getobj i = Some o -> Leads o v -> Leads (ORef i) v
  | Leads_missing : forall i v, getobj i = None -> Leads default v -> Leads (ORef i) v.
  (* the fully resolved form of an object with no dictionary in it *)
  Inductive Resolved : obj -> obj -> Prop :=
  | R_arr : forall o l l', Leads o (OArr l) -> ResolvedL l l' -> Resolved o (OArr l')
  | R_other : forall o v, Leads o v -> (forall l, v <> OArr l) -> (forall d, v <> ODict d) -> Resolved o v
  with ResolvedL : list obj -> list obj -> Prop :=
  | RL_nil : ResolvedL [] []
  | RL_cons : forall x y l l', Resolved x y -> ResolvedL l l' -> ResolvedL (x :: l) (y :: l').
End refs.
Scheme Resolved_mut := Induction for Resolved Sort Prop with ResolvedL_mut := Induction for ResolvedL Sort Prop.
Combined Scheme Resolved_ind2 from Resolved_mut, ResolvedL_mut.
Inductive NoRef : obj -> Prop :=
| NR_arr : forall l, Forall NoRef l -> NoRef (OArr l)
| NR_other : forall o, (forall l, o <> OArr l) -> (forall i, o <> ORef i) -> NoRef o.

(* Deciphered f o o': o' is o with every string s replaced by f s: in arrays and dictionary values, at any depth;
   nothing else changes (a stream deciphers its own data when it is read) *)
Inductive Deciphered (f : list Z -> list Z) : obj -> obj -> Prop :=
| Dc_str : forall s, Deciphered f (OStr s) (OStr (f s))
| Dc_arr : forall l l', Forall2 (Deciphered f) l l' -> Deciphered f (OArr l) (OArr l')
| Dc_dict : forall d d', Forall2 (fun a b => fst a = fst b /\ Deciphered f (snd a) (snd b)) d d' -> Deciphered f (ODict d) (ODict d')
| Dc_same : forall o, (forall s, o <> OStr s) -> (forall l, o <> OArr l) -> (forall d, o <> ODict d) -> Deciphered f o o.
