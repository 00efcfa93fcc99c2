(* What a PDF file says its text is: from the bytes of the file over its objects, page tree, fonts and page contents to the
   characters shown, independent of the code. *)
From Coq Require Import String.
From Verif Require Import Base Lex_Model Lex_Spec Obj Stack_Spec Content_Spec Stream_Spec XRef_Spec Doc_Spec Page_Spec Num CMap_Model CMap_Spec Convert_Spec
  Open_Spec Fallback_Spec Sections_Spec Total_Spec Instr_Spec Multi_Spec FontTotal_Spec.
(* of the models only types *)
Open Scope Z_scope.
Import ListNotations.

(* ---------- the objects of a file ---------- *)
Section file.
  Context (decode : list (obj * obj) -> list Z -> res (list Z)).      (* the data of an object stream after its filters *)
  Context (file : list Z) (getobj : Z -> option obj).
  (* HasObjects trailers: the file has the objects that getobj says, and these trailers, the newest first; the objects are where
     the cross-reference tables and streams say (Sections_Spec), or, if they do not have them or there are none, where they are found *)
  Inductive HasObjects : list (list (obj * obj)) -> Prop :=
  | HO_listed : forall start revs hits d, StartXRef file start -> Sections decode file start revs -> Forall (fun r => Disjoint (fst r)) revs ->
      Fallback_Spec.Contents decode 0 file hits d ->
      (forall id, id <> 0 -> match getobj id with Some o => Object decode (Scanned file hits) revs hits id o | None => Unlisted revs id /\ NoHit hits id end) ->
      HasObjects (map snd revs ++ [d])
  | HO_found : forall hits d, (forall a b, file <> a ++ bs "startxref" ++ b) -> Fallback_Spec.Contents decode 0 file hits d ->
      (forall id, id <> 0 -> match getobj id with Some o => Recovered decode hits id o | None => NoHit hits id end) ->
      HasObjects [d].
  Definition lookup (id : Z) (r : res obj) : Prop := id <> 0 /\ r = match getobj id with Some o => Ok o | None => Err PDFObjectNotFound end.
End file.

(* ---------- the pages ---------- *)
Section pages.
  Context (zlib : list Z -> option (list Z)) (ccitt : list Z -> obj -> res (list Z)).      (* the filters that are not modelled *)
  Context (glyphs : list Z -> option (list Z)) (bases : list umap) (metrics : list Z -> option (list (obj * obj) * list (list Z * num)))
          (load_cmap : list Z -> option (bool * list (Z * trie))) (load_umap : list Z -> bool -> option umap).
  Context (getobj : Z -> option obj).
  (* the data of a stream: what its filters, in this order, make of what stands in the file *)
  Definition Data (o : obj) (text : list Z) : Prop :=
    exists attrs raw chain, o = OStream attrs raw /\ Declared attrs chain /\ Encoded zlib ccitt chain text raw.
  (* the objects in the content streams of a page *)
  Definition Tokens (streams os : list obj) : Prop :=
    exists texts, streams <> [] /\ Forall2 (fun o t => exists s, Leads getobj ONull o s /\ Data s t) streams texts /\ PageContent os [] texts.
  Definition Draws := Draws getobj (FontAt getobj glyphs bases metrics load_cmap load_umap Data) Tokens.
  (* PageShows lenient path ts: the page with the attributes along this path to the root of the page tree shows characters with the
     texts ts; lenient: characters whose text is not known are passed over *)
  Definition PageShows (lenient : bool) (path : list (list (obj * obj))) (ts : list (list Z)) : Prop :=
    exists k mb r c, Page_Spec.Value getobj path (bs "MediaBox") ONull (OArr mb) /\ numbers 4 mb /\ Page_Spec.Value getobj path (bs "Resources") (ODict []) r /\
      Page_Spec.Value getobj path (bs "Contents") (OArr []) c /\ Draws k lenient r (match c with OArr l => l | o => [o] end) ts.
  Definition numbered {A} (l : list A) : list (Z * A) := combine (map Z.of_nat (seq 0 (length l))) l.
  (* the pages asked for: those with these numbers (all if none is given), or at most so many *)
  Definition Chosen {A} (pagenos : list Z) (maxpages : Z) (l l' : list A) : Prop :=
    (maxpages = 0 /\ l' = map snd (filter (fun np => match pagenos with [] => true | _ => existsb (Z.eqb (fst np)) pagenos end) (numbered l))) \/
    (pagenos = [] /\ 0 < maxpages /\ l' = firstn (Z.to_nat maxpages) l).

  (* FileHas: the file, not encrypted, is a document with this tree of pages *)
  Definition FileHas (decode : list (obj * obj) -> list Z -> res (list Z)) (file : list Z) (t : ptree) : Prop :=
    exists trailers catalog info, getobj 0 = None /\ HasObjects decode file getobj trailers /\ Plain (lookup getobj) trailers catalog info /\
      dget catalog "Pages" = Some (ORef (id_of t)) /\ (forall k, Inheritable k = true -> dict_get catalog (OName k) = None) /\ Stored getobj t /\
      Forall (fun lp => attr (snd lp) (bs "MediaBox") <> None /\ (forall k o, attr (snd lp) k = Some o -> exists v, Leads getobj ONull o v)) (leaves [] t).
  (* FileShows: its chosen pages show these texts *)
  Definition FileShows (decode : list (obj * obj) -> list Z -> res (list Z)) (file : list Z) (pagenos : list Z) (maxpages : Z) (lenient : bool)
    (texts : list (list (list Z))) : Prop :=
    exists t chosen, FileHas decode file t /\ Chosen pagenos maxpages (leaves [] t) chosen /\ chosen <> [] /\
      Forall2 (fun lp ts => PageShows lenient (snd lp) ts) chosen texts.
End pages.

(* ---------- the text file ---------- *)
(* from page number n on *)
Inductive DocText : Z -> list (list (list Z)) -> list Z -> Prop :=
| DT_nil : forall n, DocText n [] []
| DT_page : forall n d ts r x, is_decimal d n -> DocText (n + 1) r x -> DocText n (ts :: r) (page_title d ++ concat ts ++ [10] ++ x).
