(* Where a PDF file says its characters stand: Place_Spec for the pages of a file (Extract_Spec), with the fonts of the page as their
   dictionaries describe them (Measure_Spec).  Independent of the code. *)
From Coq Require Import String.
From Verif Require Import Base Obj Stream_Spec Page_Spec Num Interp_Model CMap_Model Interp_Spec Convert_Spec State_Spec Place_Spec Total_Spec Extract_Spec Measure_Spec.
(* of the models only types *)
From Coq Require Import Qcanon.
Open Scope Z_scope.
Import ListNotations.

(* a point of the sheet on the page, whose origin is its lower left corner, after k quarter turns clockwise *)
Definition on_page (k : Z) (x0 y0 x1 y1 : num) (p : num * num) : num * num :=
  let (x, y) := p in
  if k =? 1 then (y - y0, x1 - x)%Qc else if k =? 2 then (x1 - x, y1 - y)%Qc else if k =? 3 then (y1 - y, x - x0)%Qc else (x - x0, y - y0)%Qc.
Section placed.
  Context (zlib : list Z -> option (list Z)) (ccitt : list Z -> obj -> res (list Z)).
  Context (glyphs : list Z -> option (list Z)) (bases : list umap) (metrics : list Z -> option (list (obj * obj) * list (list Z * num)))
          (load_cmap : list Z -> option (bool * list (Z * trie))) (load_umap : list Z -> bool -> option umap).
  Context (getobj : Z -> option obj).
  (* a character: its text and its box; the characters of a page by text object and string *)
  Definition placed_page : Type := (num * num) * list (list (list shown_char)).
  (* PagePlaced lenient path (size, out): on the page with the attributes along this path, of this size, the characters out are shown *)
  Definition PagePlaced (lenient : bool) (path : list (list (obj * obj))) (p : placed_page) : Prop :=
    exists mb x0 y0 x1 y1 r k res d fs fonts c objs,
      Page_Spec.Value getobj path (bs "MediaBox") ONull (OArr mb) /\ Forall2 N_ mb [x0; y0; x1; y1] /\ fst p = (x1 - x0, y1 - y0)%Qc /\
      Page_Spec.Value getobj path (bs "Rotate") (OInt 0) (OInt r) /\ r mod 360 = 90 * k /\
      Page_Spec.Value getobj path (bs "Resources") (ODict []) res /\ Leads getobj ONull res (ODict d) /\ category getobj d "Font" fs /\
      (forall n f, fonts n = Some f -> exists x, dict_get fs (OName n) = Some x /\
         FontMeasured getobj glyphs bases metrics load_cmap load_umap (Data zlib ccitt) x f) /\
      Page_Spec.Value getobj path (bs "Contents") (OArr []) c /\ Tokens zlib ccitt getobj (match c with OArr l => l | o => [o] end) objs /\
      Places lenient fonts (on_page k x0 y0 x1 y1) [] par0 [] None objs (snd p).
  (* FilePlaced: the chosen pages of the file show these texts, with the characters where they are said to be *)
  Definition FilePlaced (decode : list (obj * obj) -> list Z -> res (list Z)) (file : list Z) (pagenos : list Z) (maxpages : Z) (lenient : bool)
    (pages : list (list (list Z) * placed_page)) : Prop :=
    exists t chosen, FileHas getobj decode file t /\ Chosen pagenos maxpages (leaves [] t) chosen /\ chosen <> [] /\
      Forall2 (fun lp q => PageShows zlib ccitt glyphs bases metrics load_cmap load_umap getobj lenient (snd lp) (fst q) /\ PagePlaced lenient (snd lp) (snd q)) chosen pages.
End placed.
