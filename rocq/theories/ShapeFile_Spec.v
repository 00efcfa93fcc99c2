(* What the pages of a PDF file draw besides text, and where: Shape_Spec for the pages of a file (Extract_Spec), with the images among
   the resources of the page.  Independent of the code. *)
From Coq Require Import String.
From Verif Require Import Base Obj Stream_Spec Page_Spec Num Interp_Model CMap_Model Interp_Spec Convert_Spec State_Spec Total_Spec Extract_Spec PlaceFile_Spec Shape_Spec.
(* of the models only types *)
From Coq Require Import Qcanon.
Open Scope Z_scope.
Import ListNotations.

Section drawn.
  Context (zlib : list Z -> option (list Z)) (ccitt : list Z -> obj -> res (list Z)).
  Context (glyphs : list Z -> option (list Z)) (bases : list umap) (metrics : list Z -> option (list (obj * obj) * list (list Z * num)))
          (load_cmap : list Z -> option (bool * list (Z * trie))) (load_umap : list Z -> bool -> option umap).
  Context (getobj : Z -> option obj).
  (* an image among the external objects: a stream with the subtype Image, a width and a height *)
  Definition ImageOf (xs : list (obj * obj)) (n : list Z) (st : obj) : Prop :=
    exists x a data w h, dict_get xs (OName n) = Some x /\ Leads getobj ONull x st /\ st = OStream a data /\
      dict_get a (ON "Subtype") = Some (ON "Image") /\ dict_get a (ON "Width") = Some w /\ dict_get a (ON "Height") = Some h.
  Definition OtherIn (xs : list (obj * obj)) (n : list Z) : Prop :=
    exists x a data, dict_get xs (OName n) = Some x /\ Leads getobj ONull x (OStream a data) /\ dict_get a (ON "Subtype") <> Some (ON "Image").
  Definition device_names : list string := ["DeviceGray"; "DeviceRGB"; "DeviceCMYK"]%string.
  (* a drawing: how the user space lies on the page, and what is drawn *)
  Definition drawing : Type := (num * num -> num * num) * list drawn.
  (* PageDrawn path (base, out): the page with the attributes along this path draws out; its resources do not redefine the device
     colour spaces; at the start no line width and no colours are set *)
  Definition PageDrawn (path : list (list (obj * obj))) (q : drawing) : Prop :=
    exists mb x0 y0 x1 y1 r k res d xs cs (images : list Z -> option obj) (others : list Z -> Prop) c objs,
      Page_Spec.Value getobj path (bs "MediaBox") ONull (OArr mb) /\ Forall2 N_ mb [x0; y0; x1; y1] /\
      Page_Spec.Value getobj path (bs "Rotate") (OInt 0) (OInt r) /\ r mod 360 = 90 * k /\ fst q = on_page k x0 y0 x1 y1 /\
      Page_Spec.Value getobj path (bs "Resources") (ODict []) res /\ Leads getobj ONull res (ODict d) /\
      category getobj d "XObject" xs /\ (forall n st, images n = Some st -> ImageOf xs n st) /\ (forall n, others n -> OtherIn xs n) /\
      category getobj d "ColorSpace" cs /\ (forall n, In n device_names -> dict_get cs (ON n) = None) /\
      Page_Spec.Value getobj path (bs "Contents") (OArr []) c /\ Tokens zlib ccitt getobj (match c with OArr l => l | o => [o] end) objs /\
      Shapes (fst q) images others [] pen0 [] [] objs (snd q).
  (* FileDrawn: the chosen pages of the file show these texts and draw these shapes *)
  Definition FileDrawn (decode : list (obj * obj) -> list Z -> res (list Z)) (file : list Z) (pagenos : list Z) (maxpages : Z) (lenient : bool)
    (pages : list (list (list Z) * drawing)) : Prop :=
    exists t chosen, FileHas getobj decode file t /\ Chosen pagenos maxpages (leaves [] t) chosen /\ chosen <> [] /\
      Forall2 (fun lp q => PageShows zlib ccitt glyphs bases metrics load_cmap load_umap getobj lenient (snd lp) (fst q) /\ PageDrawn (snd lp) (snd q)) chosen pages.
End drawn.
