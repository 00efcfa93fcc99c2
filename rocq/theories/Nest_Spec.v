(* Where the characters of a page and of its forms stand, form by form (PDF Reference 1.7, section 4.9): the matrix of a form maps form space to
   the user space at the place where it is drawn.  Independent of the code. *)
From Coq Require Import String.
From Verif Require Import Base Obj Stream_Spec Page_Spec Num Interp_Model CMap_Model Interp_Spec Convert_Spec State_Spec Place_Spec Total_Spec Extract_Spec Measure_Spec PlaceFile_Spec.
(* of the models only types *)
From Coq Require Import Qcanon.
Open Scope Z_scope.
Import ListNotations.

Definition call_words : list string := ["q"; "Q"; "cm"; "Do"]%string.
(* Calls T S l calls: with the transformations T and those saved by q, the tokens l draw these external objects, each with the transformations
   in force *)
Inductive Calls : list coefs -> list (list coefs) -> list obj -> list (list Z * list coefs) -> Prop :=
| ca_nil T S : Calls T S [] []
| ca_tok T S o l out : ~ among o call_words -> Calls T S l out -> Calls T S (o :: l) out
| ca_cm T S xs a b c d e f l out : Forall2 N_ xs [a; b; c; d; e; f] -> Calls ((a, b, c, d, e, f) :: T) S l out -> Calls T S (xs ++ OK "cm" :: l) out
| ca_q T S l out : Calls T (T :: S) l out -> Calls T S (OK "q" :: l) out
| ca_Q T T1 S l out : Calls T1 S l out -> Calls T (T1 :: S) (OK "Q" :: l) out
| ca_Do T S n l out : Calls T S l out -> Calls T S ([OName n] ++ OK "Do" :: l) ((n, T) :: out).

(* what a content shows: its own text objects, and its forms *)
Inductive tree := Node (texts : list (list (list shown_char))) (forms : list tree).
(* the same in the items of a page *)
Definition form_items (l : list item) : list (list item) := flat_map (fun i => match i with IXObj _ _ k => [k] | _ => [] end) l.
Inductive Holds : list item -> tree -> Prop :=
| holds items texts forms : text_items items = texts -> Forall2 Holds (form_items items) forms -> Holds items (Node texts forms).

Section nested.
  Context (zlib : list Z -> option (list Z)) (ccitt : list Z -> obj -> res (list Z)).
  Context (glyphs : list Z -> option (list Z)) (bases : list umap) (metrics : list Z -> option (list (obj * obj) * list (list Z * num)))
          (load_cmap : list Z -> option (bool * list (Z * trie))) (load_umap : list Z -> bool -> option umap).
  Context (getobj : Z -> option obj).
  (* the matrix of a form *)
  Definition FormMatrix (fd : list (obj * obj)) (F : coefs) : Prop :=
    (dict_get fd (ON "Matrix") = None /\ F = unit_matrix) \/
    (exists m ml a b c d e f, dict_get fd (ON "Matrix") = Some m /\ Leads getobj ONull m (OArr ml) /\ Forall2 N_ ml [a; b; c; d; e; f] /\ F = (a, b, c, d, e, f)).
  Section forms.
    Context (allowed : coefs -> Prop) (xs : list (obj * obj)) (page : obj) (content : obj -> list obj -> list coefs -> tree -> Prop).
    Inductive FormsDrawn : list (list Z * list coefs) -> list tree -> Prop :=
    | fd_nil : FormsDrawn [] []
    | fd_form n T calls x fd data F fr t ts : dict_get xs (OName n) = Some x -> Leads getobj ONull x (OStream fd data) -> dict_get fd (ON "Subtype") = Some (ON "Form") ->
        dict_get fd (ON "BBox") <> None -> FormMatrix fd F -> allowed F -> own_resources getobj page fd fr -> content fr [OStream fd data] (F :: T) t ->
        FormsDrawn calls ts -> FormsDrawn ((n, T) :: calls) (t :: ts)
    | fd_image n T calls x fd data ts : dict_get xs (OName n) = Some x -> Leads getobj ONull x (OStream fd data) -> dict_get fd (ON "Subtype") = Some (ON "Image") ->
        FormsDrawn calls ts -> FormsDrawn ((n, T) :: calls) ts.
  End forms.
  (* Nested k base lenient r streams T t: the content of the streams, with the resources r, in a user space that T and base map to the page, shows t;
     forms are nested at most k deep.  Each form starts with the initial text state: it sets the parameters it uses, and does not depend on
     those of the page (nor on whether undefined characters are skipped: it has none). *)
  Fixpoint Nested (allowed : coefs -> Prop) (k : nat) (base : num * num -> num * num) (lenient : bool) (r : obj) (streams : list obj) (T : list coefs) (t : tree) : Prop :=
    match k with
    | O => False
    | S k => exists texts forms d fs xs fonts objs calls, t = Node texts forms /\
        Leads getobj ONull r (ODict d) /\ named d /\ category getobj d "Font" fs /\ named fs /\ category getobj d "XObject" xs /\ named xs /\
        (forall n f, fonts n = Some f -> exists x, dict_get fs (OName n) = Some x /\ FontMeasured getobj glyphs bases metrics load_cmap load_umap (Data zlib ccitt) x f) /\
        Tokens zlib ccitt getobj streams objs /\
        Places lenient fonts base T par0 [] None objs texts /\ Calls T [] objs calls /\
        FormsDrawn allowed xs r (fun fr st T' t' => Nested allowed k base false fr st T' t') calls forms
    end.
  (* a page: its size and what it shows *)
  Definition nested_page : Type := (num * num) * tree.
  Definition PageNested (allowed : coefs -> Prop) (lenient : bool) (path : list (list (obj * obj))) (p : nested_page) : Prop :=
    exists mb x0 y0 x1 y1 r k res c depth,
      Page_Spec.Value getobj path (bs "MediaBox") ONull (OArr mb) /\ Forall2 N_ mb [x0; y0; x1; y1] /\ fst p = (x1 - x0, y1 - y0)%Qc /\
      Page_Spec.Value getobj path (bs "Rotate") (OInt 0) (OInt r) /\ r mod 360 = 90 * k /\
      Page_Spec.Value getobj path (bs "Resources") (ODict []) res /\ Page_Spec.Value getobj path (bs "Contents") (OArr []) c /\
      Nested allowed depth (on_page k x0 y0 x1 y1) lenient res (match c with OArr l => l | o => [o] end) [] (snd p).
  Definition FileNested (allowed : coefs -> Prop) (decode : list (obj * obj) -> list Z -> res (list Z)) (file : list Z) (pagenos : list Z) (maxpages : Z) (lenient : bool)
    (pages : list (list (list Z) * nested_page)) : Prop :=
    exists t chosen, FileHas getobj decode file t /\ Chosen pagenos maxpages (leaves [] t) chosen /\ chosen <> [] /\
      Forall2 (fun lp q => PageShows zlib ccitt glyphs bases metrics load_cmap load_umap getobj lenient (snd lp) (fst q) /\ PageNested allowed lenient (snd lp) (snd q)) chosen pages.
End nested.
