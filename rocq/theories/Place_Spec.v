(* Where the characters of a page stand (PDF Reference 1.7, sections 4.2, 5.2 and 5.3): the text state, the text line matrix and the
   current transformation followed through the content of a page, independent of the interpreter. *)
From Coq Require Import String.
From Verif Require Import Base Obj Num Geom_Model Interp_Model Interp_Spec State_Spec.   (* of the models only fonts, boxes and the type of numbers *)
From Coq Require Import Qcanon.
Open Scope Z_scope.
Import ListNotations.

(* ---------- boxes ---------- *)
(* the box with these opposite corners *)
Definition rect (p q : num * num) : bbox := mkBox (qmin (fst p) (fst q)) (qmin (snd p) (snd q)) (qmax (fst p) (fst q)) (qmax (snd p) (snd q)).
(* the smallest box around some boxes *)
Definition least (side : bbox -> num) (v : num) (l : list bbox) : Prop := (forall c, In c l -> (v <= side c)%Qc) /\ exists c, In c l /\ v = side c.
Definition greatest (side : bbox -> num) (v : num) (l : list bbox) : Prop := (forall c, In c l -> (side c <= v)%Qc) /\ exists c, In c l /\ v = side c.
Definition Around (b : bbox) (l : list bbox) : Prop := least bx0 (bx0 b) l /\ least by0 (by0 b) l /\ greatest bx1 (bx1 b) l /\ greatest by1 (by1 b) l.
(* a text item: every string shown has the box around its characters, and the item the box around its strings *)
Definition text_boxed (t : textblock) : Prop :=
  (forall cb, In cb (tb_blocks t) -> cb_chars cb <> [] /\ Forall (fun c => bx0 (snd c) <= bx1 (snd c) /\ by0 (snd c) <= by1 (snd c))%Qc (cb_chars cb) /\ Around (cb_box cb) (map snd (cb_chars cb))) /\
  match tb_box t with None => tb_blocks t = [] | Some b => Around b (map cb_box (tb_blocks t)) end.
Inductive boxed : item -> Prop :=
| bx_text t : text_boxed t -> boxed (IText t)
| bx_form s b l : Forall boxed l -> boxed (IXObj s b l)
| bx_curve k w p b c1 c2 e : boxed (ICurve k w p b c1 c2 e)
| bx_image s b : boxed (IImage s b)
| bx_none : boxed INone.

(* ---------- characters ---------- *)
Definition shown_char : Type := list Z * bbox.          (* the text and the box *)
Definition place_words : list string :=
  ["q"; "Q"; "cm"; "Tc"; "Tw"; "Tz"; "TL"; "Tf"; "Tr"; "Ts"; "Td"; "TD"; "Tm"; "T*"; "BT"; "ET"; "TJ"; "Tj"; "'"; """"; "_q"; "_w"; "T_a"]%string.
Section places.
  Context (lenient : bool) (fonts : list Z -> option font) (base : num * num -> num * num).   (* base: from the initial user space to the page *)
  (* the text line matrix, the distance from the start of the line, the strings shown in this text object *)
  Definition open_text : Type := coefs * num * list (list shown_char).
  Definition unit_matrix : coefs := (qz 1, qz 0, qz 0, qz 1, qz 0, qz 0).
  Definition moved (x y : num) (m : coefs) : coefs :=
    let '(a, b, c, d, e, f) := m in (a, b, c, d, a * x + c * y + e, b * x + d * y + f)%Qc.
  (* the box of a glyph x from the start of the line: its corners in glyph space, scaled by size and horizontal scaling, raised *)
  Definition glyph_box (T : list coefs) (M : coefs) (P : tpar) (f : font) (c : Z) (x : num) : bbox :=
    let at_ gx gy := base (through T (act M (x + gx * p_size P * (p_scale P * centi), gy * p_size P + p_rise P)%Qc)) in
    rect (at_ (qz 0) (f_descent f)) (at_ (f_width f c) (f_descent f + f_height f)%Qc).
  Definition word_space (f : font) (P : tpar) : num := if f_multibyte f then qz 0 else p_word P.
  (* Said T M P x l cs x': the codes and adjustments l show the characters cs and end x' from the start of the line *)
  Definition Said (T : list coefs) (M : coefs) (P : tpar) (x : num) (l : list tj) (cs : list shown_char) (x' : num) : Prop :=
    exists f, p_font P = Some f /\ f_vertical f = false /\ p_char P = qz 0 /\ (exists c, In (Chr c) l) /\
      (lenient = true \/ forall c, In (Chr c) l -> f_unichr f c <> None) /\
      let w := spec_places (f_width f) (p_size P) (qz 0) (word_space f P) (p_scale P * centi)%Qc x l in
      cs = map (fun p => (match f_unichr f (fst p) with Some u => u | None => [] end, glyph_box T M P f (fst p) (snd p))) w /\
      x' = (x + spec_total (f_width f) (p_size P) (qz 0) (word_space f P) (p_scale P * centi) l)%Qc.
  Definition codes (P : tpar) (seq : list obj) (l : list tj) : Prop := exists f, p_font P = Some f /\ tj_seq (f_decode f) seq l.
  Definition with_lead (P : tpar) (v : num) : tpar := mkPar (p_char P) (p_word P) (p_scale P) v (p_rise P) (p_size P) (p_font P) (p_mode P).
  (* Places T P S X l out: with the transformations T, the text state P, what q has saved and the text object X that is open, the
     tokens l show, text object by text object and string by string, the characters out *)
  Inductive Places : list coefs -> tpar -> list (list coefs * tpar) -> option open_text -> list obj -> list (list (list shown_char)) -> Prop :=
  | pl_nil T P S : Places T P S None [] []
  | pl_tok T P S X o l out : ~ among o place_words -> Places T P S X l out -> Places T P S X (o :: l) out
  | pl_cm T P S xs a b c d e f l out : Forall2 N_ xs [a; b; c; d; e; f] -> Places ((a, b, c, d, e, f) :: T) P S None l out -> Places T P S None (xs ++ OK "cm" :: l) out
  | pl_q T P S l out : Places T P ((T, P) :: S) None l out -> Places T P S None (OK "q" :: l) out
  | pl_Q T P T1 P1 S l out : Places T1 P1 S None l out -> Places T P ((T1, P1) :: S) None (OK "Q" :: l) out
  | pl_Tc T P S X x v l out : N_ x v -> Places T (mkPar v (p_word P) (p_scale P) (p_lead P) (p_rise P) (p_size P) (p_font P) (p_mode P)) S X l out ->
      Places T P S X (x :: OK "Tc" :: l) out
  | pl_Tw T P S X x v l out : N_ x v -> Places T (mkPar (p_char P) v (p_scale P) (p_lead P) (p_rise P) (p_size P) (p_font P) (p_mode P)) S X l out ->
      Places T P S X (x :: OK "Tw" :: l) out
  | pl_Tz T P S X x v l out : N_ x v -> Places T (mkPar (p_char P) (p_word P) v (p_lead P) (p_rise P) (p_size P) (p_font P) (p_mode P)) S X l out ->
      Places T P S X (x :: OK "Tz" :: l) out
  | pl_TL T P S X x v l out : N_ x v -> Places T (with_lead P v) S X l out -> Places T P S X (x :: OK "TL" :: l) out
  | pl_Ts T P S X x v l out : N_ x v -> Places T (mkPar (p_char P) (p_word P) (p_scale P) (p_lead P) v (p_size P) (p_font P) (p_mode P)) S X l out ->
      Places T P S X (x :: OK "Ts" :: l) out
  | pl_Tr T P S X x l out : (forall k, x <> OKwd k) -> Places T (mkPar (p_char P) (p_word P) (p_scale P) (p_lead P) (p_rise P) (p_size P) (p_font P) x) S X l out ->
      Places T P S X (x :: OK "Tr" :: l) out
  | pl_Tf T P S X n f x v l out : fonts n = Some f -> N_ x v ->
      Places T (mkPar (p_char P) (p_word P) (p_scale P) (p_lead P) (p_rise P) v (Some f) (p_mode P)) S X l out -> Places T P S X (OName n :: x :: OK "Tf" :: l) out
  | pl_BT T P S l out : Places T P S (Some (unit_matrix, qz 0, [])) l out -> Places T P S None (OK "BT" :: l) out
  | pl_ET T P S M x ss l out : Places T P S None l out -> Places T P S (Some (M, x, ss)) (OK "ET" :: l) (ss :: out)
  | pl_Tm T P S M x ss xs a b c d e f l out : Forall2 N_ xs [a; b; c; d; e; f] -> Places T P S (Some ((a, b, c, d, e, f), qz 0, ss)) l out ->
      Places T P S (Some (M, x, ss)) (xs ++ OK "Tm" :: l) out
  | pl_Td T P S M x ss u v a b l out : N_ u a -> N_ v b -> Places T P S (Some (moved a b M, qz 0, ss)) l out -> Places T P S (Some (M, x, ss)) (u :: v :: OK "Td" :: l) out
  | pl_TD T P S M x ss u v a b l out : N_ u a -> N_ v b -> Places T (with_lead P (- b)%Qc) S (Some (moved a b M, qz 0, ss)) l out ->
      Places T P S (Some (M, x, ss)) (u :: v :: OK "TD" :: l) out
  | pl_next T P S M x ss l out : Places T P S (Some (moved (qz 0) (- p_lead P)%Qc M, qz 0, ss)) l out -> Places T P S (Some (M, x, ss)) (OK "T*" :: l) out
  | pl_TJ T P S M x ss seq tjs cs x' l out : codes P seq tjs -> Said T M P x tjs cs x' -> Places T P S (Some (M, x', ss ++ [cs])) l out ->
      Places T P S (Some (M, x, ss)) (OArr seq :: OK "TJ" :: l) out
  | pl_Tj T P S M x ss s tjs cs x' l out : codes P [OStr s] tjs -> Said T M P x tjs cs x' -> Places T P S (Some (M, x', ss ++ [cs])) l out ->
      Places T P S (Some (M, x, ss)) (OStr s :: OK "Tj" :: l) out
  | pl_quote T P S M x ss s tjs cs x' l out : codes P [OStr s] tjs -> let M' := moved (qz 0) (- p_lead P)%Qc M in Said T M' P (qz 0) tjs cs x' ->
      Places T P S (Some (M', x', ss ++ [cs])) l out -> Places T P S (Some (M, x, ss)) (OStr s :: OK "'" :: l) out.
End places.
(* the text state at the start of a page *)
Definition par0 : tpar := mkPar (qz 0) (qz 0) (qz 100) (qz 0) (qz 0) (qz 0) None (OInt 0).
(* the strings of the text items of a page *)
Definition text_items (l : list item) : list (list (list shown_char)) :=
  flat_map (fun i => match i with IText t => [map cb_chars (tb_blocks t)] | _ => [] end) l.
