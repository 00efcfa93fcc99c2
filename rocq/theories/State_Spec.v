(* What the operators of sections 4.3.3 and 5.2 of the PDF Reference do to the parameters they set. *)
From Coq Require Import String.
From Verif Require Import Base Obj Num Geom_Model Interp_Model Interp_Spec.   (* of the models only fonts and the type of numbers *)
From Coq Require Import Qcanon.
Open Scope Z_scope.
Import ListNotations.

(* a transformation given by six numbers, section 4.2.2 *)
Definition coefs : Type := num * num * num * num * num * num.
Definition act (m : coefs) (p : num * num) : num * num :=
  let '(a, b, c, d, e, f) := m in let (x, y) := p in (a * x + c * y + e, b * x + d * y + f)%Qc.
(* from the current user space back to the initial one: the latest transformation first *)
Definition through (l : list coefs) (p : num * num) : num * num := fold_left (fun p m => act m p) l p.

(* the text state parameters, section 5.2 *)
Record tpar := mkPar { p_char : num; p_word : num; p_scale : num; p_lead : num; p_rise : num; p_size : num; p_font : option font; p_mode : obj }.
Definition param_words : list string := ["q"; "Q"; "cm"; "Tc"; "Tw"; "Tz"; "TL"; "Tf"; "Tr"; "Ts"; "TD"; """"; "_w"]%string.
Section params.
  Context (fonts : list Z -> option font).
  (* Params T P saved l T' P' saved': the tokens l take the transformations T, the text state P and what q has saved to T',
     P' and saved' *)
  Inductive Params : list coefs -> tpar -> list (list coefs * tpar) -> list obj -> list coefs -> tpar -> list (list coefs * tpar) -> Prop :=
  | pr_nil T P S : Params T P S [] T P S
  | pr_tok T P S o l T' P' S' : ~ among o param_words -> Params T P S l T' P' S' -> Params T P S (o :: l) T' P' S'
  | pr_cm T P S xs a b c d e f l T' P' S' : Forall2 N_ xs [a; b; c; d; e; f] -> Params ((a, b, c, d, e, f) :: T) P S l T' P' S' ->
      Params T P S (xs ++ OK "cm" :: l) T' P' S'
  | pr_q T P S l T' P' S' : Params T P ((T, P) :: S) l T' P' S' -> Params T P S (OK "q" :: l) T' P' S'
  | pr_Q T P T1 P1 S l T' P' S' : Params T1 P1 S l T' P' S' -> Params T P ((T1, P1) :: S) (OK "Q" :: l) T' P' S'
  | pr_Tc T P S x v l T' P' S' : N_ x v -> Params T (mkPar v (p_word P) (p_scale P) (p_lead P) (p_rise P) (p_size P) (p_font P) (p_mode P)) S l T' P' S' ->
      Params T P S (x :: OK "Tc" :: l) T' P' S'
  | pr_Tw T P S x v l T' P' S' : N_ x v -> Params T (mkPar (p_char P) v (p_scale P) (p_lead P) (p_rise P) (p_size P) (p_font P) (p_mode P)) S l T' P' S' ->
      Params T P S (x :: OK "Tw" :: l) T' P' S'
  | pr_Tz T P S x v l T' P' S' : N_ x v -> Params T (mkPar (p_char P) (p_word P) v (p_lead P) (p_rise P) (p_size P) (p_font P) (p_mode P)) S l T' P' S' ->
      Params T P S (x :: OK "Tz" :: l) T' P' S'
  | pr_TL T P S x v l T' P' S' : N_ x v -> Params T (mkPar (p_char P) (p_word P) (p_scale P) v (p_rise P) (p_size P) (p_font P) (p_mode P)) S l T' P' S' ->
      Params T P S (x :: OK "TL" :: l) T' P' S'
  | pr_Ts T P S x v l T' P' S' : N_ x v -> Params T (mkPar (p_char P) (p_word P) (p_scale P) (p_lead P) v (p_size P) (p_font P) (p_mode P)) S l T' P' S' ->
      Params T P S (x :: OK "Ts" :: l) T' P' S'
  | pr_Tr T P S x l T' P' S' : (forall k, x <> OKwd k) -> Params T (mkPar (p_char P) (p_word P) (p_scale P) (p_lead P) (p_rise P) (p_size P) (p_font P) x) S l T' P' S' ->
      Params T P S (x :: OK "Tr" :: l) T' P' S'
  | pr_Tf T P S n f x v l T' P' S' : fonts n = Some f -> N_ x v ->
      Params T (mkPar (p_char P) (p_word P) (p_scale P) (p_lead P) (p_rise P) v (Some f) (p_mode P)) S l T' P' S' ->
      Params T P S (OName n :: x :: OK "Tf" :: l) T' P' S'
  | pr_TD T P S x y v w l T' P' S' : N_ x v -> N_ y w -> Params T (mkPar (p_char P) (p_word P) (p_scale P) (- w)%Qc (p_rise P) (p_size P) (p_font P) (p_mode P)) S l T' P' S' ->
      Params T P S (x :: y :: OK "TD" :: l) T' P' S'
  | pr_dquote T P S x y z v w l T' P' S' : N_ x v -> N_ y w -> (forall k, z <> OKwd k) ->
      Params T (mkPar w v (p_scale P) (p_lead P) (p_rise P) (p_size P) (p_font P) (p_mode P)) S l T' P' S' ->
      Params T P S (x :: y :: z :: OK """" :: l) T' P' S'.
End params.

(* Latest n k v l v': the operator n has k operands; those of its latest use are v before the tokens l and v' after them *)
Inductive Latest (n : string) (k : nat) : list obj -> list obj -> list obj -> Prop :=
| lt_nil v : Latest n k v [] v
| lt_tok v o l v' : o <> OK n -> Latest n k v l v' -> Latest n k v (o :: l) v'
| lt_set v xs l v' : length xs = k -> Forall (fun o => forall w, o <> OKwd w) xs -> Latest n k xs l v' -> Latest n k v (xs ++ OK n :: l) v'.
