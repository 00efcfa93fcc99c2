(* What an encrypted file says of its chosen pages: as FileShowsSealed (ExtractEnc_Spec), of anything that can be said of a page.
   Independent of the code. *)
From Coq Require Import String.
From Verif Require Import Base Obj Stream_Spec Page_Spec Extract_Spec ExtractEnc_Spec.
Open Scope Z_scope.
Import ListNotations.

Section sealed.
  Context (md5 : list Z -> list Z).
  Context {A : Type} (say : (Z -> option obj) -> list (list (obj * obj)) -> A -> Prop).   (* what is said of a page, given by the attributes along its path *)
  Definition FileSealed (decode : list (obj * obj) -> list Z -> res (list Z)) (file : list Z) (enc : obj) (getobj : Z -> option obj)
    (param : list (obj * obj)) (id key : list Z) (pagenos : list Z) (maxpages : Z) (spec : list A) : Prop :=
    exists t chosen, FileHasSealed md5 decode file enc getobj param id key t /\ Chosen pagenos maxpages (leaves [] t) chosen /\ chosen <> [] /\
      Whatever enc getobj (fun get => Forall2 (fun lp q => say get (snd lp) q) chosen spec).
End sealed.
