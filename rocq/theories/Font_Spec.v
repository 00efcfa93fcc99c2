(* What font dictionaries say (ISO 32000-1, 9.6.2, 9.7.4, 9.10.2), independent of the code. *)
From Coq Require Import String.
From Verif Require Import Base Obj Stream_Spec Num Interp_Model CMap_Spec.
From Coq Require Import Qcanon.
Open Scope Z_scope.

(* numbers as written in the file *)
Inductive Number : obj -> num -> Prop :=
| N_int : forall z, Number (OInt z) (qz z)
| N_real : forall t, Number (OReal t) (real_val t).
Definition codes (c : Z) (n : nat) : list Z := map (fun i => c + Z.of_nat i) (seq 0 n).

(* one entry of a W array: c [w1 ... wn], or c1 c2 w; and the widths it declares *)
Inductive WEntry : list obj -> list (Z * num) -> Prop :=
| WE_list : forall c ws qs, Forall2 Number ws qs -> WEntry [OInt c; OArr ws] (combine (codes c (length qs)) qs)
| WE_range : forall c1 c2 w q, Number w q ->
    WEntry [OInt c1; OInt c2; w] (map (fun c => (c, q)) (codes c1 (Z.to_nat (c2 - c1 + 1)))).
(* one entry of a W2 array: c [w1 x1 y1 ... wn xn yn], or c1 c2 w x y *)
Inductive Triples : list obj -> list (num * (num * num)) -> Prop :=
| Tr_nil : Triples [] []
| Tr_cons : forall w x y qw qx qy l r, Number w qw -> Number x qx -> Number y qy -> Triples l r ->
    Triples (w :: x :: y :: l) ((qw, (qx, qy)) :: r).
Inductive W2Entry : list obj -> list (Z * (num * (num * num))) -> Prop :=
| W2_list : forall c ts qs, Triples ts qs -> W2Entry [OInt c; OArr ts] (combine (codes c (length qs)) qs)
| W2_range : forall c1 c2 w x y qw qx qy, Number w qw -> Number x qx -> Number y qy ->
    W2Entry [OInt c1; OInt c2; w; x; y] (map (fun c => (c, (qw, (qx, qy)))) (codes c1 (Z.to_nat (c2 - c1 + 1)))).
(* an array of entries declares what they declare, in order; the last declaration of a character counts (last_for) *)
Inductive Entries {A} (one : list obj -> list (Z * A) -> Prop) : list obj -> list (Z * A) -> Prop :=
| En_nil : Entries one [] []
| En_cons : forall e d r d', one e d -> Entries one r d' -> Entries one (e ++ r) (d ++ d').

(* the dictionary entry k: absent, or leading to v *)
Definition subtype (spec : list (obj * obj)) (names : list string) : Prop :=
  exists n, In n names /\ dget spec "Subtype" = Some (ON n).

Section entries.
  Context (getobj : Z -> option obj).
  (* the value of an entry of a dictionary: references are followed, and a missing entry has the default value *)
  Inductive Value (d : list (obj * obj)) (k : string) (dflt : obj) : obj -> Prop :=
  | V_absent : dget d k = None -> Value d k dflt dflt
  | V_present : forall o v, dget d k = Some o -> Leads getobj ONull o v -> Value d k dflt v.
  (* the width MissingWidth of the font descriptor of a font; what is not a number counts as 0 *)
  Inductive Missing (spec : list (obj * obj)) : num -> Prop :=
  | Mi : forall d o q, Value spec "FontDescriptor" (ODict []) (ODict d) -> Value d "MissingWidth" (OInt 0) o -> Number o q -> Missing spec q
  | Mi_other : forall d o, Value spec "FontDescriptor" (ODict []) (ODict d) -> Value d "MissingWidth" (OInt 0) o ->
      match o with OInt _ | OReal _ | OBool _ => False | _ => True end -> Missing spec (qz 0).
End entries.
