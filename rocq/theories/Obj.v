(* PDF objects as the parser builds them (Python values), and Python dictionaries. *)
From Coq Require Import String.
From Verif Require Import Base.

(* None, bool, int, float (source text), bytes, PSLiteral, PSKeyword, list, dict (insertion order), PDFObjRef
   (PDFObjRef.py:16-23 keeps only the object number), PDFStream (attributes and raw data).  A dictionary key is
   normally a name (literal_name gives a str); any other hashable object can be a key too. *)
Inductive obj : Type :=
| ONull | OBool (b : bool) | OInt (z : Z) | OReal (text : list Z) | OStr (s : list Z)
| OName (n : list Z) | OKwd (k : list Z) | OArr (l : list obj) | ODict (d : list (obj * obj))
| ORef (objid : Z) | OStream (attrs : list (obj * obj)) (raw : list Z).

Definition ON (s : string) : obj := OName (bs s).
Definition OK (s : string) : obj := OKwd (bs s).

(* equality of dictionary keys.  Simplification: 1 == True == 1.0 of Python is not reproduced, and keys that are
   references or streams (compared by identity) are never equal. *)
Definition key_eqb (a b : obj) : bool :=
  match a, b with
  | ONull, ONull => true
  | OBool x, OBool y => Bool.eqb x y
  | OInt x, OInt y => x =? y
  | OReal x, OReal y => list_eqb x y
  | OStr x, OStr y => list_eqb x y
  | OName x, OName y => list_eqb x y
  | OKwd x, OKwd y => list_eqb x y
  | _, _ => false
  end.
Definition hashable (o : obj) : bool := match o with OArr _ | ODict _ => false | _ => true end.

(* d[k] = v *)
Fixpoint dict_set (d : list (obj * obj)) (k v : obj) : list (obj * obj) :=
  match d with
  | [] => [(k, v)]
  | (k', v') :: r => if key_eqb k' k then (k', v) :: r else (k', v') :: dict_set r k v
  end.
Fixpoint dict_get (d : list (obj * obj)) (k : obj) : option obj :=
  match d with
  | [] => None
  | (k', v) :: r => if key_eqb k' k then Some v else dict_get r k
  end.
Definition dget (d : list (obj * obj)) (s : string) : option obj := dict_get d (ON s).

(* induction over nested objects *)
Section obj_ind2.
  Variable P : obj -> Prop.
  Hypothesis Hatom : forall o, match o with OArr _ | ODict _ | OStream _ _ => True | _ => P o end.
  Hypothesis Harr : forall l, Forall P l -> P (OArr l).
  Hypothesis Hdict : forall d, Forall (fun kv => P (fst kv) /\ P (snd kv)) d -> P (ODict d).
  Hypothesis Hstream : forall d r, Forall (fun kv => P (fst kv) /\ P (snd kv)) d -> P (OStream d r).
  Fixpoint obj_ind2 (o : obj) : P o :=
    match o with
    | OArr l => Harr l ((fix go (l : list obj) : Forall P l :=
         match l with [] => Forall_nil _ | x :: r => Forall_cons _ (obj_ind2 x) (go r) end) l)
    | ODict d => Hdict d ((fix go (d : list (obj * obj)) : Forall (fun kv => P (fst kv) /\ P (snd kv)) d :=
         match d with [] => Forall_nil _ | kv :: r => Forall_cons _ (conj (obj_ind2 (fst kv)) (obj_ind2 (snd kv))) (go r) end) d)
    | OStream d r => Hstream d r ((fix go (d : list (obj * obj)) : Forall (fun kv => P (fst kv) /\ P (snd kv)) d :=
         match d with [] => Forall_nil _ | kv :: r => Forall_cons _ (conj (obj_ind2 (fst kv)) (obj_ind2 (snd kv))) (go r) end) d)
    | ONull => Hatom ONull | OBool b => Hatom (OBool b) | OInt z => Hatom (OInt z) | OReal t => Hatom (OReal t)
    | OStr s => Hatom (OStr s) | OName n => Hatom (OName n) | OKwd k => Hatom (OKwd k) | ORef i => Hatom (ORef i)
    end.
End obj_ind2.

Lemma key_eqb_name a b : key_eqb (OName a) (OName b) = true <-> a = b.
Proof. apply list_eqb_eq. Qed.

Lemma dict_get_set_same d k v : key_eqb k k = true -> dict_get (dict_set d k v) k = Some v.
Proof.
  intros Hk. induction d as [|[k' v'] d IH]; cbn [dict_set dict_get].
  - rewrite Hk. reflexivity.
  - destruct (key_eqb k' k) eqn:E; cbn [dict_get]; rewrite E; [reflexivity|assumption].
Qed.
Lemma key_eqb_trans a b c : key_eqb a b = true -> key_eqb a c = key_eqb b c.
Proof.
  destruct a, b; cbn [key_eqb]; try discriminate; intros H; try reflexivity.
  - apply Bool.eqb_prop in H. subst. reflexivity.
  - apply Z.eqb_eq in H. subst. reflexivity.
  - apply list_eqb_eq in H. subst. reflexivity.
  - apply list_eqb_eq in H. subst. reflexivity.
  - apply list_eqb_eq in H. subst. reflexivity.
  - apply list_eqb_eq in H. subst. reflexivity.
Qed.
Lemma dict_get_set_other d k v k2 : key_eqb k k2 = false -> dict_get (dict_set d k v) k2 = dict_get d k2.
Proof.
  intros Hk. induction d as [|[k' v'] d IH]; cbn [dict_set dict_get].
  - rewrite Hk. reflexivity.
  - destruct (key_eqb k' k) eqn:E; cbn [dict_get].
    + rewrite (key_eqb_trans _ _ k2 E), Hk. reflexivity.
    + rewrite IH. reflexivity.
Qed.
