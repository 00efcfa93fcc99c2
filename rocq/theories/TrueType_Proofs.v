(* The table directory is keyed by bytes, and create_unicode_map asks it for a str. *)
From Coq Require Import String.
From Verif Require Import Base Obj Num Interp_Model CMap_Model TrueType_Model Font_Model.
Open Scope Z_scope.

Lemma set_key {A} (d : list (obj * A)) k v k' : key_eqb k k' = false -> assoc_get d k' = None -> assoc_get (assoc_set d k v) k' = None.
Proof.
  intros H. induction d as [|[k1 v1] d IH]; cbn [assoc_set assoc_get]; intros HN; [rewrite H; reflexivity|].
  destruct (key_eqb k1 k') eqn:E; [discriminate HN|]. destruct (key_eqb k1 k); cbn [assoc_get]; rewrite E; [exact HN|exact (IH HN)].
Qed.
Lemma entries_no_str n : forall s acc k, assoc_get acc (OName k) = None -> assoc_get (ttf_entries n s acc) (OName k) = None.
Proof.
  induction n as [|n IH]; intros s acc k H; cbn [ttf_entries]; [exact H|]. destruct (_ <? _)%nat; [exact H|]. apply IH, set_key; [reflexivity|exact H].
Qed.
Lemma tables_no_str data k : assoc_get (ttf_tables data) (OName k) = None.
Proof. unfold ttf_tables. destruct (_ <? _)%nat; [reflexivity|]. apply entries_no_str. reflexivity. Qed.
Lemma create_none data : create_unicode_map data = Err CMapNotFound.
Proof. unfold create_unicode_map, ON. rewrite tables_no_str. reflexivity. Qed.
Lemma program_none ttf : program_map ttf = Ok None.
Proof. destruct ttf as [d|]; cbn [program_map]; [rewrite create_none|]; reflexivity. Qed.
