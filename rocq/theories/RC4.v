(* The RC4 cipher (Crypto.Cipher.ARC4 of PyCryptodome, used by pdfmajor; not part of /repo).  Bytes are integers 0..255. *)
From Coq Require Import String.
From Verif Require Import Base.
From Coq Require Import ZifyBool ZifyNat.
Open Scope Z_scope.

(* s[i] *)
Definition at_ (s : list Z) (i : Z) : Z := nth (Z.to_nat i) s 0.
Fixpoint set_nat (s : list Z) (i : nat) (v : Z) : list Z :=
  match s, i with [], _ => [] | _ :: r, O => v :: r | x :: r, S k => x :: set_nat r k v end.
Definition put (s : list Z) (i v : Z) : list Z := set_nat s (Z.to_nat i) v.
Definition swap (s : list Z) (i j : Z) : list Z := put (put s i (at_ s j)) j (at_ s i).
(* key scheduling *)
Fixpoint ksa (key : list Z) (n : nat) (i j : Z) (s : list Z) : list Z :=
  match n with
  | O => s
  | S n' => let j' := (j + at_ s i + at_ key (i mod Z.of_nat (length key))) mod 256 in ksa key n' (i + 1) j' (swap s i j')
  end.
Definition rc4_init (key : list Z) : list Z := ksa key 256 0 0 (map Z.of_nat (seq 0 256)).
(* keystream of n bytes *)
Fixpoint prga (n : nat) (i j : Z) (s : list Z) : list Z :=
  match n with
  | O => []
  | S n' => let i' := (i + 1) mod 256 in let j' := (j + at_ s i') mod 256 in let s' := swap s i' j' in
            at_ s' ((at_ s' i' + at_ s' j') mod 256) :: prga n' i' j' s'
  end.
Definition xors (a b : list Z) : list Z := map (fun p => Z.lxor (fst p) (snd p)) (combine a b).
Definition rc4 (key data : list Z) : list Z := xors data (prga (length data) 0 0 (rc4_init key)).

Lemma prga_length n : forall i j s, length (prga n i j s) = n.
Proof. induction n as [|n IH]; intros i j s; cbn [prga length]; [reflexivity|]. rewrite IH. reflexivity. Qed.
Lemma rc4_length k d : length (rc4 k d) = length d.
Proof. unfold rc4, xors. rewrite map_length, combine_length, prga_length. lia. Qed.
Lemma xors_twice a : forall b, length a = length b -> xors (xors a b) b = a.
Proof.
  induction a as [|x a IH]; intros [|y b] H; cbn [length] in H; try discriminate; [reflexivity|]. unfold xors in *. cbn [combine map fst snd].
  rewrite IH by lia. rewrite Z.lxor_assoc, Z.lxor_nilpotent, Z.lxor_0_r. reflexivity.
Qed.
Lemma rc4_involutive k d : rc4 k (rc4 k d) = d.
Proof. unfold rc4 at 1. rewrite rc4_length. apply xors_twice. symmetry. apply prga_length. Qed.
(* published test vectors *)
Example rc4_vector1 : rc4 (bs "Key") (bs "Plaintext")
  = [187; 243; 22; 232; 217; 64; 175; 10; 211].
Proof. vm_compute. reflexivity. Qed.
Example rc4_vector2 : rc4 (bs "Wiki") (bs "pedia")
  = [16; 33; 191; 4; 32].
Proof. vm_compute. reflexivity. Qed.
