(* Base vocabulary shared by every model file: bytes, Python exceptions as values,
   Python slicing helpers.  Nothing here models a particular function of /repo; the
   definitions fix how Python values are represented. *)
From Coq Require Export List ZArith Lia Bool.
From Coq Require Import String Ascii.
Export ListNotations.
Open Scope Z_scope.

(* Python exceptions that can escape the modelled functions (built-in ones and those of
   pdfmajor/execptions.py).  OutOfFuel is ours: a fuelled loop ran out; theorems exclude it. *)
Inductive exn : Type :=
| AssertionError | StructError | IndexError | TypeError | ValueError | KeyError
| AttributeError | NameError | EOFError | CorruptDataError | RecursionError | UnicodeError
| PSEOF | PSSyntaxError | PSTypeError | PSValueError
| PDFSyntaxError | PDFObjectNotFound | PDFNoValidXRef | PDFTypeError | PDFValueError
| PDFNotImplementedError | PDFEncryptionError | PDFPasswordIncorrect | PDFNoOutlines
| PDFDestinationNotFound | PDFTextExtractionNotAllowed
| CMapNotFound | InvalidOperation | CommandProcessorError | EmptyDocumentError
| InvalidStateErr | ParserError | PDFException | UnicodeNotDefined | MissingFont | FontError
| RepeatedCommand | ZlibError | InvalidData | OutOfFuel.

(* Result of a Python call: a value or a raised exception. *)
Inductive res (A : Type) : Type :=
| Ok (a : A)
| Err (e : exn).
Arguments Ok {A} a.
Arguments Err {A} e.

Definition bind {A B} (x : res A) (f : A -> res B) : res B :=
  match x with Ok a => f a | Err e => Err e end.
Notation "'do' x <- e1 ; e2" := (bind e1 (fun x => e2))
  (at level 60, x pattern, e1 at level 59, e2 at level 60, right associativity).

(* A byte is an integer 0..255; a Python bytes object is a list of them. *)
Definition is_byte (b : Z) : Prop := 0 <= b < 256.
Definition bytes (l : list Z) : Prop := Forall is_byte l.

(* ASCII text as bytes, for readable constants and examples. *)
Fixpoint bs (s : string) : list Z :=
  match s with
  | EmptyString => []
  | String c r => Z.of_nat (nat_of_ascii c) :: bs r
  end.
Arguments bs s%string_scope.

(* ASCII classes used by several regular expressions of the code; in Python bytes patterns
   \d is 0-9 and \s is space, \t, \n, \r, \f, \v (not NUL). *)
Definition is_digit (c : Z) : bool := (48 <=? c) && (c <=? 57).
Definition is_hex (c : Z) : bool :=
  is_digit c || ((65 <=? c) && (c <=? 70)) || ((97 <=? c) && (c <=? 102)).
Definition is_space (c : Z) : bool := (c =? 32) || ((9 <=? c) && (c <=? 13)).

(* int(x, 16) on one hex digit *)
Definition hexval (c : Z) : Z :=
  if is_digit c then c - 48
  else if (65 <=? c) && (c <=? 70) then c - 55
  else c - 87.

Fixpoint list_eqb (a b : list Z) : bool :=
  match a, b with
  | [], [] => true
  | x :: a', y :: b' => (x =? y) && list_eqb a' b'
  | _, _ => false
  end.

Lemma list_eqb_eq a b : list_eqb a b = true <-> a = b.
Proof.
  revert b; induction a as [|x a IH]; intros [|y b]; cbn [list_eqb]; split; intro H;
    try reflexivity; try discriminate.
  - apply andb_true_iff in H as [H1 H2]. apply Z.eqb_eq in H1. apply IH in H2. congruence.
  - injection H as <- <-. rewrite Z.eqb_refl. apply IH. reflexivity.
Qed.

Lemma list_eqb_refl a : list_eqb a a = true.
Proof. apply list_eqb_eq; reflexivity. Qed.

#[global] Arguments Z.add : simpl never.
#[global] Arguments Z.sub : simpl never.
#[global] Arguments Z.mul : simpl never.
#[global] Arguments Z.div : simpl never.
#[global] Arguments Z.modulo : simpl never.
#[global] Arguments Z.pow : simpl never.
#[global] Arguments Z.opp : simpl never.
#[global] Arguments Z.of_nat : simpl never.
#[global] Arguments Z.to_nat : simpl never.

Lemma skipn_skipn {A} : forall (x y : nat) (l : list A), skipn x (skipn y l) = skipn (x + y) l.
Proof.
  intros x y; revert x; induction y as [|y IH]; intros x l.
  - rewrite Nat.add_0_r. reflexivity.
  - destruct l as [|a l]. { rewrite !skipn_nil. reflexivity. }
    rewrite Nat.add_succ_r. cbn [skipn]. apply IH.
Qed.

Ltac splits := repeat match goal with |- _ /\ _ => split end.
