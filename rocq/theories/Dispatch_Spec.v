(* Specification for C89: the names of output files, and what a conversion may do to the files. *)
From Coq Require Import String.
From Verif Require Import Base.
Open Scope Z_scope.
Import ListNotations.

(* slashes: a path of one or more slashes *)
Definition slashes (p : list Z) : Prop := p <> [] /\ Forall (fun c => c = 47) p.
(* Folder d d': d, the part of a path before the name, is written d' in the path of the output file: one slash is kept of those at
   the end *)
Inductive Folder : list Z -> list Z -> Prop :=
| Fo_none : Folder [] []
| Fo_root : forall s, slashes s -> Folder s s
| Fo_dir : forall d c s, c <> 47 -> slashes s -> Folder (d ++ [c] ++ s) (d ++ [c] ++ [47]).
(* a file name with an extension; word: the characters an extension is made of *)
Definition Extension (word : Z -> bool) (ext : list Z) : Prop := ext <> [] /\ Forall (fun c => word c = true) ext.
(* Beside word input t output: output is the path beside input with the extension t in place of its own *)
Definition Beside (word : Z -> bool) (input t output : list Z) : Prop :=
  exists d d' name ext, Folder d d' /\ ~ In 47 name /\ Extension word ext /\ input = d ++ name ++ [46] ++ ext /\ output = d' ++ name ++ [46] ++ t.
(* the name of the file ends with the type; a line feed may follow *)
Definition EndsWith (t output : list Z) : Prop := exists p, output = p ++ t \/ output = p ++ t ++ [10].
(* the types of output *)
Definition types : list (list Z) := [bs "html"; bs "xml"; bs "json"; bs "yaml"; bs "yml"; bs "text"].
(* the same files, but for one *)
Definition SameBut (p : list Z) (fs fs' : list Z -> option (list Z)) : Prop := forall q, q <> p -> fs' q = fs q.
