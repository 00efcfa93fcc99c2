(* What the trailers of a file say about the document (ISO 32000-1, 7.5.5), given lookup: the outcome of looking up an
   object number. *)
From Coq Require Import String.
From Verif Require Import Base Obj XRef_Spec Doc_Spec RC4 Sec_Spec.
Open Scope Z_scope.

Section spec.
  Context (lookup : Z -> res obj -> Prop).
  (* what an object stands for: itself, or what its reference leads to; a reference to a missing object is null *)
  Inductive Stands : obj -> obj -> Prop :=
  | St_direct : forall o, (forall i, o <> ORef i) -> Stands o o
  | St_ref : forall i o v, lookup i (Ok o) -> Stands o v -> Stands (ORef i) v
  | St_missing : forall i, lookup i (Err PDFObjectNotFound) -> Stands (ORef i) ONull.
  (* a dictionary is expected: anything else counts as an empty one *)
  Definition StandsDict (o : obj) (d : list (obj * obj)) : Prop :=
    exists v, Stands o v /\ d = match v with ODict d => d | _ => [] end.
  (* the document information of one trailer *)
  Inductive InfoOf (t : list (obj * obj)) : list (list (obj * obj)) -> Prop :=
  | Info_none : dget t "Info" = None -> InfoOf t []
  | Info_some : forall v d, dget t "Info" = Some v -> StandsDict v d -> InfoOf t [d].
  (* the catalog is that of the first trailer, newest first, that has a Root; the information dictionaries are those of
     the trailers up to that one.  No trailer up to that one has an Encrypt. *)
  Inductive Plain : list (list (obj * obj)) -> list (obj * obj) -> list (list (obj * obj)) -> Prop :=
  | Plain_root : forall t r v cat info, dget t "Encrypt" = None -> dget t "Root" = Some v -> StandsDict v cat -> InfoOf t info ->
      Plain (t :: r) cat info
  | Plain_next : forall t r cat info infos, dget t "Encrypt" = None -> dget t "Root" = None -> InfoOf t info -> Plain r cat infos ->
      Plain (t :: r) cat (info ++ infos).
  Inductive Rootless : list (list (obj * obj)) -> Prop :=
  | Rootless_nil : Rootless []
  | Rootless_next : forall t r info, dget t "Encrypt" = None -> dget t "Root" = None -> InfoOf t info -> Rootless r -> Rootless (t :: r).
End spec.

(* the revision that defines an object, with its generation number: no newer one has an entry for it other than a free one *)
Definition DefinesGen (revs : list (list subsection * list (obj * obj))) (id off gen : Z) : Prop :=
  exists newer secs d older, revs = newer ++ (secs, d) :: older /\ EntryOf secs id (InUse off gen) /\
    Forall (fun r => Uncovered (fst r) id \/ exists a b, EntryOf (fst r) id (Free a b)) newer.

(* An object as it stands in an encrypted file: its strings are encrypted with RC4 under the key of that object *)
Definition StoredEncrypted (md5 : list Z -> list Z) (file : list Z) revs (key : list Z) (id : Z) (plain : obj) : Prop :=
  0 < id < 2 ^ 32 /\ exists off g stored, 0 <= g < 2 ^ 32 /\ DefinesGen revs id off g /\ ObjectAt file off id stored /\
    Encrypted (rc4 (object_key md5 key id g [])) plain stored.
(* the encryption dictionary of the trailer, direct or indirect; it is not encrypted itself *)
Inductive EncryptEntry (file : list Z) revs : obj -> list (obj * obj) -> Prop :=
| EE_direct : forall param, EncryptEntry file revs (ODict param) param
| EE_ref : forall j off g param, j <> 0 -> DefinesGen revs j off g -> ObjectAt file off j (ODict param) -> EncryptEntry file revs (ORef j) param.
