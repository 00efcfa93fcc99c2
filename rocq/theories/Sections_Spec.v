(* Files with cross-reference tables and cross-reference streams, linked in any way (ISO 32000-1, 7.5.4-7.5.8), objects in
   object streams, and which object a number then stands for.  Independent of the code. *)
From Coq Require Import String.
From Verif Require Import Base Lex_Spec Obj Stack_Spec XRef_Spec Doc_Spec Fallback_Spec.
Open Scope Z_scope.
Import ListNotations.

Notation revision := (list subsection * list (obj * obj))%type.
Section sections.
  (* decode: the data of a stream after its filters *)
  Context (decode : list (obj * obj) -> list Z -> res (list Z)) (file : list Z).
  Definition direct_length (v : obj) : option Z := match v with OInt z => Some z | _ => None end.
  (* at offset start stands an indirect object, a cross-reference stream with these subsections, its dictionary being d; the
     widths of its fields are those the code knows (C24) *)
  Definition XStreamAt (start : Z) (secs : list subsection) (d : list (obj * obj)) : Prop :=
    exists id data w1 w2 w3, StreamAt direct_length file start id d data /\ XRefAttrs d w1 w2 w3 secs /\
      Forall (fun w => In w [0; 1; 2; 3; 4; 8]%nat) [w1; w2; w3] /\ Forall (fun s => Forall (entry_ok w1 w2 w3) (snd s)) secs /\
      decode d data = Ok (write_sections w1 w2 w3 secs).
  Definition SectionAt (start : Z) (secs : list subsection) (d : list (obj * obj)) : Prop := TableAt file start secs d \/ XStreamAt start secs d.
  (* the sections from start on, the newest first: a section, then what its XRefStm refers to, then what its Prev refers to *)
  Inductive Sections : Z -> list revision -> Prop :=
  | Sec_at : forall start secs d l1 l2, SectionAt start secs d -> LinkedTo (dget d "XRefStm") l1 -> LinkedTo (dget d "Prev") l2 ->
      Sections start ((secs, d) :: l1 ++ l2)
  with LinkedTo : option obj -> list revision -> Prop :=
  | Lk_none : LinkedTo None []
  | Lk_some : forall pos l, Sections pos l -> LinkedTo (Some (OInt pos)) l.

  (* a section does not have the number, or has it as free *)
  Definition Silent (id : Z) (r : revision) : Prop := Uncovered (fst r) id \/ exists en, EntryOf (fst r) id en /\ place_of en = None.
  (* en is the entry of the first section that has the number in use *)
  Definition Listed (revs : list revision) (id : Z) (en : xentry) : Prop :=
    exists newer r older, revs = newer ++ r :: older /\ Forall (Silent id) newer /\ EntryOf (fst r) id en /\ place_of en <> None.
  Definition Unlisted (revs : list revision) (id : Z) : Prop := Forall (Silent id) revs.

  Section objects.
    (* what stands at an offset of the file under a number; what was found by looking through the file *)
    Context (at_ : Z -> Z -> obj -> Prop) (revs : list revision) (hits : list hit).
    Inductive Whole : Z -> obj -> Prop :=
    | Wh_listed : forall id off gen o, Listed revs id (InUse off gen) -> at_ off id o -> Whole id o
    | Wh_found : forall id off gen o, Unlisted revs id -> LastHit hits id (InUse off gen) o -> Whole id o.
    (* an object stands by itself, or is the k-th member of an object stream *)
    Inductive Object : Z -> obj -> Prop :=
    | Ob_whole : forall id o, Whole id o -> Object id o
    | Ob_member : forall id sid k attrs raw ms i o,
        Listed revs id (Member sid (Z.of_nat k)) \/ (Unlisted revs id /\ exists o', LastHit hits id (Member sid (Z.of_nat k)) o') ->
        sid <> 0 -> Whole sid (OStream attrs raw) -> Packs decode attrs raw ms -> nth_error ms k = Some (i, o) -> Object id o.
  End objects.
  (* with the search through the file: plain objects, and streams up to their first endstream *)
  Definition Scanned (hits : list hit) (off id : Z) (o : obj) : Prop := ObjectAt file off id o \/ exists gen, In (id, InUse off gen, o) hits.
  (* without it: plain objects, and streams as long as they say *)
  Definition Exact (off id : Z) (o : obj) : Prop := ObjectAt file off id o \/ exists d data, o = OStream d data /\ StreamAt direct_length file off id d data.
End sections.
Scheme Sections_mut := Induction for Sections Sort Prop with LinkedTo_mut := Induction for LinkedTo Sort Prop.
Combined Scheme Sections_ind2 from Sections_mut, LinkedTo_mut.
