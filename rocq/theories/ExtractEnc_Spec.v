(* What an encrypted PDF file (standard security handler, RC4) says its text is: the file has the objects of a
   document, encrypted object by object under the key of the document; independent of the code. *)
From Coq Require Import String.
From Verif Require Import Base Lex_Model Lex_Spec Obj Stack_Spec Stream_Spec XRef_Spec Doc_Spec Page_Spec Num CMap_Model CMap_Spec RC4 Sec_Spec
  Open_Spec Fallback_Spec Sections_Spec Extract_Spec.
(* of the models only types *)
Open Scope Z_scope.
Import ListNotations.

Section file.
  Context (decode : list (obj * obj) -> list Z -> res (list Z)) (file : list Z).
  (* Laid revs hits d: the cross-reference sections of the file, the newest first (none if the file does not say where they are),
     what is found by looking through the file, and the trailer found so *)
  Inductive Laid : list revision -> list hit -> list (obj * obj) -> Prop :=
  | La_listed : forall start revs hits d, StartXRef file start -> Sections decode file start revs -> Forall (fun r => Disjoint (fst r)) revs ->
      Fallback_Spec.Contents decode 0 file hits d -> Laid revs hits d
  | La_found : forall hits d, (forall a b, file <> a ++ bs "startxref" ++ b) -> Fallback_Spec.Contents decode 0 file hits d -> Laid [] hits d.
  (* object id, of generation g, stands by itself in the file *)
  Inductive StandsAt (revs : list revision) (hits : list hit) (id g : Z) (o : obj) : Prop :=
  | SA_listed : forall off, Listed revs id (InUse off g) -> Scanned file hits off id o -> StandsAt revs hits id g o
  | SA_found : forall off, Unlisted revs id -> LastHit hits id (InUse off g) o -> StandsAt revs hits id g o.
End file.

Section encrypted.
  Context (md5 : list Z -> list Z).
  (* ISO 32000-1, 7.6.2: strings and the data of streams are encrypted under the key of their object.  Simplification: the
     dictionary of a stream has no strings that matter (they are left encrypted: C77_stream_dictionary_refuted).  clear: metadata
     streams are not encrypted (EncryptMetadata false). *)
  Definition Metadata (attrs : list (obj * obj)) : Prop := dget attrs "Type" = Some (ON "Metadata").
  Inductive Sealed (clear : bool) (key : list Z) (id g : Z) : obj -> obj -> Prop :=
  | Se_stream : forall attrs data, clear = false \/ ~ Metadata attrs ->
      Sealed clear key id g (OStream attrs data) (OStream attrs (rc4 (object_key md5 key id g []) data))
  | Se_metadata : forall attrs data, clear = true -> Metadata attrs -> Sealed clear key id g (OStream attrs data) (OStream attrs data)
  | Se_other : forall o stored, Encrypted (rc4 (object_key md5 key id g [])) o stored -> Sealed clear key id g o stored.
  (* the encryption dictionary says that the objects are encrypted with RC4: V is 1 or 2, or it is 4 and the crypt filter for strings and
     streams has the method V2 (7.6.5) *)
  Inductive WithRC4 (param : list (obj * obj)) : bool -> Prop :=
  | RC_old : forall V, V = 1 \/ V = 2 -> dget param "V" = Some (OInt V) -> WithRC4 param false
  | RC_filter : forall cf name f meta, dget param "V" = Some (OInt 4) -> dget param "CF" = Some (ODict cf) -> NoDup (map fst cf) ->
      dget param "StmF" = Some (OName name) -> dget param "StrF" = Some (OName name) -> name <> bs "Identity" ->
      In (OName name, ODict f) cf -> dget f "CFM" = Some (ON "V2") ->
      dget param "EncryptMetadata" = Some (OBool meta) \/ dget param "EncryptMetadata" = None /\ meta = true -> WithRC4 param (negb meta).
  (* HasSealed: the objects of the file are those of getobj, encrypted, except the encryption dictionary (enc in the trailer), which is
     param, not encrypted *)
  Definition HasSealed (file : list Z) (clear : bool) (key : list Z) (enc : obj) (param : list (obj * obj)) (getobj : Z -> option obj)
    (revs : list revision) (hits : list hit) : Prop :=
    getobj 0 = None /\ (enc = ODict param \/ exists j g, enc = ORef j /\ j <> 0 /\ StandsAt file revs hits j g (ODict param)) /\
    forall id, id <> 0 -> enc <> ORef id ->
      match getobj id with
      | Some o => 0 < id < 2 ^ 32 /\ exists g stored, 0 <= g < 2 ^ 32 /\ StandsAt file revs hits id g stored /\ Sealed clear key id g o stored
      | None => Unlisted revs id /\ NoHit hits id
      end.
  Definition lookup_sealed (enc : obj) (getobj : Z -> option obj) (id : Z) (r : res obj) : Prop := enc <> ORef id /\ lookup getobj id r.
  (* what may be said of the document: nothing that depends on the object that holds the encryption dictionary *)
  Definition Whatever (enc : obj) (getobj : Z -> option obj) (P : (Z -> option obj) -> Prop) : Prop :=
    forall get, (forall i, enc <> ORef i -> get i = getobj i) -> P get.
End encrypted.

Section pages.
  Context (md5 : list Z -> list Z) (zlib : list Z -> option (list Z)) (ccitt : list Z -> obj -> res (list Z)).
  Context (glyphs : list Z -> option (list Z)) (bases : list umap) (metrics : list Z -> option (list (obj * obj) * list (list Z * num)))
          (load_cmap : list Z -> option (bool * list (Z * trie))) (load_umap : list Z -> bool -> option umap).
  (* DocSealed: the file is a document with this catalog and these information dictionaries, encrypted under this key as its dictionary
     param and its identifier id say: the newest trailer that is not empty says so, and where the catalog is *)
  Definition DocSealed (decode : list (obj * obj) -> list Z -> res (list Z)) (file : list Z) (enc : obj) (getobj : Z -> option obj)
    (param : list (obj * obj)) (id key : list Z) (catalog : list (obj * obj)) (info : list (list (obj * obj))) : Prop :=
    exists clear revs hits d empties trailer others idrest root, WithRC4 param clear /\ Laid decode file revs hits d /\ HasSealed md5 file clear key enc param getobj revs hits /\
      map snd revs ++ [d] = empties ++ trailer :: others /\ Forall (fun x => x = []) empties /\
      dget trailer "Encrypt" = Some enc /\ dget trailer "ID" = Some (OArr (OStr id :: idrest)) /\
      dget trailer "Root" = Some root /\ StandsDict (lookup_sealed enc getobj) root catalog /\ InfoOf (lookup_sealed enc getobj) trailer info.
  (* FileHasSealed: and it has this tree of pages *)
  Definition FileHasSealed (decode : list (obj * obj) -> list Z -> res (list Z)) (file : list Z) (enc : obj) (getobj : Z -> option obj)
    (param : list (obj * obj)) (id key : list Z) (t : ptree) : Prop :=
    exists catalog info, DocSealed decode file enc getobj param id key catalog info /\
      dget catalog "Pages" = Some (ORef (id_of t)) /\ (forall k, Inheritable k = true -> dict_get catalog (OName k) = None) /\
      Whatever enc getobj (fun get => Stored get t /\
        Forall (fun lp => attr (snd lp) (bs "MediaBox") <> None /\ (forall k o, attr (snd lp) k = Some o -> exists v, Leads get ONull o v)) (leaves [] t)).
  Definition FileShowsSealed (decode : list (obj * obj) -> list Z -> res (list Z)) (file : list Z) (enc : obj) (getobj : Z -> option obj)
    (param : list (obj * obj)) (id key : list Z) (pagenos : list Z) (maxpages : Z) (lenient : bool) (texts : list (list (list Z))) : Prop :=
    exists t chosen, FileHasSealed decode file enc getobj param id key t /\ Chosen pagenos maxpages (leaves [] t) chosen /\ chosen <> [] /\
      Whatever enc getobj (fun get =>
        Forall2 (fun lp ts => PageShows zlib ccitt glyphs bases metrics load_cmap load_umap get lenient (snd lp) ts) chosen texts).
End pages.
