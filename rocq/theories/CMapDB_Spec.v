(* Where predefined CMaps come from: independent of the code.  Of the models only the types of maps, queries and answers. *)
From Coq Require Import String.
From Verif Require Import Base Obj CMap_Model Font_Model CMapDB_Model.
Open Scope Z_scope.
Import ListNotations.

(* p is the file n in the directory d *)
Inductive In_dir (d n : list Z) : list Z -> Prop :=
| id_slash h : d = h ++ [47] -> In_dir d n (d ++ n)
| id_none : d <> [] -> last d 0 <> 47 -> In_dir d n (d ++ [47] ++ n).
Section spec.
  Context {U : Type}.
  (* what a file holds for a query *)
  Inductive Holds_cmap : res (module U) -> res cmapk -> Prop :=
  | hc_ok c v h w : Holds_cmap (Ok (mkModule (Some c) (Some v) h w)) (Ok (CTable v c))
  | hc_partial m : m_codes m = None \/ m_vertical m = None -> Holds_cmap (Ok m) (Err AttributeError)
  | hc_err e : Holds_cmap (Err e) (Err e).
  Inductive Holds_umap (vertical : bool) : res (module U) -> res U -> Prop :=
  | hu_ok c v h w : Holds_umap vertical (Ok (mkModule c v (Some h) (Some w))) (Ok (if vertical then w else h))
  | hu_partial m : m_h m = None \/ m_v m = None -> Holds_umap vertical (Ok m) (Err AttributeError)
  | hu_err e : Holds_umap vertical (Err e) (Err e).
  (* Search d dirs n r o: the first of the directories that has the file n has r in it; o: the file, if there is one *)
  Inductive Search (d : disk U) (n : list Z) : list (list Z) -> option (res (module U)) -> list (list Z) -> Prop :=
  | se_none : Search d n [] None []
  | se_here dir dirs p m : In_dir dir n p -> d p = Some m -> Search d n (dir :: dirs) (Some m) [p]
  | se_next dir dirs p r o : In_dir dir n p -> d p = None -> Search d n dirs r o -> Search d n (dir :: dirs) r o.
  (* the answer to a query that nothing was asked before, and the files opened *)
  Inductive Answers (dirs : list (list Z)) (d : disk U) : query -> answer U -> list (list Z) -> Prop :=
  | an_h : Answers dirs d (QCMap (bs "Identity-H")) (ACMap (Ok (CIdentity false))) []
  | an_v : Answers dirs d (QCMap (bs "Identity-V")) (ACMap (Ok (CIdentity true))) []
  | an_cmap n m o r : n <> bs "Identity-H" -> n <> bs "Identity-V" -> Search d (n ++ bs ".pickle.gz") dirs (Some m) o -> Holds_cmap m r -> Answers dirs d (QCMap n) (ACMap r) o
  | an_none n o : n <> bs "Identity-H" -> n <> bs "Identity-V" -> Search d (n ++ bs ".pickle.gz") dirs None o -> Answers dirs d (QCMap n) (ACMap (Err CMapNotFound)) o
  | an_umap n v m o r : Search d (bs "to-unicode-" ++ n ++ bs ".pickle.gz") dirs (Some m) o -> Holds_umap v m r -> Answers dirs d (QUMap n v) (AUMap r) o
  | an_unone n v o : Search d (bs "to-unicode-" ++ n ++ bs ".pickle.gz") dirs None o -> Answers dirs d (QUMap n v) (AUMap (Err CMapNotFound)) o.
  Definition query_name (q : query) : list Z := match q with QCMap n => n | QUMap n _ => n end.
  (* a name that is one component of a path *)
  Definition component (n : list Z) : Prop := ~ In 47 n /\ ~ In 0 n.
  Definition succeeds (a : answer U) : Prop := match a with ACMap (Ok _) | AUMap (Ok _) => True | _ => False end.
End spec.
