(* pdfmajor/parser/cmapdb/__init__.py:189-262: the predefined CMaps and Unicode maps, with their two caches.  Texts are lists of code points;
   a path is a text.  A file is what gzip and pickle make of it (that os.path.exists fails for names that are no paths is left to the disk);
   that type() refuses a name with a surrogate is not modelled.  The environment variable CMAP_PATH and the place of the package are parameters.
   Each call also gives the files it opened. *)
From Coq Require Import String.
From Verif Require Import Base Obj CMap_Model Font_Model Image_Model.
Open Scope Z_scope.
Import ListNotations.

Section db.
  Context {U : Type}.     (* tables from cid to text *)
  (* what the pickle holds: attributes may be missing *)
  Record module := mkModule { m_codes : option (list (Z * trie)); m_vertical : option bool; m_h : option U; m_v : option U }.
  Definition disk := list Z -> option (res module).
  Context (env here : list Z).
  (* 225-231 the two places, in order *)
  Definition cmap_paths : list (list Z) := [env; path_join here (bs "cmap")].
  (* 229-239 *)
  Fixpoint try_paths (d : disk) (filename : list Z) (dirs : list (list Z)) : res module * list (list Z) :=
    match dirs with
    | [] => (Err CMapNotFound, [])
    | dir :: r => let path := path_join dir filename in match d path with Some m => (m, [path]) | None => try_paths d filename r end
    end.
  (* 221-224, os.path.join of CMAP_PATH and the file name *)
  Definition load_data (d : disk) (name : list Z) : res module * list (list Z) :=
    try_paths d (filter (fun c => negb (c =? 0)) name ++ bs ".pickle.gz") cmap_paths.
  (* 191-197 PyCMap: CODE2CID is read first *)
  Definition py_cmap (m : module) : res cmapk :=
    match m_codes m with None => Err AttributeError | Some c => match m_vertical m with None => Err AttributeError | Some v => Ok (CTable v c) end end.
  (* 205-212 PyUnicodeMap *)
  Definition py_umap (m : module) (vertical : bool) : res U :=
    match (if vertical then m_v m else m_h m) with Some u => Ok u | None => Err AttributeError end.

  (* 217-218 the caches *)
  Record cache := mkCache { c_cmaps : list (list Z * cmapk); c_umaps : list (list Z * (U * U)) }.
  Fixpoint find_name {A} (n : list Z) (l : list (list Z * A)) : option A :=
    match l with [] => None | (m, a) :: r => if list_eqb m n then Some a else find_name n r end.
  (* 243-253 *)
  Definition db_cmap (d : disk) (s : cache) (name : list Z) : res cmapk * list (list Z) * cache :=
    if list_eqb name (bs "Identity-H") then (Ok (CIdentity false), [], s)
    else if list_eqb name (bs "Identity-V") then (Ok (CIdentity true), [], s)
    else match find_name name (c_cmaps s) with
         | Some c => (Ok c, [], s)
         | None =>
             let '(m, opened) := load_data d name in
             match bind m py_cmap with
             | Ok c => (Ok c, opened, mkCache ((name, c) :: c_cmaps s) (c_umaps s))
             | Err e => (Err e, opened, s)
             end
         end.
  (* 256-262; both maps are made before either is kept *)
  Definition db_umap (d : disk) (s : cache) (name : list Z) (vertical : bool) : res U * list (list Z) * cache :=
    match find_name name (c_umaps s) with
    | Some (h, v) => (Ok (if vertical then v else h), [], s)
    | None =>
        let '(m, opened) := load_data d (bs "to-unicode-" ++ name) in
        match (do x <- m; do h <- py_umap x false; do v <- py_umap x true; Ok (h, v)) with
        | Ok (h, v) => (Ok (if vertical then v else h), opened, mkCache (c_cmaps s) ((name, (h, v)) :: c_umaps s))
        | Err e => (Err e, opened, s)
        end
    end.
  (* a history of calls, each with the files of its moment *)
  Inductive query := QCMap (name : list Z) | QUMap (name : list Z) (vertical : bool).
  Inductive answer := ACMap (r : res cmapk) | AUMap (r : res U).
  Definition ask (d : disk) (s : cache) (q : query) : answer * list (list Z) * cache :=
    match q with
    | QCMap n => let '(r, o, s') := db_cmap d s n in (ACMap r, o, s')
    | QUMap n v => let '(r, o, s') := db_umap d s n v in (AUMap r, o, s')
    end.
  Fixpoint asks (s : cache) (l : list (disk * query)) : list (answer * list (list Z)) * cache :=
    match l with
    | [] => ([], s)
    | (d, q) :: r => let '(a, o, s1) := ask d s q in let '(rest, s2) := asks s1 r in ((a, o) :: rest, s2)
    end.
  Definition empty : cache := mkCache [] [].
End db.
Arguments module : clear implicits.
Arguments disk : clear implicits.
Arguments cache : clear implicits.
Arguments answer : clear implicits.
