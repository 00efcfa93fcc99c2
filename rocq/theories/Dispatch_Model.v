(* Model of converters/__init__.py (convert_file), tools/pdfconvert.py and the file handling of converters/text.py.
   A path is a list of code points and a file system maps paths to contents.
   Simplifications: two different paths are two different files (no links, no "." or ".."); a file that may be opened for writing is
   always writable; settings that only say what is logged (debug_level) are passed on and otherwise ignored.
   re.escape, os.path.join, os.path.dirname and os.path.basename are those of Python on POSIX. *)
From Coq Require Import String.
From Verif Require Import Base Obj Stack_Model Stream_Model Num Geom_Model Interp_Model CMap_Model Extract_Model.
Open Scope Z_scope.
Import ListNotations.

Notation path := (list Z) (only parsing).
Notation fsys := (list Z -> option (list Z)) (only parsing).
Definition put (fs : fsys) (p : path) (b : list Z) : fsys := fun q => if list_eqb q p then Some b else fs q.

(* the exceptions that convert_file adds to those of the package *)
Inductive failure := FConverter | FNotFound | FType | FTemplate | FRaised (e : exn).

(* ---------- os.path ---------- *)
(* p[:i], p[i:] for i = p.rfind('/') + 1 *)
Fixpoint split_last (p : path) : path * path :=
  match p with
  | [] => ([], [])
  | c :: r => let (h, t) := split_last r in
              match h with [] => if c =? 47 then ([47], t) else ([], c :: t) | _ => (c :: h, t) end
  end.
Fixpoint drop_slashes (p : path) : path := match p with c :: r => if c =? 47 then drop_slashes r else p | [] => [] end.
Definition basename (p : path) : path := snd (split_last p).
Definition dirname (p : path) : path :=
  let h := fst (split_last p) in if forallb (fun c => c =? 47) h then h else rev (drop_slashes (rev h)).
Definition path_join (a b : path) : path :=
  match b with
  | 47 :: _ => b
  | _ => match rev a with [] => b | 47 :: _ => a ++ b | _ => a ++ [47] ++ b end
  end.

(* ---------- the regular expressions ---------- *)
(* $: at the end, or before a line feed at the end *)
Definition at_end (x : list Z) : bool := match x with [] | [10] => true | _ => false end.
Fixpoint prefix_rest (p x : list Z) : option (list Z) :=
  match p, x with [], _ => Some x | a :: p', b :: x' => if a =? b then prefix_rest p' x' else None | _, [] => None end.
(* re.search(re.escape(t) + r'$', x) *)
Fixpoint search_end (t x : list Z) : bool :=
  match prefix_rest t x with Some r => at_end r | None => false end || match x with [] => false | _ :: r => search_end t r end.

Section names.
  Context (word : Z -> bool).                     (* \w *)
  Context (expand : list Z -> option (list Z)).   (* what a replacement with backslashes stands for; None: re.error *)
  (* \w*$ : what follows the match *)
  Fixpoint word_tail (x : list Z) : option (list Z) :=
    match x with
    | [] => Some []
    | c :: r => if word c then word_tail r else if at_end x then Some x else None
    end.
  (* re.sub(r"\.\w+$", repl, x): there is at most one match *)
  Fixpoint sub_ext (repl x : list Z) : list Z :=
    match x with
    | [] => []
    | c :: r =>
        match (if c =? 46 then match r with w :: r' => if word w then word_tail r' else None | [] => None end else None) with
        | Some rest => repl ++ rest
        | None => c :: sub_ext repl r
        end
    end.
  Definition template (t : list Z) : option (list Z) := if existsb (fun c => c =? 92) t then expand t else Some t.

  (* the arguments of a converter: __init__.py:40-52 and the like *)
  Record args := mkArgs {
    a_input : path; a_output : path; a_images : option path; a_codec : list Z; a_maxpages : Z; a_password : option (list Z);
    a_caching : bool; a_check : bool; a_pagenos : option (list Z); a_noimages : bool; a_ignore : bool; a_debug : Z }.
  Definition set_output (a : args) (o : path) : args :=
    mkArgs (a_input a) o (a_images a) (a_codec a) (a_maxpages a) (a_password a) (a_caching a) (a_check a) (a_pagenos a) (a_noimages a) (a_ignore a) (a_debug a).
  Inductive kind := KHtml | KXml | KJson | KYaml | KText.
  Context (converter : kind -> args -> fsys -> fsys * option failure).
  (* 38-112 *)
  Definition kind_of (t : list Z) : option kind :=
    if list_eqb t (bs "html") then Some KHtml
    else if list_eqb t (bs "xml") then Some KXml
    else if list_eqb t (bs "json") then Some KJson
    else if list_eqb t (bs "yaml") || list_eqb t (bs "yml") then Some KYaml
    else if list_eqb t (bs "text") then Some KText
    else None.
  (* 29-35 *)
  Definition default_output (input t : list Z) : option path :=
    match template (46 :: t) with
    | Some repl => Some (path_join (dirname input) (basename (sub_ext repl input)))
    | None => None
    end.
  (* 14-113; a: the arguments of convert_file, of which a_output is ignored *)
  Definition convert_file (a : args) (output : option path) (t : list Z) (fs : fsys) : fsys * option failure :=
    match (match output with Some o => Some o | None => default_output (a_input a) t end) with
    | None => (fs, Some FTemplate)
    | Some o =>
        if search_end t o
        then match kind_of t with
             | Some k => converter k (set_output a o) fs
             | None => (fs, Some FConverter)
             end
        else (fs, Some FConverter)
    end.

  (* ---------- tools/pdfconvert.py ---------- *)
  (* what argparse gives; p_pagenos: the numbers of the list, if one is given and is not the empty string.
     Not modelled: argparse itself, and int() of the members of the list *)
  Record cli := mkCli { p_files : list path; p_debug : bool; p_pagenos : option (list Z); p_maxpages : Z; p_password : option (list Z);
    p_codec : list Z; p_type : list Z; p_output : path; p_dir : option path; p_nocache : bool }.
  Fixpoint ends_with (s x : list Z) : bool := list_eqb s x || match x with [] => false | _ :: r => ends_with s r end.
  (* 46-52: the last suffix that fits; the defaults of convert_file *)
  Definition cli_type (p : cli) : list Z :=
    if list_eqb (p_type p) (bs "text") && negb (list_eqb (p_output p) (bs "-")) then
      fold_left (fun t o => if ends_with (fst o) (p_output p) then snd o else t)
        [(bs ".htm", bs "html"); (bs ".html", bs "html"); (bs ".xml", bs "xml"); (bs ".tag", bs "tag")] (bs "html")
    else bs "html".
  (* 31-62: the file system after it, and the exit status or the exception.  An output file is opened, and so emptied, and the open
     file is handed to convert_file, where re.search does not take it (TypeError). *)
  Definition cli_main (p : cli) (fs : fsys) : fsys * (Z + failure) :=
    match p_files p with
    | [input] =>
        if list_eqb (p_output p) (bs "-") then
          match convert_file (mkArgs input [] None (p_codec p) (p_maxpages p) (p_password p) (negb (p_nocache p)) true
                   (match p_pagenos p with Some l => Some (map (fun n => n - 1) l) | None => None end) false false 30) None (cli_type p) fs with
          | (fs', None) => (fs', inl 0)
          | (fs', Some f) => (fs', inr f)
          end
        else (put fs (p_output p) [], inr FType)
    | _ => (fs, inl 1)
    end.
End names.

(* ---------- converters/text.py ---------- *)
Section text.
  Context (zlib : list Z -> option (list Z)) (ccitt : list Z -> obj -> res (list Z)).
  Context (md5 sha256 : list Z -> list Z) (aes : list Z -> list Z -> list Z -> res (list Z)).
  Context (glyphs : list Z -> option (list Z)) (bases : list umap) (metrics : list Z -> option (list (obj * obj) * list (list Z * num)))
          (load_cmap : list Z -> option (bool * list (Z * trie))) (load_umap : list Z -> bool -> option umap).
  Context (bufsize : nat) (F f : nat).    (* the read size, and bounds for the work, as in Extract_Model *)
  (* 26-42: the output file is opened first; the input file is opened at the first page.  codec: utf-8 only.  A password that is not
     given counts as the empty one. *)
  Definition to_text (a : args) (fs : fsys) : fsys * option failure :=
    let fs1 := put fs (a_output a) [] in
    match fs1 (a_input a) with
    | None => (fs1, Some FNotFound)
    | Some b =>
        let (w, ex) := extract zlib ccitt md5 sha256 aes glyphs bases metrics load_cmap load_umap (mkEnv b bufsize false (fun o => o))
          (a_caching a) (a_check a) (match a_password a with Some p => p | None => [] end) (match a_pagenos a with Some l => l | None => [] end)
          (a_maxpages a) (a_ignore a) F f in
        (put fs1 (a_output a) w, match ex with Some e => Some (FRaised e) | None => None end)
    end.
End text.
