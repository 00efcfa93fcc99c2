(* Model of text extraction from a file: converters/text.py:26-42 on interpreter/__init__.py:18-70, PageInterpreter.py:9-47,
   PDFPage.py:119-140 and the modules below them.  settings.STRICT is False.
   Simplifications: lookups made after the document is opened do not change its caches (C25: the caches do not change what a
   lookup gives), and an exception of a lookup other than PDFObjectNotFound counts as a missing object; fonts are read
   anew for each page (the cache holds what would be read again); the data of the content streams of a page are decoded
   before its first operator is run. *)
From Coq Require Import String.
From Verif Require Import Base Lex_Model Lines_Model Obj Stack_Model Content_Model Stream_Model XRef_Model Doc_Model Num Geom_Model Page_Model Interp_Model
  CMap_Model Font_Model Sec_Model Open_Model Fallback_Model Convert_Model.
Open Scope Z_scope.
Import ListNotations.

Section extract.
  (* zlib.decompress, ccittfaxdecode, the hashes and AES; the tables the package comes with *)
  Context (zlib : list Z -> option (list Z)) (ccitt : list Z -> obj -> res (list Z)).
  Context (md5 sha256 : list Z -> list Z) (aes : list Z -> list Z -> list Z -> res (list Z)).
  Context (glyphs : list Z -> option (list Z)) (bases : list umap) (metrics : list Z -> option (dict * list (list Z * num)))
          (load_cmap : list Z -> option (bool * list (Z * trie))) (load_umap : list Z -> bool -> option umap).

  (* PDFStream.get_data of a stream as it was read; the depth bounds the references followed in its filter parameters *)
  Definition stream_data (getobj : Z -> option obj) (depth : nat) (o : obj) : res (list Z) :=
    match o with
    | OStream attrs raw => fst (get_data zlib ccitt getobj depth (Stream_Model.mkS attrs (Some raw) None None))
    | _ => Err TypeError
    end.
  (* the same for object streams and cross-reference streams; simplification: references in their filter parameters count as null *)
  Definition stored_data (attrs : list (obj * obj)) (raw : list Z) : res (list Z) := stream_data (fun _ => None) 1 (OStream attrs raw).

  Section document.
    Context (n : nat) (getobj : Z -> option obj) (depth : nat).   (* the read size; document.getobj; a bound for every recursion *)
    (* interpreter/commands/utils.py:38-42 *)
    Definition doc_font (o : obj) : res font :=
      do (f, _) <- get_font getobj depth glyphs bases metrics load_cmap load_umap (stream_data getobj depth) n depth [] o; Ok (as_font f).
    Fixpoint all_data (streams : list obj) : res (list (list Z)) :=
      match streams with
      | [] => Ok []
      | o :: r => do s <- validated_stream getobj depth o; do d <- stream_data getobj depth s; do ds <- all_data r; Ok (d :: ds)
      end.
    (* PDFContentParser.py:18-45 and its iteration, which ends at the end of the data; the constructor itself raises PSEOF when
       there is no stream *)
    Definition content (streams : list obj) : gen obj :=
      match all_data streams with
      | Err ex => gfail ex
      | Ok ds => match copen ds with
                 | Err ex => gfail ex
                 | Ok _ => match content_objects n depth ds with (l, PSEOF) => (map snd l, None) | (l, ex) => (map snd l, Some ex) end
                 end
      end.
    (* PageInterpreter.py:9-47: the unpacking of the media box (anything but an array of numbers is a TypeError here), the state,
       and the items of the page *)
    Definition media_box (o : obj) : res (num * num * num * num) :=
      match o with
      | OArr l => match l, nums l with
                  | [_; _; _; _], Some [x0; y0; x1; y1] => Ok (x0, y0, x1, y1)
                  | [_; _; _; _], _ => Err TypeError
                  | _, _ => Err ValueError
                  end
      | _ => Err TypeError
      end.
    Definition interpret_page (ignore : bool) (np : Z * page) : res opage :=
      let (num, p) := np in
      do (x0, y0, x1, y1) <- media_box (pg_mediabox p);
      do s <- prep_state getobj depth doc_font (page_ctm (pg_rotate p) x0 y0 x1 y1) (pg_resources p) ignore;
      let (w, h) := page_size x0 y0 x1 y1 in
      Ok (Convert_Model.mkPage num w h (fst (process getobj depth doc_font content depth s (pg_contents p)))).
    Fixpoint number {A} (i : Z) (l : list A) : list (Z * A) := match l with [] => [] | x :: r => (i, x) :: number (i + 1) r end.
    (* interpreter/__init__.py:41-61: the pages, numbered as they come *)
    Definition interpret (ignore : bool) (pages : gen page) : list opage * option exn :=
      match gmap (interpret_page ignore) (number 0 (fst pages), snd pages) with
      | ([], None) => ([], Some EmptyDocumentError)
      | r => r
      end.
  End document.

  (* get_objids of a section; simplification: an exception only ends the list *)
  Definition section_ids (x : section_) : list Z := match x with STable offs => map fst offs | SStream x => fst (xs_get_objids x) end.

  Section file.
    Context (e : env) (caching check : bool) (password : list Z) (pagenos : list Z) (maxpages : Z) (ignore : bool).
    (* interpreter/__init__.py:18-61 PDFInterpreter: the pages, and the exception that comes out.  F bounds the work of opening the
       document and of lookups, f that of interpreting it. *)
    Definition pages_of (F f : nat) : odoc :=
      match open_sections true e stored_data F with
      | Err ex => gfail ex
      | Ok l =>
          let D := document (set_fallback e true) stored_data F l in
          match scan md5 sha256 aes D caching F password (map snd l) None [] dstate0 with
          | (Err ex, _) => gfail ex
          | (Ok o, s) =>
              let getobj := view md5 aes D caching F (op_handler o) s in
              let all := create_pages getobj f f (op_catalog o) (map (fun x => section_ids (fst x)) l) in
              interpret (bufsiz e) getobj f ignore (get_pages check (permission o (is_extractable)) pagenos maxpages all)
          end
      end.
    (* converters/text.py: the bytes written, and the exception that comes out *)
    Definition extract (F f : nat) : gen Z := text_file (pages_of F f).
  End file.
End extract.
