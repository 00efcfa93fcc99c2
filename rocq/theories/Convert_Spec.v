(* What the converted files must hold, stated on the items of the pages, without the converters. *)
From Coq Require Import String.
From Verif Require Import Base Obj Stream_Spec Num Geom_Model Page_Model Interp_Model Interp_Spec.
From Verif Require Import Markup_Model Markup_Spec Convert_Model.  (* of the models only the types of items and pages *)
From Coq Require Import Qcanon.
Open Scope Z_scope.
Import ListNotations.

(* ---------- UTF-8 (RFC 3629, section 4) ---------- *)
Definition utf8_tail (b : Z) : bool := (128 <=? b) && (b <=? 191).
Definition in_range (a b c : Z) : bool := (a <=? b) && (b <=? c).
Definition ocons {A} (c : A) (r : option (list A)) : option (list A) := match r with Some l => Some (c :: l) | None => None end.
Fixpoint utf8_decode (x : list Z) : option (list Z) :=
  match x with
  | [] => Some []
  | a :: r =>
      if in_range 0 a 127 then ocons a (utf8_decode r)
      else if in_range 194 a 223 then
        match r with
        | b :: r => if utf8_tail b then ocons ((a - 192) * 64 + (b - 128)) (utf8_decode r) else None
        | _ => None
        end
      else if in_range 224 a 239 then
        match r with
        | b :: c :: r =>
            if utf8_tail b && utf8_tail c && (negb (a =? 224) || (160 <=? b)) && (negb (a =? 237) || (b <=? 159))
            then ocons ((a - 224) * 4096 + (b - 128) * 64 + (c - 128)) (utf8_decode r) else None
        | _ => None
        end
      else if in_range 240 a 244 then
        match r with
        | b :: c :: d :: r =>
            if utf8_tail b && utf8_tail c && utf8_tail d && (negb (a =? 240) || (144 <=? b)) && (negb (a =? 244) || (b <=? 143))
            then ocons ((a - 240) * 262144 + (b - 128) * 4096 + (c - 128) * 64 + (d - 128)) (utf8_decode r) else None
        | _ => None
        end
      else None
  end.

(* ---------- the text of a page ---------- *)
(* The characters in the order of the page: those of a text block one char block after the other, those of a form where
   the form stands; nothing else has text. *)
Inductive Reads : list item -> list (list Z) -> Prop :=
| rd_nil : Reads [] []
| rd_text b r cs : Reads r cs -> Reads (IText b :: r) (flat_map (fun cb => map fst (cb_chars cb)) (tb_blocks b) ++ cs)
| rd_form s b k r c1 c2 : Reads k c1 -> Reads r c2 -> Reads (IXObj s b k :: r) (c1 ++ c2)
| rd_none r cs : Reads r cs -> Reads (INone :: r) cs
| rd_curve k w p b st f e r cs : Reads r cs -> Reads (ICurve k w p b st f e :: r) cs
| rd_image s b r cs : Reads r cs -> Reads (IImage s b :: r) cs.
(* a non-negative number in decimal *)
Definition is_decimal (x : list Z) (n : Z) : Prop :=
  x <> [] /\ forallb is_digit x = true /\ decimal_value x = n /\ (hd 0 x = 48 -> x = [48]).
Definition page_title (n : list Z) : list Z := bs "========== [ page " ++ n ++ bs " ] ==========" ++ [10].
(* TextOf d x: x is the text of the document, up to the exception that ended it if there was one *)
Inductive TextOf : odoc -> list Z -> Prop :=
| tx_nil e : TextOf ([], e) []
| tx_page n d w h items cs ps e x : is_decimal d n -> Reads items cs -> TextOf (ps, e) x ->
    TextOf (mkPage n w h (items, None) :: ps, e) (page_title d ++ concat cs ++ [10] ++ x)
| tx_cut n d w h items cs ps e err : is_decimal d n -> Reads items cs ->
    TextOf (mkPage n w h (items, Some err) :: ps, e) (page_title d ++ concat cs).

(* the exception that comes out, if any: that of the first page that has one, or that of the document *)
Inductive Ends : odoc -> option exn -> Prop :=
| en_nil e : Ends ([], e) e
| en_page n w h items ps e x : Ends (ps, e) x -> Ends (mkPage n w h (items, None) :: ps, e) x
| en_cut n w h items ps e err : Ends (mkPage n w h (items, Some err) :: ps, e) (Some err).

(* ---------- the characters a content stream shows ---------- *)
(* said f l texts: a showing operator given the strings and numbers in l shows, with the font f, one character for each code
   of each string, in order; the text of a code the font has no text for is empty. *)
Inductive said (f : font) : list obj -> list (list Z) -> Prop :=
| sd_nil : said f [] []
| sd_num o v l ts : num_of o = Some v -> said f l ts -> said f (o :: l) ts
| sd_str b cids l ts : f_decode f b = Ok cids -> said f l ts ->
    said f (OStr b :: l) (map (fun c => match f_unichr f c with Some t => t | None => [] end) cids ++ ts).
Definition text_words : list string := ["Tf"; "q"; "Q"; "BT"; "ET"; "Tj"; "TJ"; "'"; """"; "Do"; "_q"; "_w"]%string.
Section says.
  Context (fonts : list Z -> option font).                 (* the fonts of the resources *)
  Context (forms : list Z -> list (list Z) -> Prop).        (* the characters a form (or image) XObject shows *)
  (* Says open F saved l texts: with the font F chosen, the fonts in saved put away by q, and a text object open or not, the
     tokens l show characters with the texts given. *)
  Inductive Says : bool -> option font -> list (option font) -> list obj -> list (list Z) -> Prop :=
  | sy_nil F st : Says false F st [] []
  | sy_tok b F st o l ts : ~ among o text_words -> Says b F st l ts -> Says b F st (o :: l) ts
  | sy_Tf b F st n x f l ts : fonts n = Some f -> (forall k, x <> OKwd k) -> Says b (Some f) st l ts -> Says b F st ([OName n; x; OK "Tf"] ++ l) ts
  | sy_q b F st l ts : Says b F (F :: st) l ts -> Says b F st (OK "q" :: l) ts
  | sy_Q b F F' st l ts : Says b F' st l ts -> Says b F (F' :: st) (OK "Q" :: l) ts
  | sy_BT F st l ts : Says true F st l ts -> Says false F st (OK "BT" :: l) ts
  | sy_ET F st l ts : Says false F st l ts -> Says true F st (OK "ET" :: l) ts
  | sy_Do F st n t l ts : forms n t -> Says false F st l ts -> Says false F st ([OName n; OK "Do"] ++ l) (t ++ ts)
  | sy_Tj f st o l t1 ts : said f [o] t1 -> Says true (Some f) st l ts -> Says true (Some f) st ([o; OK "Tj"] ++ l) (t1 ++ ts)
  | sy_TJ f st seq l t1 ts : said f seq t1 -> Says true (Some f) st l ts -> Says true (Some f) st ([OArr seq; OK "TJ"] ++ l) (t1 ++ ts)
  | sy_quote f st o l t1 ts : said f [o] t1 -> Says true (Some f) st l ts -> Says true (Some f) st ([o; OK "'"] ++ l) (t1 ++ ts)
  | sy_dquote f st w c o l t1 ts : (forall k, w <> OKwd k) -> (forall k, c <> OKwd k) -> said f [o] t1 ->
      Says true (Some f) st l ts -> Says true (Some f) st ([w; c; o; OK """"] ++ l) (t1 ++ ts).
End says.

(* ---------- the characters a page shows ---------- *)
(* a dictionary as it stands in a file: its keys are names, each once *)
Definition named (d : list (obj * obj)) : Prop := NoDup (map fst d) /\ Forall (fun e => exists n, fst e = OName n) d.
Section page.
  Context (getobj : Z -> option obj).                  (* the objects of the document *)
  Context (font_at : obj -> option font).              (* the font a font dictionary, or a reference to one, stands for *)
  Context (tokens : list obj -> option (list obj)).    (* the objects in the content streams, if they can be read *)
  (* the subdictionary of that name, or nothing *)
  Definition category (d : list (obj * obj)) (n : string) (e : list (obj * obj)) : Prop :=
    (dict_get d (ON n) = None /\ e = []) \/ (exists v, dict_get d (ON n) = Some v /\ Leads getobj ONull v (ODict e)).
  Definition font_of (fs : list (obj * obj)) (n : list Z) : option font :=
    match dict_get fs (OName n) with Some x => font_at x | None => None end.
  (* the resources of a form: its own dictionary if it has one that is not empty, else those of the page *)
  Definition own_resources (page : obj) (d : list (obj * obj)) (r : obj) : Prop :=
    (dict_get d (ON "Resources") = None /\ r = page) \/ (dict_get d (ON "Resources") = Some (ODict []) /\ r = page) \/
    (exists o rd, dict_get d (ON "Resources") = Some o /\ o <> ODict [] /\ Leads getobj ONull o (ODict rd) /\ r = ODict rd).
  (* PageSays r streams texts: the content in the streams, with the resources r, shows characters with the given texts *)
  Inductive PageSays : obj -> list obj -> list (list Z) -> Prop :=
  | ps_page r d fs xs streams objs texts :
      Leads getobj ONull r (ODict d) -> named d -> category d "Font" fs -> named fs -> category d "XObject" xs -> named xs ->
      tokens streams = Some objs ->
      Says (font_of fs) (fun n t => exists x fd data, dict_get xs (OName n) = Some x /\ Leads getobj ONull x (OStream fd data) /\
              ((dict_get fd (ON "Subtype") = Some (ON "Image") /\ t = []) \/
               (exists fr, dict_get fd (ON "Subtype") = Some (ON "Form") /\ dict_get fd (ON "BBox") <> None /\ own_resources r fd fr /\ PageSays fr [OStream fd data] t)))
           false None [] objs texts ->
      PageSays r streams texts.
End page.
