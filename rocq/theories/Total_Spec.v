(* Well-formed content (ISO 32000-1, Annex A: operators and their operands), independent of the interpreter: which sequences of
   objects are content, and which characters they show. *)
From Coq Require Import String.
From Verif Require Import Base Obj Stream_Spec Num Geom_Model Page_Model Interp_Model Interp_Spec Convert_Spec.  (* of the models only types *)
Open Scope Z_scope.
Import ListNotations.

(* ---------- operands ---------- *)
Inductive kind := KNum | KInt | KName | KArray.
Definition has_kind (k : kind) (o : obj) : Prop :=
  match k with
  | KNum => (exists z, o = OInt z) \/ (exists t, o = OReal t)
  | KInt => exists z, o = OInt z
  | KName => exists n, o = OName n
  | KArray => exists l, o = OArr l
  end.
Definition N1 := [KNum]. Definition N2 := [KNum; KNum]. Definition N3 := KNum :: N2. Definition N4 := KNum :: N3. Definition N6 := KNum :: KNum :: N4.
(* operators whose operands are of fixed kinds, apart from those that show text, select fonts or colour spaces, paint XObjects or
   save and restore the state *)
Definition plain_ops : list (string * list kind) :=
  [("cm", N6); ("w", N1); ("J", [KInt]); ("j", [KInt]); ("M", N1); ("d", [KArray; KNum]); ("ri", [KName]); ("i", N1);
   ("m", N2); ("l", N2); ("c", N6); ("v", N4); ("y", N4); ("h", []); ("re", N4);
   ("S", []); ("s", []); ("f", []); ("F", []); ("f*", []); ("B", []); ("B*", []); ("b", []); ("b*", []); ("n", []);
   ("G", N1); ("g", N1); ("RG", N3); ("rg", N3); ("K", N4); ("k", N4);
   ("Tc", N1); ("Tw", N1); ("Tz", N1); ("TL", N1); ("Tr", [KInt]); ("Ts", N1); ("Td", N2); ("TD", N2); ("Tm", N6); ("T*", [])]%string.
(* clipping, shading, parameter dictionaries, marked content, compatibility, Type 3 glyphs: with any operands *)
Definition other_ops : list string := ["W"; "W*"; "gs"; "sh"; "MP"; "DP"; "BMC"; "BDC"; "EMC"; "BX"; "EX"; "d0"; "d1"]%string.
Definition operand (o : obj) : Prop := forall k, o <> OKwd k.

Section shows.
  Context (lenient : bool).                                (* codes without text are passed over *)
  Context (fonts : list Z -> font -> Prop).                (* the fonts of the resources *)
  Context (spaces : list Z -> Prop).                       (* the colour spaces that can be selected *)
  Context (forms : list Z -> list (list Z) -> Prop).       (* the characters a form (or image) XObject shows *)
  (* the strings and numbers in l show the texts ts, of at least one character *)
  Definition sayable (f : font) (l : list obj) (ts : list (list Z)) : Prop :=
    said f l ts /\ ts <> [] /\ (lenient = true \/ Forall (fun o => forall b cids, o = OStr b -> f_decode f b = Ok cids -> Forall (fun c => f_unichr f c <> None) cids) l).
  (* Shows open F saved l ts: with the font F selected, the fonts saved put away by q, and a text object open or not, the objects l
     are well-formed content and show characters with the texts ts *)
  Inductive Shows : bool -> option font -> list (option font) -> list obj -> list (list Z) -> Prop :=
  | sh_nil F st : Shows false F st [] []
  | sh_plain b F st n ks args l ts : In (n, ks) plain_ops -> Forall2 has_kind ks args -> Shows b F st l ts -> Shows b F st (args ++ OK n :: l) ts
  | sh_other b F st n args l ts : In n other_ops -> Forall operand args -> Shows b F st l ts -> Shows b F st (args ++ OK n :: l) ts
  | sh_colour b F st n args l ts : In n ["SC"; "SCN"; "sc"; "scn"]%string -> Forall operand args -> Shows b F st l ts -> Shows b F st (args ++ OK n :: l) ts
  | sh_space b F st n c l ts : In n ["CS"; "cs"]%string -> spaces c -> Shows b F st l ts -> Shows b F st ([OName c; OK n] ++ l) ts
  | sh_image b F st d data l ts : Shows b F st l ts -> Shows b F st ([OStream d data; OK "EI"] ++ l) ts
  | sh_Tf b F st n x f l ts : fonts n f -> has_kind KNum x -> Shows b (Some f) st l ts -> Shows b F st ([OName n; x; OK "Tf"] ++ l) ts
  | sh_q b F st l ts : Shows b F (F :: st) l ts -> Shows b F st (OK "q" :: l) ts
  | sh_Q b F F' st l ts : Shows b F' st l ts -> Shows b F (F' :: st) (OK "Q" :: l) ts
  | sh_BT F st l ts : Shows true F st l ts -> Shows false F st (OK "BT" :: l) ts
  | sh_ET F st l ts : Shows false F st l ts -> Shows true F st (OK "ET" :: l) ts
  | sh_Do F st n t l ts : forms n t -> Shows false F st l ts -> Shows false F st ([OName n; OK "Do"] ++ l) (t ++ ts)
  | sh_Tj f st s l t1 ts : sayable f [OStr s] t1 -> Shows true (Some f) st l ts -> Shows true (Some f) st ([OStr s; OK "Tj"] ++ l) (t1 ++ ts)
  | sh_TJ f st seq l t1 ts : sayable f seq t1 -> Shows true (Some f) st l ts -> Shows true (Some f) st ([OArr seq; OK "TJ"] ++ l) (t1 ++ ts)
  | sh_quote f st s l t1 ts : sayable f [OStr s] t1 -> Shows true (Some f) st l ts -> Shows true (Some f) st ([OStr s; OK "'"] ++ l) (t1 ++ ts)
  | sh_dquote f st w c s l t1 ts : has_kind KNum w -> has_kind KNum c -> sayable f [OStr s] t1 ->
      Shows true (Some f) st l ts -> Shows true (Some f) st ([w; c; OStr s; OK """"] ++ l) (t1 ++ ts).
End shows.

(* ---------- pages ---------- *)
Definition families : list string := ["DeviceGray"; "DeviceRGB"; "DeviceCMYK"; "CalGray"; "CalRGB"; "Lab"; "Indexed"; "Separation"; "Pattern"]%string.
Definition numbers (n : nat) (l : list obj) : Prop := length l = n /\ Forall (has_kind KNum) l.
Section page.
  (* font_at: the font a font dictionary, or a reference to one, stands for; tokens: the objects in the content streams *)
  Context (getobj : Z -> option obj) (font_at : obj -> font -> Prop) (tokens : list obj -> list obj -> Prop).
  (* a colour space (8.6): a name, or an array of a family and its parameters *)
  Inductive ColourSpace : obj -> Prop :=
  | cs_name n : In n families -> ColourSpace (ON n)
  | cs_array n params : In n families -> ColourSpace (OArr (ON n :: params))
  | cs_icc x d data k : Leads getobj ONull x (OStream d data) -> dget d "N" = Some (OInt k) -> ColourSpace (OArr [ON "ICCBased"; x])
  | cs_devicen x l r : Leads getobj ONull x (OArr l) -> ColourSpace (OArr (ON "DeviceN" :: x :: r)).
  Definition space_of (cs : list (obj * obj)) (n : list Z) : Prop :=
    match dict_get cs (OName n) with Some _ => True | None => exists f, In f families /\ n = bs f end.
  (* Draws k lenient r streams ts: the content in the streams, with the resources r and forms nested at most k deep, is well formed
     and shows the texts ts *)
  Fixpoint Draws (k : nat) (lenient : bool) (r : obj) (streams : list obj) (ts : list (list Z)) : Prop :=
    match k with
    | O => False
    | S k => exists d fs xs cs objs,
        (Leads getobj ONull r (ODict d) /\ named d /\ category getobj d "Font" fs /\ named fs /\ category getobj d "XObject" xs /\ named xs /\
         category getobj d "ColorSpace" cs /\ named cs /\ (forall o, dict_get d (ON "ProcSet") = Some o -> exists v, Leads getobj ONull o v) /\
         Forall (fun e => exists f, font_at (snd e) f) fs /\ Forall (fun e => exists v, Leads getobj ONull (snd e) v /\ ColourSpace v) cs) /\
        tokens streams objs /\
        Shows lenient (fun n f => exists x, dict_get fs (OName n) = Some x /\ font_at x f) (space_of cs)
          (fun n t => exists x fd data, dict_get xs (OName n) = Some x /\ Leads getobj ONull x (OStream fd data) /\
             ((dict_get fd (ON "Subtype") = Some (ON "Image") /\ t = []) \/
              (exists fr bb l, dict_get fd (ON "Subtype") = Some (ON "Form") /\ dict_get fd (ON "BBox") = Some bb /\ Leads getobj ONull bb (OArr l) /\ numbers 4 l /\
                (forall m, dict_get fd (ON "Matrix") = Some m -> exists ml, Leads getobj ONull m (OArr ml) /\ numbers 6 ml) /\
                own_resources getobj r fd fr /\ Draws k false fr [OStream fd data] t)))
          false None [] objs ts
    end.
End page.
