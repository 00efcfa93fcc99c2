(* Concrete fonts: the hypotheses of C43, C68, C69, C71 are met, and the claims that fail. *)
From Coq Require Import String.
From Verif Require Import Base Lex_Model Lex_Spec Obj Stack_Model Stream_Model Stream_Spec Stream_Props Num Geom_Model Page_Model Interp_Model CMap_Spec CMap_Model CMap_Proofs CMap_Props Font_Model Font_Spec Font_Proofs Font_Props.
From Coq Require Import Qcanon ZifyBool ZifyNat.
Open Scope Z_scope.

Definition nm (s : string) (v : obj) : obj * obj := (ON s, v).
(* a document: 5 is a number, 6 an array, 7 a descriptor, 8 a CID font, 9 a ToUnicode stream *)
Definition w_seq : list obj := [OInt 1; OArr [OInt 500; OReal (bs "600.5")]; OInt 3; OInt 5; OInt 250; OInt 4; OArr [OInt 9]].
Definition cidspec : dict := [nm "Subtype" (ON "CIDFontType2"); nm "Encoding" (ON "Identity-H"); nm "W" (ORef 6); nm "FontDescriptor" (ORef 7)].
Definition fdoc (i : Z) : option obj :=
  if i =? 5 then Some (OInt 500) else if i =? 6 then Some (OArr w_seq) else if i =? 7 then Some (ODict [nm "MissingWidth" (ORef 5)])
  else if i =? 8 then Some (ODict cidspec) else if i =? 9 then Some (OStream [] small_text) else None.
Definition data_of (o : obj) : res (list Z) := match o with OStream _ r => Ok r | _ => Err KeyError end.
Definition helv (n : list Z) : option (dict * list (list Z * num)) :=
  if list_eqb n (bs "Helvetica") then Some ([], [([65], qz 667)]) else None.
Definition mk := make_font fdoc 9 two_glyphs [[(65, [65]); (66, [66])]; []; []; []] helv (fun _ => None) (fun _ _ => None) data_of 5.
Definition gf := history fdoc 9 two_glyphs [[(65, [65]); (66, [66])]; []; []; []] helv (fun _ => None) (fun _ _ => None) data_of 5.
(* the result is the number a/b *)
Definition isq (r : res num) (a b : Z) : bool := match r with Ok q => qeqb (q * qz b)%Qc (qz a) | Err _ => false end.
Definition wd (f : res pfont) (c a b : Z) : bool := match f with Ok f => isq (char_width f c) a b | Err _ => false end.

(* W: 1 -> 500, 2 -> 600.5, 3 -> 250, 4 -> 9 (declared twice), 5 -> 250, others 1000 *)
Example C43_hypotheses : subtype cidspec CID /\ Value fdoc cidspec "W" (OArr []) (OArr w_seq) /\
  Entries WEntry w_seq [(1, qz 500); (2, real_val (bs "600.5")); (3, qz 250); (4, qz 250); (5, qz 250); (4, qz 9)] /\
  (exists f, mk 2 cidspec = Ok f /\ is_vertical f = false) /\ Missing fdoc cidspec (qz 500) /\
  map (fun x => wd (mk 2 cidspec) (fst (fst x)) (snd (fst x)) (snd x)) [(1, 500, 1000); (2, 6005, 10000); (3, 25, 100); (4, 9, 1000); (5, 1, 4); (6, 1, 1); (0, 1, 1)] = repeat true 7.
Proof.
  splits.
  - exists "CIDFontType2"%string. split; [right; left; reflexivity|reflexivity].
  - apply (V_present _ _ _ _ (ORef 6)); [reflexivity|]. eapply Leads_ref; [reflexivity|]. apply Leads_stop; discriminate.
  - apply (En_cons WEntry [OInt 1; OArr [OInt 500; OReal (bs "600.5")]] [(1, qz 500); (2, real_val (bs "600.5"))]).
    { apply (WE_list 1 _ [qz 500; real_val (bs "600.5")]). repeat constructor. }
    apply (En_cons WEntry [OInt 3; OInt 5; OInt 250] [(3, qz 250); (4, qz 250); (5, qz 250)]); [apply (WE_range 3 5); constructor|].
    apply (En_cons WEntry [OInt 4; OArr [OInt 9]] [(4, qz 9)] [] []); [apply (WE_list 4 _ [qz 9]); repeat constructor|constructor].
  - eexists. split; [vm_compute; reflexivity|reflexivity].
  - apply (Mi _ _ [nm "MissingWidth" (ORef 5)] (OInt 500)); [| |constructor].
    + apply (V_present _ _ _ _ (ORef 7)); [reflexivity|]. eapply Leads_ref; [reflexivity|]. apply Leads_stop; discriminate.
    + apply (V_present _ _ _ _ (ORef 5)); [reflexivity|]. eapply Leads_ref; [reflexivity|]. apply Leads_stop; discriminate.
  - vm_compute. reflexivity.
Qed.
(* a default width of 0 is taken for absent: characters get MissingWidth *)
Theorem C43_zero_refuted : wd (mk 2 (cidspec ++ [nm "DW" (OInt 0)])) 77 500 1000 = true.
Proof. vm_compute. reflexivity. Qed.
(* a default width given by reference: every character without a declared width raises TypeError *)
Theorem C43_default_reference_refuted : exists f, mk 2 (cidspec ++ [nm "DW" (ORef 5)]) = Ok f /\ char_width f 77 = Err TypeError.
Proof. eexists. split; [vm_compute; reflexivity|reflexivity]. Qed.
(* widths given by reference inside W are ignored: 1 [w] with the array a reference *)
Theorem C43_array_reference_refuted : fdoc 6 = Some (OArr w_seq) /\
  wd (mk 2 [nm "Subtype" (ON "CIDFontType0"); nm "Encoding" (ON "Identity-H"); nm "W" (OArr [OInt 1; ORef 6])]) 1 1 1 = true.
Proof. split; [reflexivity|vm_compute; reflexivity]. Qed.
(* a vertical font whose DW2 is a reference cannot be built *)
Theorem C43_vertical_reference_refuted : mk 2 [nm "Subtype" (ON "CIDFontType0"); nm "Encoding" (ON "Identity-V"); nm "DW2" (ORef 6)] = Err TypeError.
Proof. vm_compute. reflexivity. Qed.
Example C43_vertical_hypotheses : 
  let spec := [nm "Subtype" (ON "CIDFontType0"); nm "Encoding" (ON "Identity-V"); nm "W2" (OArr [OInt 1; OArr [OInt (-500); OInt 250; OInt 800]; OInt 7; OInt 8; OInt (-1); OInt 2; OInt 3])] in
  Entries W2Entry [OInt 1; OArr [OInt (-500); OInt 250; OInt 800]; OInt 7; OInt 8; OInt (-1); OInt 2; OInt 3]
    [(1, (qz (-500), (qz 250, qz 800))); (7, (qz (-1), (qz 2, qz 3))); (8, (qz (-1), (qz 2, qz 3)))] /\
  exists f, mk 2 spec = Ok f /\ is_vertical f = true /\ char_disp f 1 = (Some (OInt 250), OInt 800) /\ char_disp f 2 = (None, OInt 880) /\
    isq (char_width f 8) (-1) 1000 && isq (char_width f 2) (-1) 1 = true.
Proof.
  cbn zeta. split.
  - apply (En_cons W2Entry [OInt 1; OArr [OInt (-500); OInt 250; OInt 800]] [(1, (qz (-500), (qz 250, qz 800)))]).
    { apply (W2_list 1 _ [(qz (-500), (qz 250, qz 800))]). repeat constructor. }
    apply (En_cons W2Entry [OInt 7; OInt 8; OInt (-1); OInt 2; OInt 3] [(7, (qz (-1), (qz 2, qz 3))); (8, (qz (-1), (qz 2, qz 3)))] [] []); [|constructor].
    apply (W2_range 7 8); constructor.
  - eexists. splits; [vm_compute; reflexivity|reflexivity|reflexivity|reflexivity|vm_compute; reflexivity].
Qed.
(* a font named like one of the standard fonts: its own Widths are ignored *)
Theorem C43_standard_widths_refuted :
  let spec := [nm "Subtype" (ON "Type1"); nm "BaseFont" (ON "Helvetica"); nm "FirstChar" (OInt 65); nm "Widths" (OArr [OInt 500])] in
  wd (mk 2 spec) 65 667 1000 = true.
Proof. vm_compute. reflexivity. Qed.
Example C43_simple_hypotheses :
  let spec := [nm "Subtype" (ON "TrueType"); nm "BaseFont" (ON "ABCDEF+Arial"); nm "FirstChar" (OInt 65); nm "Widths" (OArr [OInt 500; OInt 0]); nm "FontDescriptor" (ORef 7)] in
  map (fun x => wd (mk 2 spec) (fst x) (snd x) 1000) [(64, 500); (65, 500); (66, 0); (67, 500)] = repeat true 4.
Proof. vm_compute. reflexivity. Qed.
(* Type 3: a skewed font matrix adds its third element to the scale of widths (300 * 0.001 is 0.3, not 0.45) *)
Theorem C43_type3_skew_refuted :
  let spec := [nm "Subtype" (ON "Type3"); nm "FontBBox" (OArr [OInt 0; OInt 0; OInt 9; OInt 9]); nm "FirstChar" (OInt 65); nm "Widths" (OArr [OInt 300]);
    nm "FontMatrix" (OArr [OReal (bs "0.001"); OInt 0; OReal (bs "0.0005"); OReal (bs "0.001"); OInt 0; OInt 0])] in
  wd (mk 2 spec) 65 45 100 = true.
Proof. vm_compute. reflexivity. Qed.
Example C43_type3_example :
  let spec := [nm "Subtype" (ON "Type3"); nm "FontBBox" (OArr [OInt 0; OInt 0; OInt 9; OInt 9]); nm "FirstChar" (OInt 65); nm "Widths" (OArr [OInt 300]);
    nm "FontMatrix" (OArr [OReal (bs "0.001"); OInt 0; OInt 0; OReal (bs "0.001"); OInt 0; OInt 0])] in
  wd (mk 2 spec) 65 3 10 = true.
Proof. vm_compute. reflexivity. Qed.

(* C68: ToUnicode (small_text assigns 1 2 3 5), then Differences, then the base encoding *)
Definition t1 : dict := [nm "Subtype" (ON "Type1"); nm "ToUnicode" (ORef 9);
  nm "Encoding" (ODict [nm "Differences" (OArr [OInt 2; ON "eacute"; OInt 66; ON "A"; ON "eacute"])])].
Example C68_hypotheses : exists f, mk 2 t1 = Ok f /\
  map (to_unichr f) [1; 2; 3; 4; 5; 65; 66; 67; 68] = [Some [65]; Some [97]; Some [67]; None; Some [128512]; Some [65]; Some [65]; Some [233]; None] /\
  ToUnicodeOf fdoc data_of t1 [(1, [65]); (2, [66]); (3, [67]); (2, [97]); (5, [128512])] /\
  EncodingOf fdoc two_glyphs [[(65, [65]); (66, [66])]; []; []; []] t1 (fun c => match last_for [(2, [233]); (66, [65]); (67, [233])] c with Some t => Some t
    | None => base [[(65, [65]); (66, [66])]; []; []; []] (bs "StandardEncoding") c end).
Proof.
  eexists. splits.
  - vm_compute. reflexivity.
  - reflexivity.
  - destruct C46_hypotheses as (ts & H1 & H2 & _). eapply (TU_stream _ _ _ (ORef 9) [] small_text); [reflexivity| |reflexivity|exact H1|exact H2].
    eapply Leads_ref; [reflexivity|]. apply Leads_stop; discriminate.
  - eapply (EN_dict _ _ _ t1 _ _ (bs "StandardEncoding") [OInt 2; ON "eacute"; OInt 66; ON "A"; ON "eacute"]).
    + reflexivity.
    + apply Leads_stop; discriminate.
    + right. split; reflexivity.
    + eapply V_present; [reflexivity|]. apply Leads_stop; discriminate.
    + repeat (apply Forall_cons; [first [left; eexists; reflexivity|right; eexists; reflexivity]|]). apply Forall_nil.
    + repeat apply Tx_means; try (apply M_list; reflexivity). apply Tx_nil.
Qed.
(* C69: the same font asked for three times, by reference and directly *)
Example C69_example : length (snd (gf 2 [] [ORef 8; ODict cidspec; ORef 8])) = 1%nat /\
  length (fst (gf 2 [] [ORef 8; ODict cidspec; ORef 8])) = 3%nat.
Proof. split; vm_compute; reflexivity. Qed.
(* C71: a composite font *)
Example C71_hypotheses : let spec := [nm "Subtype" (ON "Type0"); nm "Encoding" (ON "Identity-V"); nm "DescendantFonts" (OArr [ORef 8]); nm "ToUnicode" (ORef 9)] in
  exists f, mk 2 spec = Ok f /\ is_vertical f = true /\ decode f [0; 1; 1; 0] = Ok [1; 256] /\ map (to_unichr f) [1; 4] = [Some [65]; None] /\
  Value fdoc spec "DescendantFonts" ONull (OArr [ORef 8]) /\ Leads fdoc ONull (ORef 8) (ODict cidspec).
Proof.
  cbn zeta. eexists. splits; [vm_compute; reflexivity|reflexivity|reflexivity|reflexivity| |].
  - eapply V_present; [reflexivity|]. apply Leads_stop; discriminate.
  - eapply Leads_ref; [reflexivity|]. apply Leads_stop; discriminate.
Qed.
