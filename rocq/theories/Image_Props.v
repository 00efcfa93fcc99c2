(* C99. Saving images. *)
From Coq Require Import String.
From Verif Require Import Base Obj Num A85_Spec Stream_Model Stream_Spec Stream_Props Interp_Model BMP_Model BMP_Spec BMP_Props Markup_Model Convert_Spec TextFile_Props Image_Model Image_Spec.
From Coq Require Import QArith Qcanon Qround ZifyBool ZifyNat.
Open Scope Z_scope.

Lemma join_place a b : a <> [] -> last a 0 <> 47 -> hd 0 b <> 47 -> path_join a b = a ++ [47] ++ b.
Proof.
  intros H1 H2 H3. unfold path_join. destruct (hd 0 b =? 47) eqn:E; [lia|]. destruct a; [contradiction|]. destruct (last (z :: a) 0 =? 47) eqn:F; [lia|reflexivity].
Qed.
Lemma hd_app (a b : list Z) : hd 0 a <> 47 -> hd 0 b <> 47 -> hd 0 (a ++ b) <> 47.
Proof. destruct a; cbn; auto. Qed.
Lemma whole_int x z : Whole x z -> py_int x = z.
Proof.
  intros [H0 H]. destruct x as [n|q]; cbn in *; [exact H|]. destruct H as [H1 H2].
  unfold qtrunc. destruct (qle (qz 0) q) eqn:E.
  - assert (A1 : (inject_Z z <= this q)%Q) by (rewrite <- this_qz; exact H1).
    assert (A2 : (this q < inject_Z (z + 1))%Q) by (rewrite <- this_qz; exact H2).
    pose proof (Qfloor_le (this q)) as F1. pose proof (Qlt_floor (this q)) as F2.
    assert (F3 : (inject_Z z < inject_Z (Qfloor (this q) + 1))%Q) by (eapply Qle_lt_trans; eassumption).
    assert (F4 : (inject_Z (Qfloor (this q)) < inject_Z (z + 1))%Q) by (eapply Qle_lt_trans; eassumption).
    rewrite <- Zlt_Qlt in F3, F4. lia.
  - apply qle_false in E. exfalso. apply (Qclt_not_le _ _ E). eapply Qcle_trans; [|exact H1]. unfold Qcle. rewrite !this_qz, <- Zle_Qle. exact H0.
Qed.
Lemma fput_same f p c : fput f p c p = Some c.
Proof. unfold fput. rewrite list_eqb_refl. reflexivity. Qed.
Lemma fput_other f p c q : q <> p -> fput f p c q = f q.
Proof. intros H. unfold fput. destruct (list_eqb q p) eqn:E; [apply list_eqb_eq in E; contradiction|reflexivity]. Qed.

Section save.
  Context (zlib : list Z -> option (list Z)) (ccitt : list Z -> obj -> res (list Z)) (getobj : Z -> option obj) (depth : nat)
          (pillow : option (list Z) -> res (list Z)).
  Notation get_data := (get_data zlib ccitt getobj depth).
  Notation uses := (uses zlib ccitt getobj depth pillow).
  Notation save_image := (save_image zlib ccitt getobj depth pillow).

  (* a state of the stream in which saving writes c, and which it leaves as good *)
  Lemma kept im own ext plain c (allowed : use -> Prop) (good : pdfstream -> Prop) :
    (forall s, allowed UData -> good s -> exists s', get_data s = (Ok plain, s') /\ good s') ->
    (forall s fs d n, allowed (USave d n) -> good s -> exists s', save_image im s fs d n = (Ok (place own ext d n), s', fput fs (place own ext d n) c) /\ good s') ->
    forall us s fs, Forall allowed us -> good s -> let '(rs, fs') := uses im s fs us in Kept own ext plain c us fs rs fs'.
  Proof.
    intros HD HS us. induction us as [|u us IH]; intros s fs HA HG; inversion HA as [|? ? H1 H2]; subst.
    - cbn. split; [constructor|]. split; [intros p []|reflexivity].
    - destruct u as [|d n]; cbn [Image_Model.uses].
      + destruct (HD s H1 HG) as (s' & E & HG'). rewrite E. specialize (IH s' fs H2 HG'). destruct (uses im s' fs us) as [rs fs'].
        destruct IH as (I1 & I2 & I3). split; [constructor; [reflexivity|exact I1]|]. split; [exact I2|exact I3].
      + destruct (HS s fs d n H1 HG) as (s' & E & HG'). rewrite E. specialize (IH s' (fput fs (place own ext d n) c) H2 HG'). destruct (uses im s' (fput fs (place own ext d n) c) us) as [rs fs'].
        destruct IH as (I1 & I2 & I3). split; [constructor; [reflexivity|exact I1]|].
        unfold places. cbn [flat_map app]. fold (places own ext us). split.
        * intros p Hp. destruct (in_dec (list_eq_dec Z.eq_dec) p (places own ext us)) as [Hi|Hi]; [apply I2, Hi|].
          destruct Hp as [<-|Hp]; [|contradiction]. rewrite I3 by exact Hi. apply fput_same.
        * intros p Hp. rewrite I3 by (intros X; apply Hp; right; exact X). apply fput_other. intros ->. apply Hp. left. reflexivity.
  Qed.

  (* the two states of the stream of an image *)
  Section stream.
    Context (attrs : list (obj * obj)) (chain : list (list Z * obj)) (plain coded raw : list Z) (dec : option (list Z -> res (list Z))).
    Context (Hdepth : (0 < depth)%nat) (HD : Declared attrs chain) (HE : Encoded zlib ccitt chain plain coded)
            (Hdec : match dec with Some f => f raw = Ok coded | None => raw = coded end).
    Definition state (s : pdfstream) : Prop := s = Stream_Model.mkS attrs (Some raw) None dec \/ s = Stream_Model.mkS attrs None (Some plain) dec.
    Lemma state_data s : state s -> get_data s = (Ok plain, Stream_Model.mkS attrs None (Some plain) dec).
    Proof.
      intros [-> | ->]; [|reflexivity]. unfold Stream_Model.get_data, decode. cbn [s_data s_raw s_attrs s_decipher].
      assert (Hraw : match dec with Some f => f raw | None => Ok raw end = Ok coded) by (destruct dec; [assumption|congruence]).
      rewrite Hraw. cbn [bind]. rewrite (C08_filters_partial getobj attrs chain HD). cbn [bind].
      rewrite (encoded_lemma zlib ccitt getobj depth chain plain coded Hdepth HE). reflexivity.
    Qed.
    Lemma state_attrs s : state s -> s_attrs s = attrs.
    Proof. intros [-> | ->]; reflexivity. Qed.
  End stream.
  Lemma jpeg_kind im chain : is_jpeg chain -> kind_of im (map (fun fp => (OName (fst fp), snd fp)) chain) = KJpg.
  Proof. intros (f & p & -> & [<-|[<-|[]]]); reflexivity. Qed.
  Lemma other_kind im chain : ~ is_jpeg chain -> kind_of im (map (fun fp => (OName (fst fp), snd fp)) chain) = if bits_are im 1 then KBmp else KImg.
  Proof.
    intros H. unfold kind_of. destruct chain as [|[f p] [|? ?]]; try reflexivity. cbn [map fst snd is_lit].
    destruct (list_eqb f (bs "DCTDecode")) eqn:E1; [exfalso; apply H; apply list_eqb_eq in E1; exists f, p; split; [reflexivity|left; congruence]|].
    destruct (list_eqb f (bs "DCT")) eqn:E2; [exfalso; apply H; apply list_eqb_eq in E2; exists f, p; split; [reflexivity|right; left; congruence]|]. reflexivity.
  Qed.

  Lemma depth_bits name attrs w h b : Depth attrs b -> im_bits (make name attrs w h) = OInt b.
  Proof. unfold Depth, make. cbn [im_bits get_any]. intros [H|[[H1 H2]|(H1 & H2 & ->)]]; [rewrite H|rewrite H1, H2|rewrite H1, H2]; reflexivity. Qed.
  Lemma bits_spec name attrs w h b n : Depth attrs b -> bits_are (make name attrs w h) n = (b =? n).
  Proof.
    intros H. unfold bits_are. rewrite (depth_bits _ _ _ _ _ H). cbn [num_of]. apply eq_true_iff_eq. rewrite qeqb_iff, Z.eqb_eq.
    split; [|congruence]. intros E. assert (E' : (inject_Z b == inject_Z n)%Q) by (rewrite <- !this_qz, E; reflexivity). unfold Qeq, inject_Z in E'. cbn in E'. lia.
  Qed.

  (* C99. An image that is neither a JPEG file nor of one bit: however often it is saved, and whether its data was asked for or not, every file it
     was saved to holds its decoded data, is called as told, and nothing else is touched. *)
  Theorem C99_data name attrs chain plain coded raw dec w h b zw zh : (0 < depth)%nat -> Declared attrs chain -> Encoded zlib ccitt chain plain coded ->
    match dec with Some f => f raw = Ok coded | None => raw = coded end ->
    ~ is_jpeg chain -> Depth attrs b -> 0 <= b -> b <> 1 -> Whole w zw -> Whole h zh ->
    exists ext, ImgName b zw zh ext /\ forall us fs, Forall (proper name) us ->
      let '(rs, fs') := uses (make name attrs w h) (Stream_Model.mkS attrs (Some raw) None dec) fs us in Kept name ext plain plain us fs rs fs'.
  Proof.
    intros Hd HD HE Hdec HJ HB Hb0 Hb1 HW HH. set (im := make name attrs w h).
    assert (EX : ext_of im KImg = Ok (bs ".b" ++ py_str_int b ++ bs "w" ++ py_str_int zw ++ bs "h" ++ py_str_int zh ++ bs ".img")).
    { unfold ext_of, im. rewrite (depth_bits name attrs w h b HB). cbn [pynum_of]. unfold percent_d. cbn [make im_width im_height].
      rewrite (whole_int _ _ HW), (whole_int _ _ HH). reflexivity. }
    eexists. split; [exists (py_str_int b), (py_str_int zw), (py_str_int zh); splits; try (apply decimal_py); [exact Hb0|apply HW|apply HH|reflexivity]|].
    intros us fs HP. apply (kept im name _ plain plain (proper name) (state attrs plain raw dec)); [| |exact HP|left; reflexivity].
    - intros s _ HS. eexists. split; [apply (state_data attrs chain plain coded raw dec Hd HD HE Hdec s HS)|right; reflexivity].
    - intros s fs0 d n (P1 & P2 & P3) HS. exists (Stream_Model.mkS attrs None (Some plain) dec). split; [|right; reflexivity].
      unfold Image_Model.save_image. rewrite (state_attrs _ _ _ _ s HS), (C08_filters_partial getobj attrs chain HD), (other_kind im chain HJ).
      replace (bits_are im 1) with (b =? 1) by (symmetry; exact (bits_spec name attrs w h b 1 HB)). replace (b =? 1) with false by lia. rewrite EX.
      change (match n with Some n0 => n0 | None => im_name im end) with (name_or name n).
      rewrite join_place by first [assumption | apply hd_app; [exact P3|discriminate]].
      unfold content. rewrite (state_data attrs chain plain coded raw dec Hd HD HE Hdec s HS). reflexivity.
  Qed.
  (* A file name given by the caller that begins with a slash is the whole path: the directory is not looked at. *)
  Theorem C99_absolute name attrs chain plain coded raw dec w h b zw zh n : (0 < depth)%nat -> Declared attrs chain -> Encoded zlib ccitt chain plain coded ->
    match dec with Some f => f raw = Ok coded | None => raw = coded end ->
    ~ is_jpeg chain -> Depth attrs b -> 0 <= b -> b <> 1 -> Whole w zw -> Whole h zh -> hd 0 n = 47 ->
    exists ext, ImgName b zw zh ext /\ forall fs d,
      let '(rs, fs') := uses (make name attrs w h) (Stream_Model.mkS attrs (Some raw) None dec) fs [USave d (Some n)] in
      rs = [RPath (Ok (n ++ ext))] /\ fs' (n ++ ext) = Some plain.
  Proof.
    intros Hd HD HE Hdec HJ HB Hb0 Hb1 HW HH HN. set (im := make name attrs w h).
    assert (EX : ext_of im KImg = Ok (bs ".b" ++ py_str_int b ++ bs "w" ++ py_str_int zw ++ bs "h" ++ py_str_int zh ++ bs ".img")).
    { unfold ext_of, im. rewrite (depth_bits name attrs w h b HB). cbn [pynum_of]. unfold percent_d. cbn [make im_width im_height].
      rewrite (whole_int _ _ HW), (whole_int _ _ HH). reflexivity. }
    eexists. split; [exists (py_str_int b), (py_str_int zw), (py_str_int zh); splits; try (apply decimal_py); [exact Hb0|apply HW|apply HH|reflexivity]|].
    intros fs d. cbn [Image_Model.uses]. unfold Image_Model.save_image. cbn [s_attrs]. rewrite (C08_filters_partial getobj attrs chain HD), (other_kind im chain HJ).
    replace (bits_are im 1) with (b =? 1) by (symmetry; exact (bits_spec name attrs w h b 1 HB)). replace (b =? 1) with false by lia. rewrite EX.
    unfold content. rewrite (state_data attrs chain plain coded raw dec Hd HD HE Hdec _ (or_introl eq_refl)).
    assert (EJ : forall e, path_join d (n ++ e) = n ++ e).
    { intros e. unfold path_join. destruct n as [|c n']; [discriminate HN|]. cbn [hd app] in *. rewrite HN. reflexivity. }
    rewrite EJ. split; [reflexivity|]. unfold fput. rewrite list_eqb_refl. reflexivity.
  Qed.
  Lemma not_cmyk name attrs w h : ~ Cmyk attrs ->
    existsb (fun o => match o with OName n => list_eqb n (bs "DeviceCMYK") | _ => false end) (im_cs (make name attrs w h)) = false.
  Proof.
    intros HC. destruct (existsb _ _) eqn:E; [|reflexivity]. exfalso. apply existsb_exists in E as (o & Ho & Eo). destruct o; try discriminate.
    apply list_eqb_eq in Eo. subst. apply HC. unfold make in Ho. cbn [im_cs get_any] in Ho. unfold Cmyk, Colour.
    destruct (dget attrs "CS") as [c|] eqn:E1; [|destruct (dget attrs "ColorSpace") as [c|] eqn:E2; [|destruct Ho as [Ho|[]]; discriminate]];
      exists c; (split; [tauto|]); destruct c; first [destruct Ho as [Ho|[]]; left; exact Ho|right; eexists; split; [reflexivity|exact Ho]].
  Qed.
  (* C99. A JPEG image of a document that is not encrypted, in colours other than CMYK: saved any number of times, every file holds the JPEG data. *)
  Theorem C99_jpeg_partial name attrs chain raw w h : Declared attrs chain -> is_jpeg chain ->
    ~ Cmyk attrs ->
    forall us fs dec, Forall (proper name) us -> Forall (fun u => u <> UData) us ->
      let '(rs, fs') := uses (make name attrs w h) (Stream_Model.mkS attrs (Some raw) None dec) fs us in Kept name (bs ".jpg") [] raw us fs rs fs'.
  Proof.
    intros HD HJ HC us fs dec HP HU. set (im := make name attrs w h).
    pose proof (not_cmyk name attrs w h HC) as HK. fold im in HK.
    assert (HA : Forall (fun u => proper name u /\ u <> UData) us).
    { apply Forall_forall. intros u Hu. rewrite Forall_forall in HP, HU. split; [apply HP, Hu|apply HU, Hu]. }
    apply (kept im name _ [] raw (fun u => proper name u /\ u <> UData) (fun s => s = Stream_Model.mkS attrs (Some raw) None dec)); [| |exact HA|reflexivity].
    - intros s [_ H]. contradiction.
    - intros s fs0 d n [(P1 & P2 & P3) _] ->. exists (Stream_Model.mkS attrs (Some raw) None dec). split; [|reflexivity].
      unfold Image_Model.save_image. cbn [s_attrs]. rewrite (C08_filters_partial getobj attrs chain HD), (jpeg_kind im chain HJ). cbn [ext_of].
      change (match n with Some n0 => n0 | None => im_name im end) with (name_or name n).
      rewrite join_place by first [assumption | apply hd_app; [exact P3|discriminate]].
      unfold content. rewrite HK. reflexivity.
  Qed.
  (* C99. An image of one bit whose box has, in whole numbers, exactly its size in pixels: every file is a bitmap of that size whose rows are
     the rows of the image. *)
  Theorem C99_bitmap_partial name attrs chain plain coded raw dec w h : (0 < depth)%nat -> Declared attrs chain -> Encoded zlib ccitt chain plain coded ->
    match dec with Some f => f raw = Ok coded | None => raw = coded end ->
    ~ is_jpeg chain -> Depth attrs 1 -> fits 1 w h -> Z.of_nat (length plain) = h * row_bytes 1 w ->
    exists ext g hd, BmpName w h ext /\ read_header g = Some hd /\ hd_width hd = w /\ hd_height hd = h /\ hd_bits hd = 1 /\
      (forall y, 0 <= y < h -> row_of hd g y = part plain (y * row_bytes 1 w) (row_bytes 1 w)) /\
      forall us fs, Forall (proper name) us ->
        let '(rs, fs') := uses (make name attrs (PyInt w) (PyInt h)) (Stream_Model.mkS attrs (Some raw) None dec) fs us in Kept name ext plain g us fs rs fs'.
  Proof.
    intros Hd HD HE Hdec HJ HB HF HL. set (im := make name attrs (PyInt w) (PyInt h)).
    destruct (C57_write_all_partial 1 w h plain HF HL) as (g & hd & G1 & G2 & G3 & G4 & G5 & G6).
    exists (bs ".w" ++ py_str_int w ++ bs "h" ++ py_str_int h ++ bs ".bmp"), g, hd. destruct HF as (F1 & F2 & F3).
    split; [exists (py_str_int w), (py_str_int h); splits; try (apply decimal_py); [lia|lia|reflexivity]|]. splits; try assumption.
    intros us fs HP. apply (kept im name _ plain g (proper name) (state attrs plain raw dec)); [| |exact HP|left; reflexivity].
    - intros s _ HS. eexists. split; [apply (state_data attrs chain plain coded raw dec Hd HD HE Hdec s HS)|right; reflexivity].
    - intros s fs0 d n (P1 & P2 & P3) HS. exists (Stream_Model.mkS attrs None (Some plain) dec). split; [|right; reflexivity].
      unfold Image_Model.save_image. rewrite (state_attrs _ _ _ _ s HS), (C08_filters_partial getobj attrs chain HD), (other_kind im chain HJ).
      replace (bits_are im 1) with true by (symmetry; exact (bits_spec name attrs (PyInt w) (PyInt h) 1 1 HB)). cbv iota.
      change (ext_of im KBmp) with (Ok (bs ".w" ++ py_str_int w ++ bs "h" ++ py_str_int h ++ bs ".bmp")). cbv iota.
      change (match n with Some n0 => n0 | None => im_name im end) with (name_or name n).
      rewrite join_place by first [assumption | apply hd_app; [exact P3|discriminate]].
      unfold content. cbn [im make im_width im_height]. unfold row_bytes in G1. rewrite Z.mul_1_r in G1.
      destruct (bmp_init 1 w h) as [[m hd0]|e] eqn:EB; [|unfold write_all in G1; rewrite EB in G1; discriminate].
      rewrite (state_data attrs chain plain coded raw dec Hd HD HE Hdec s HS), G1. reflexivity.
  Qed.
  (* what happens to a single save of an image of one bit *)
  Lemma save_bitmap name attrs chain w h s fs d n : Declared attrs chain -> ~ is_jpeg chain -> Depth attrs 1 -> s_attrs s = attrs ->
    exists p, save_image (make name attrs w h) s fs d n =
      match content zlib ccitt getobj depth pillow (make name attrs w h) s KBmp with (c, s', None) => (Ok p, s', fput fs p c) | (c, s', Some e) => (Err e, s', fput fs p c) end.
  Proof.
    intros HD HJ HB HA. unfold Image_Model.save_image. rewrite HA, (C08_filters_partial getobj attrs chain HD), (other_kind _ chain HJ), (bits_spec name attrs w h 1 1 HB).
    change (1 =? 1) with true. cbv iota. cbn [ext_of]. eexists. reflexivity.
  Qed.
  (* C99, refuted for images of one bit whose box has a side that is not an int (any that comes from a real number of the file, also 100.0): saving
     raises struct.error and leaves an empty file. *)
  Theorem C99_float_refuted name attrs chain w h s fs d n : Declared attrs chain -> ~ is_jpeg chain -> Depth attrs 1 -> s_attrs s = attrs ->
    (exists q, w = PyFloat q \/ h = PyFloat q) ->
    exists p, save_image (make name attrs w h) s fs d n = (Err StructError, s, fput fs p []).
  Proof.
    intros HD HJ HB HA (q & Hq). destruct (save_bitmap name attrs chain w h s fs d n HD HJ HB HA) as (p & E). exists p. rewrite E.
    unfold content. cbn [make im_width im_height]. destruct w, h; try reflexivity. destruct Hq; discriminate.
  Qed.
  (* C99, refuted: the size of the bitmap is that of the box on the page, whatever the size of the image is (W and H are not looked at). *)
  Theorem C99_size_refuted name attrs chain plain coded raw w h : (0 < depth)%nat -> Declared attrs chain -> Encoded zlib ccitt chain plain coded -> raw = coded ->
    ~ is_jpeg chain -> Depth attrs 1 -> fits 1 w h -> Z.of_nat (length plain) = h * row_bytes 1 w -> forall fs d n,
    exists p s g hd, save_image (make name attrs (PyInt w) (PyInt h)) (Stream_Model.mkS attrs (Some raw) None None) fs d n = (Ok p, s, fput fs p g) /\
      read_header g = Some hd /\ hd_width hd = w /\ hd_height hd = h.
  Proof.
    intros Hd HD HE Hr HJ HB HF HL fs d n. destruct (save_bitmap name attrs chain (PyInt w) (PyInt h) (Stream_Model.mkS attrs (Some raw) None None) fs d n HD HJ HB eq_refl) as (p & E).
    destruct (C57_write_all_partial 1 w h plain HF HL) as (g & hd & G1 & G2 & G3 & G4 & G5 & G6).
    exists p, (Stream_Model.mkS attrs None (Some plain) None), g, hd. splits; try assumption. rewrite E. unfold content. cbn [make im_width im_height].
    unfold row_bytes in G1. rewrite Z.mul_1_r in G1. destruct (bmp_init 1 w h) as [[m hd0]|e] eqn:EB; [|unfold write_all in G1; rewrite EB in G1; discriminate].
    rewrite (state_data attrs chain plain coded raw None Hd HD HE Hr _ (or_introl eq_refl)), G1. reflexivity.
  Qed.
  (* C99, refuted for JPEG images whose data has been asked for before: saving raises TypeError and leaves an empty file. *)
  Theorem C99_jpeg_used_refuted name attrs chain plain coded raw dec w h : (0 < depth)%nat -> Declared attrs chain -> Encoded zlib ccitt chain plain coded ->
    match dec with Some f => f raw = Ok coded | None => raw = coded end -> is_jpeg chain -> ~ Cmyk attrs ->
    forall fs d n, proper name (USave d n) ->
    uses (make name attrs w h) (Stream_Model.mkS attrs (Some raw) None dec) fs [UData; USave d n] = ([RData (Ok plain); RPath (Err TypeError)], fput fs (place name (bs ".jpg") d n) []).
  Proof.
    intros Hd HD HE Hdec HJ HC fs d n (P1 & P2 & P3). cbn [Image_Model.uses].
    rewrite (state_data attrs chain plain coded raw dec Hd HD HE Hdec _ (or_introl eq_refl)).
    unfold Image_Model.save_image. cbn [s_attrs]. rewrite (C08_filters_partial getobj attrs chain HD), (jpeg_kind _ chain HJ). cbn [ext_of].
    change (match n with Some n0 => n0 | None => im_name (make name attrs w h) end) with (name_or name n).
    rewrite join_place by first [assumption | apply hd_app; [exact P3|discriminate]].
    unfold content. rewrite (not_cmyk name attrs w h HC). reflexivity.
  Qed.
  (* C99, refuted for encrypted documents: the file of a JPEG image is the encrypted data, not the data of the image. *)
  Theorem C99_jpeg_encrypted_refuted name attrs chain raw w h : Declared attrs chain -> is_jpeg chain -> ~ Cmyk attrs ->
    forall fs d n f plain, proper name (USave d n) -> f raw = Ok plain ->
    save_image (make name attrs w h) (Stream_Model.mkS attrs (Some raw) None (Some f)) fs d n =
      (Ok (place name (bs ".jpg") d n), Stream_Model.mkS attrs (Some raw) None (Some f), fput fs (place name (bs ".jpg") d n) raw).
  Proof.
    intros HD HJ HC fs d n f plain (P1 & P2 & P3) _. unfold Image_Model.save_image. cbn [s_attrs]. rewrite (C08_filters_partial getobj attrs chain HD), (jpeg_kind _ chain HJ). cbn [ext_of].
    change (match n with Some n0 => n0 | None => im_name (make name attrs w h) end) with (name_or name n).
    rewrite join_place by first [assumption | apply hd_app; [exact P3|discriminate]].
    unfold content. rewrite (not_cmyk name attrs w h HC). reflexivity.
  Qed.
End save.

(* cases *)
Definition gray : list (obj * obj) := [(ON "W", OInt 2); (ON "H", OInt 2); (ON "BitsPerComponent", OInt 8); (ON "ColorSpace", ON "DeviceGray"); (ON "Filter", ON "RL")].
Definition mono : list (obj * obj) := [(ON "W", OInt 10); (ON "H", OInt 2); (ON "Filter", OArr [ON "RunLengthDecode"])].
Definition photo : list (obj * obj) := [(ON "BPC", OInt 8); (ON "CS", ON "DeviceRGB"); (ON "Filter", ON "DCTDecode")].
Example C99_hypotheses : Declared gray [(bs "RL", ODict [])] /\ Encoded (fun _ => None) (fun _ _ => Err TypeError) [(bs "RL", ODict [])] [1; 2; 254; 255] [3; 1; 2; 254; 255] /\
  ~ is_jpeg [(bs "RL", ODict [])] /\ Depth gray 8 /\ Whole (PyFloat (real_val (bs "72.25"))) 72 /\
  Declared mono [(bs "RunLengthDecode", ODict [])] /\ Depth mono 1 /\ fits 1 10 2 /\ Z.of_nat (length [1; 2; 254; 255]) = 2 * row_bytes 1 10 /\
  Declared photo [(bs "DCTDecode", ODict [])] /\ is_jpeg [(bs "DCTDecode", ODict [])] /\ ~ Cmyk photo /\
  Forall (proper (bs "139")) [USave (bs "out") None; UData; USave (bs "/tmp/x") (Some (bs "p0"))] /\
  (exists fs, uses (fun _ => None) (fun _ _ => Err TypeError) (fun _ => None) 1 (fun _ => Err TypeError) (make (bs "139") gray (PyFloat (real_val (bs "72.25"))) (PyInt 36))
     (Stream_Model.mkS gray (Some [3; 1; 2; 254; 255]) None None) (fun _ => None) [USave (bs "out") None; UData; USave (bs "/tmp/x") (Some (bs "p0"))] =
     ([RPath (Ok (bs "out/139.b8w72h36.img")); RData (Ok [1; 2; 254; 255]); RPath (Ok (bs "/tmp/x/p0.b8w72h36.img"))], fs) /\ fs (bs "out/139.b8w72h36.img") = Some [1; 2; 254; 255]).
Proof.
  splits; try reflexivity.
  - apply D_one; reflexivity.
  - eapply E_cons; [apply E_nil|apply P_absent; reflexivity|].
    apply (C_rl _ _ (bs "RL") (ODict []) [Literal [1; 2; 254; 255]]); [right; left; reflexivity|]. constructor; [|constructor]. cbn. lia.
  - intros (f & p & H & K). injection H as <- _. cbn in K. intuition discriminate.
  - right. left. split; reflexivity.
  - unfold Whole. split; [lia|]. split; vm_compute; congruence.
  - eapply (D_array _ [bs "RunLengthDecode"]); reflexivity.
  - right. right. splits; reflexivity.
  - unfold fits. vm_compute. repeat split; discriminate.
  - apply D_one; reflexivity.
  - exists (bs "DCTDecode"), (ODict []). split; [reflexivity|left; reflexivity].
  - intros (c & [H|[H _]] & K); [|discriminate]. injection H as <-. destruct K as [K|(l & K & _)]; discriminate.
  - repeat constructor; discriminate.
  - eexists. split; [vm_compute; reflexivity|reflexivity].
Qed.
