(* Property C57. *)
From Coq Require Import String.
From Verif Require Export BMP_Model BMP_Spec.
Open Scope Z_scope.
Import ListNotations.

Lemma stride_align bits width : 0 <= width * bits -> align32 ((width * bits + 7) / 8) = stride bits width.
Proof.
  intro H. unfold align32, stride. set (n := width * bits) in *.
  f_equal. replace ((n + 7) / 8 + 3) with ((n + 31) / 8).
  - rewrite Z.div_div by lia. reflexivity.
  - replace (n + 31) with (n + 7 + 3 * 8) by lia. rewrite Z.div_add by lia. reflexivity.
Qed.
Lemma row_fits bits width : 0 <= width * bits -> 0 <= row_bytes bits width <= stride bits width.
Proof.
  intro H. rewrite <- stride_align by exact H. fold (row_bytes bits width). unfold align32.
  assert (0 <= row_bytes bits width) by (apply Z.div_pos; lia).
  pose proof (Z.div_mod (row_bytes bits width + 3) 4 ltac:(lia)). pose proof (Z.mod_pos_bound (row_bytes bits width + 3) 4 eq_refl). lia.
Qed.

(* ---------- files ---------- *)
Definition rd (f : list Z) (p n : nat) : list Z := firstn n (skipn p f).
Lemma rd_app_l a b p n : (p + n <= length a)%nat -> rd (a ++ b) p n = rd a p n.
Proof.
  intro H. unfold rd. rewrite skipn_app, firstn_app. replace (n - length (skipn p a))%nat with 0%nat by (rewrite skipn_length; lia).
  cbn [firstn]. apply app_nil_r.
Qed.
Lemma rd_app_r a b p n : (length a <= p)%nat -> rd (a ++ b) p n = rd b (p - length a) n.
Proof. intro H. unfold rd. rewrite skipn_app, skipn_all2 by exact H. reflexivity. Qed.
Lemma rd_all a n : n = length a -> rd a 0 n = a.
Proof. intros ->. apply firstn_all. Qed.
Lemma rd_firstn m f p n : (p + n <= m)%nat -> rd (firstn m f) p n = rd f p n.
Proof.
  intro H. unfold rd. rewrite skipn_firstn_comm, firstn_firstn. f_equal. lia.
Qed.
Lemma rd_skipn m f p n : rd (skipn m f) p n = rd f (m + p) n.
Proof. unfold rd. rewrite skipn_skipn. f_equal. f_equal. lia. Qed.

Lemma fw_length p d f : d <> [] -> length (file_write p d f) = Nat.max (length f) (p + length d).
Proof.
  intro H. destruct d as [|x d]; [congruence|]. unfold file_write.
  rewrite !app_length, firstn_length, repeat_length, skipn_length. lia.
Qed.
Lemma fw_at p d f : rd (file_write p d f) p (length d) = d.
Proof.
  destruct d as [|x d]; [reflexivity|]. unfold file_write. set (D := x :: d).
  rewrite app_assoc, rd_app_r by (rewrite app_length, firstn_length, repeat_length; lia).
  replace (p - length (firstn p f ++ repeat 0%Z (p - length f)))%nat with 0%nat
    by (rewrite app_length, firstn_length, repeat_length; lia).
  rewrite rd_app_l by lia. apply rd_all. reflexivity.
Qed.
Lemma fw_other p d f q n : (q + n <= length f)%nat -> (q + n <= p \/ p + length d <= q)%nat ->
  rd (file_write p d f) q n = rd f q n.
Proof.
  intros Hl H. destruct d as [|x d]; [reflexivity|]. unfold file_write. set (D := x :: d) in *.
  destruct H as [H|H].
  - rewrite rd_app_l by (rewrite firstn_length; lia). apply rd_firstn. exact H.
  - assert (Z0 : (p - length f = 0)%nat) by lia. rewrite Z0. cbn [repeat app].
    rewrite rd_app_r by (rewrite firstn_length; lia). rewrite firstn_length. replace (Nat.min p (length f)) with p by lia.
    rewrite rd_app_r by lia. rewrite rd_skipn. f_equal. lia.
Qed.

Lemma part_rd f p n : part f p n = rd f (Z.to_nat p) (Z.to_nat n).
Proof. reflexivity. Qed.

Lemma le_val n : forall v, 0 <= v < 256 ^ Z.of_nat n -> fold_right (fun b a => b + 256 * a) 0 (le_bytes n v) = v.
Proof.
  induction n as [|n IH]; intros v H.
  - cbn in *. lia.
  - rewrite Nat2Z.inj_succ, Z.pow_succ_r in H by lia. cbn [le_bytes fold_right].
    assert (E : v = 256 * (v / 256) + v mod 256) by (apply Z.div_mod; lia).
    pose proof (Z.mod_pos_bound v 256 eq_refl). rewrite IH by lia. lia.
Qed.

(* ---------- the writer ---------- *)
Definition ncols_of (bits : Z) : Z := if bits =? 1 then 2 else if bits =? 8 then 256 else 0.
Definition good_bits (bits : Z) : Prop := bits = 1 \/ bits = 8 \/ bits = 24.
(* the sizes fit the fields of the header *)
Definition fits (bits width height : Z) : Prop :=
  0 <= width < 2147483648 /\ 0 <= height < 2147483648 /\
  54 + 4 * ncols_of bits + stride bits width * height < 4294967296.

Lemma ncols_range bits : good_bits bits -> 0 <= ncols_of bits <= 256.
Proof. intros [->|[->| ->]]; vm_compute; split; discriminate. Qed.

Lemma bmp_init_spec bits width height : good_bits bits -> fits bits width height ->
  exists info, bmp_init bits width height =
    Ok (mkBmp bits width height (stride bits width) (stride bits width * height) (54 + 4 * ncols_of bits + stride bits width * height),
        bs "BM" ++ le_bytes 4 (54 + 4 * ncols_of bits + stride bits width * height) ++ le_bytes 2 0 ++ le_bytes 2 0 ++
        le_bytes 4 (54 + 4 * ncols_of bits) ++ le_bytes 4 40 ++ le_bytes 4 width ++ le_bytes 4 height ++ le_bytes 2 1 ++
        le_bytes 2 bits ++ le_bytes 4 0 ++ le_bytes 4 (stride bits width * height) ++ le_bytes 4 0 ++ le_bytes 4 0 ++
        le_bytes 4 (ncols_of bits) ++ le_bytes 4 0 ++ info) /\ info = palette (ncols_of bits).
Proof.
  intros Hb (Hw & Hh & Hs). eexists. split; [|reflexivity].
  assert (Hn := ncols_range bits Hb).
  assert (Hwb : 0 <= width * bits) by (destruct Hb as [->|[->| ->]]; lia).
  pose proof (row_fits bits width Hwb) as Hr.
  assert (0 <= stride bits width * height) by nia.
  assert (E : (if bits =? 1 then Ok 2 else if bits =? 8 then Ok 256 else if bits =? 24 then Ok 0 else Err ValueError) = Ok (ncols_of bits))
    by (destruct Hb as [->|[->| ->]]; reflexivity).
  assert (Hpal : length (palette (ncols_of bits)) = Z.to_nat (4 * ncols_of bits))
    by (destruct Hb as [->|[->| ->]]; vm_compute; reflexivity).
  unfold bmp_init. rewrite E. cbn [bind]. cbv zeta. rewrite stride_align by exact Hwb.
  unfold pack_l, pack_L, pack_H.
  replace ((-2147483648 <=? width) && (width <? 2147483648)) with true by lia.
  replace ((-2147483648 <=? height) && (height <? 2147483648)) with true by lia.
  replace ((0 <=? bits) && (bits <? 65536)) with true by (destruct Hb as [->|[->| ->]]; reflexivity).
  replace ((0 <=? stride bits width * height) && (stride bits width * height <? 4294967296)) with true by lia.
  replace ((0 <=? ncols_of bits) && (ncols_of bits <? 4294967296)) with true by lia.
  replace ((0 <=? 14 + 40 + ncols_of bits * 4 + stride bits width * height) && (14 + 40 + ncols_of bits * 4 + stride bits width * height <? 4294967296)) with true by lia.
  replace ((0 <=? 1) && (1 <? 65536)) with true by reflexivity.
  cbn [bind].
  replace (14 + 40 + ncols_of bits * 4) with (54 + 4 * ncols_of bits) by lia.
  apply f_equal. apply (f_equal2 pair); [|rewrite <- !app_assoc; reflexivity].
  apply f_equal. cbn [le_bytes bs]. rewrite !app_length. cbn [length app]. rewrite Hpal. lia.
Qed.

Lemma num_at_pre a v n b p : p = length a -> 0 <= v < 256 ^ Z.of_nat n -> num_at (a ++ le_bytes n v ++ b) p n = v.
Proof.
  intros -> H. unfold num_at. fold (rd (a ++ le_bytes n v ++ b) (length a) n).
  assert (L : length (le_bytes n v) = n) by (clear; revert v; induction n; intro v; cbn [le_bytes length]; [reflexivity|rewrite IHn; reflexivity]).
  rewrite rd_app_r by lia. rewrite Nat.sub_diag, rd_app_l by lia. rewrite rd_all by (symmetry; exact L). apply le_val. exact H.
Qed.

(* the head of the file does not change once it is written *)
Lemma read_header_rd f g : (54 <= length f)%nat -> (54 <= length g)%nat -> rd f 0 54 = rd g 0 54 -> read_header f = read_header g.
Proof.
  intros Hf Hg H. unfold read_header.
  assert (N : forall p n, (p + n <= 54)%nat -> num_at f p n = num_at g p n).
  { intros p n Hpn. unfold num_at. f_equal. change (rd f p n = rd g p n).
    assert (K : forall h, (54 <= length h)%nat -> rd h p n = rd (rd h 0 54) p n).
    { intros h Hh. unfold rd at 3. cbn [skipn]. rewrite rd_firstn by lia. reflexivity. }
    rewrite (K f Hf), (K g Hg), H. reflexivity. }
  rewrite !N by lia.
  replace (54 <=? Z.of_nat (length f)) with true by lia. replace (54 <=? Z.of_nat (length g)) with true by lia.
  assert (E : firstn 2 f = firstn 2 g).
  { change (rd f 0 2 = rd g 0 2). assert (K : forall h, rd h 0 2 = rd (rd h 0 54) 0 2).
    { intros h. unfold rd at 3. cbn [skipn]. rewrite rd_firstn by lia. reflexivity. }
    rewrite (K f), (K g), H. reflexivity. }
  rewrite E. reflexivity.
Qed.

Section image.
  Variables bits width height : Z.
  Hypothesis Hb : good_bits bits.
  Hypothesis Hf : fits bits width height.
  Let off := 54 + 4 * ncols_of bits.
  Let st := stride bits width.
  Let rb := row_bytes bits width.

  Definition the_header : header :=
    mkHeader (off + st * height) off 40 width height 1 bits 0 (st * height) (ncols_of bits).

  Lemma image_facts : 0 <= ncols_of bits <= 256 /\ 0 <= width * bits /\ 0 <= rb <= st /\ 0 <= st * height /\ 0 <= width /\ 0 <= height.
  Proof.
    destruct Hf as (Hw & Hh & Hs). pose proof (ncols_range bits Hb).
    assert (0 <= width * bits) by (destruct Hb as [->|[->| ->]]; lia).
    pose proof (row_fits bits width H0). unfold rb, st. splits; try lia. nia.
  Qed.

  (* what holds of the file after any calls *)
  Definition head_ok (f : list Z) : Prop :=
    (Z.to_nat off <= length f)%nat /\ read_header f = Some the_header /\
    rd f 54 (Z.to_nat (4 * ncols_of bits)) = palette (ncols_of bits).

  Lemma init_head : exists m f, bmp_init bits width height = Ok (m, f) /\ head_ok f /\ length f = Z.to_nat off /\
    b_linesize m = st /\ b_pos1 m = off + st * height.
  Proof.
    destruct (bmp_init_spec bits width height Hb Hf) as (pal & E & Ep).
    destruct image_facts as (Hn & Hwb & Hr & Hd & Hw & Hh). destruct Hf as (Hw' & Hh' & Hs'). fold st in Hs'.
    assert (Hpal : length pal = Z.to_nat (4 * ncols_of bits))
      by (rewrite Ep; destruct Hb as [->|[->| ->]]; vm_compute; reflexivity).
    assert (Hbits : 0 <= bits < 65536) by (destruct Hb as [->|[->| ->]]; lia).
    eexists _, _. split; [exact E|]. fold st off.
    set (f := bs "BM" ++ _).
    assert (L : length f = Z.to_nat off).
    { unfold f, off. cbn [le_bytes bs app length]. rewrite Hpal. lia. }
    splits; try reflexivity; [|exact L].
    unfold head_ok. splits.
    - lia.
    - unfold read_header. replace (54 <=? Z.of_nat (length f)) with true by (unfold off in L; lia).
      replace (list_eqb (firstn 2 f) (bs "BM")) with true by (unfold f; reflexivity). cbn [andb]. unfold the_header. f_equal.
      unfold f; f_equal.
      + apply (num_at_pre (bs "BM")); [reflexivity|]. change (256 ^ Z.of_nat 4) with 4294967296. unfold off. lia.
      + apply (num_at_pre (bs "BM" ++ le_bytes 4 (off + st * height) ++ le_bytes 2 0 ++ le_bytes 2 0) off 4); [reflexivity|].
        change (256 ^ Z.of_nat 4) with 4294967296. unfold off. lia.
      + apply (num_at_pre (bs "BM" ++ le_bytes 4 (off + st * height) ++ le_bytes 2 0 ++ le_bytes 2 0 ++ le_bytes 4 off ++ le_bytes 4 40) width 4); [reflexivity|].
        change (256 ^ Z.of_nat 4) with 4294967296. lia.
      + apply (num_at_pre (bs "BM" ++ le_bytes 4 (off + st * height) ++ le_bytes 2 0 ++ le_bytes 2 0 ++ le_bytes 4 off ++ le_bytes 4 40 ++ le_bytes 4 width) height 4); [reflexivity|].
        change (256 ^ Z.of_nat 4) with 4294967296. lia.
      + apply (num_at_pre (bs "BM" ++ le_bytes 4 (off + st * height) ++ le_bytes 2 0 ++ le_bytes 2 0 ++ le_bytes 4 off ++ le_bytes 4 40 ++ le_bytes 4 width ++ le_bytes 4 height ++ le_bytes 2 1) bits 2); [reflexivity|].
        change (256 ^ Z.of_nat 2) with 65536. lia.
      + apply (num_at_pre (bs "BM" ++ le_bytes 4 (off + st * height) ++ le_bytes 2 0 ++ le_bytes 2 0 ++ le_bytes 4 off ++ le_bytes 4 40 ++ le_bytes 4 width ++ le_bytes 4 height ++ le_bytes 2 1 ++ le_bytes 2 bits ++ le_bytes 4 0) (st * height) 4); [reflexivity|].
        change (256 ^ Z.of_nat 4) with 4294967296. unfold off in *. lia.
      + apply (num_at_pre (bs "BM" ++ le_bytes 4 (off + st * height) ++ le_bytes 2 0 ++ le_bytes 2 0 ++ le_bytes 4 off ++ le_bytes 4 40 ++ le_bytes 4 width ++ le_bytes 4 height ++ le_bytes 2 1 ++ le_bytes 2 bits ++ le_bytes 4 0 ++ le_bytes 4 (st * height) ++ le_bytes 4 0 ++ le_bytes 4 0) (ncols_of bits) 4); [reflexivity|].
        change (256 ^ Z.of_nat 4) with 4294967296. lia.
    - change f with ((bs "BM" ++ le_bytes 4 (off + st * height) ++ le_bytes 2 0 ++ le_bytes 2 0 ++ le_bytes 4 off ++ le_bytes 4 40 ++ le_bytes 4 width ++ le_bytes 4 height ++ le_bytes 2 1 ++ le_bytes 2 bits ++ le_bytes 4 0 ++ le_bytes 4 (st * height) ++ le_bytes 4 0 ++ le_bytes 4 0 ++ le_bytes 4 (ncols_of bits) ++ le_bytes 4 0) ++ pal).
      rewrite rd_app_r by (cbn [le_bytes bs app length]; lia). cbn [le_bytes bs app length]. change (54 - 54)%nat with 0%nat.
      rewrite rd_all by (symmetry; exact Hpal). exact Ep.
  Qed.

  Definition row_pos (y : Z) : nat := Z.to_nat (off + (height - 1 - y) * st).
  (* the rows are apart *)
  Lemma rows_apart y z : 0 <= y < height -> 0 <= z < height -> y <> z ->
    (row_pos y + Z.to_nat rb <= row_pos z \/ row_pos z + Z.to_nat rb <= row_pos y)%nat.
  Proof.
    intros Hy Hz Hne. destruct image_facts as (Hn & Hwb & Hr & Hd & Hw & Hh). unfold row_pos, off.
    assert (y < z \/ z < y) as [H|H] by lia; [right|left]; nia.
  Qed.
  Lemma row_after_head y : 0 <= y < height -> (Z.to_nat off <= row_pos y)%nat.
  Proof. intro Hy. destruct image_facts as (Hn & Hwb & Hr & Hd & Hw & Hh). unfold row_pos, off. nia. Qed.

  Lemma last_given_snoc y calls p : last_given y (calls ++ [p]) = if fst p =? y then Some (snd p) else last_given y calls.
  Proof. unfold last_given. rewrite fold_left_app. reflexivity. Qed.
  Lemma write_lines_snoc m calls y d : forall f, write_lines m (calls ++ [(y, d)]) f = do f' <- write_lines m calls f; write_line m y d f'.
  Proof.
    induction calls as [|[z e] r IH]; intro f; cbn [app write_lines].
    - cbn [bind]. destruct (write_line m y d f); reflexivity.
    - destruct (write_line m z e f); [|reflexivity]. cbn [bind]. apply IH.
  Qed.

  Lemma write_lines_spec m f calls :
    bmp_init bits width height = Ok (m, f) ->
    Forall (fun p => 0 <= fst p < height /\ length (snd p) = Z.to_nat rb) calls ->
    exists g, write_lines m calls f = Ok g /\ head_ok g /\
      (length g <= Nat.max (Z.to_nat off) (row_pos 0 + Z.to_nat rb))%nat /\
      (forall y d, last_given y calls = Some d -> 0 <= y < height -> (row_pos y + length d <= length g)%nat /\ rd g (row_pos y) (Z.to_nat rb) = d).
  Proof.
    intros Ei. destruct init_head as (m' & f' & E' & Hh & HL & Hl & Hp). rewrite Ei in E'. injection E' as <- <-.
    destruct image_facts as (Hn & Hwb & Hr & Hd & Hw & Hhe).
    induction calls as [|[y d] calls IH] using rev_ind; intro Hc.
    - exists f. splits; [reflexivity|exact Hh|lia|]. intros y d H. discriminate.
    - apply Forall_app in Hc as [Hc Hy]. inversion Hy as [|? ? [Hy1 Hy2] _]; subst. cbn [fst snd] in *.
      destruct (IH Hc) as (g & Eg & Gh & Gl & Gr). rewrite write_lines_snoc, Eg. cbn [bind]. unfold write_line. rewrite Hl, Hp.
      replace (off + st * height - (y + 1) * st) with (off + (height - 1 - y) * st) by lia.
      pose proof (row_after_head y Hy1) as Hra.
      replace (off + (height - 1 - y) * st <? 0) with false by (unfold off in *; nia).
      fold (row_pos y). eexists. split; [reflexivity|].
      assert (Hpos : (row_pos y <= row_pos 0)%nat) by (unfold row_pos; apply Z2Nat.inj_le; unfold off; nia).
      destruct d as [|x d0].
      + (* no pixels: nothing is written *)
        cbn [file_write]. splits; [exact Gh|exact Gl|]. intros z e. rewrite last_given_snoc. cbn [fst snd].
        destruct (Z.eqb_spec y z) as [->|Hne]; [|apply Gr].
        intros [= <-] Hz. cbn [length] in *. split.
        * destruct Gh as (G1 & _). assert (rb = 0) by lia. assert (st = 0).
          { unfold st, rb, row_bytes, stride in *. 
            assert (width * bits + 7 < 8).
            { destruct (Z_lt_le_dec (width * bits + 7) 8) as [|K]; [assumption|]. assert (1 <= (width * bits + 7) / 8) by (apply Z.div_le_lower_bound; lia). lia. }
            assert (width * bits = 0) by lia. rewrite H1. reflexivity. }
          unfold row_pos. rewrite H0. replace (off + (height - 1 - z) * 0) with off by lia. lia.
        * rewrite <- Hy2. unfold rd. reflexivity.
      + set (d := x :: d0) in *. assert (Dn : d <> []) by discriminate.
        splits.
        * destruct Gh as (G1 & G2 & G3). unfold head_ok. rewrite fw_length by exact Dn.
          assert (O : (54 + Z.to_nat (4 * ncols_of bits) = Z.to_nat off)%nat) by (unfold off; lia).
          splits; [lia| |].
          -- rewrite <- G2. apply read_header_rd; [rewrite fw_length by exact Dn; lia|lia|]. apply fw_other; lia.
          -- rewrite <- G3. apply fw_other; lia.
        * rewrite fw_length by exact Dn. lia.
        * intros z e. rewrite last_given_snoc. cbn [fst snd]. destruct (Z.eqb_spec y z) as [->|Hne].
          -- intros [= <-] Hz. split; [rewrite fw_length by exact Dn; lia|]. rewrite <- Hy2. apply fw_at.
          -- intros Hz Hz'. destruct (Gr z e Hz Hz') as [G1 G2].
             assert (Le : length e = Z.to_nat rb).
             { revert Hz. clear - Hc. induction calls as [|[a b] calls IH] using rev_ind; [discriminate|].
               apply Forall_app in Hc as [Hc1 Hc2]. inversion Hc2 as [|? ? [_ Hb] _]; subst. cbn [snd] in Hb.
               rewrite last_given_snoc. cbn [fst snd]. destruct (a =? z); [intros [= <-]; exact Hb|apply IH; exact Hc1]. }
             split; [rewrite fw_length by exact Dn; lia|]. rewrite <- G2. apply fw_other; [lia|].
             destruct (rows_apart y z Hy1 Hz' Hne); lia.
  Qed.
End image.

(* Whatever lines are written, in whatever order and however often: the header declares the image, the colour table is the
   grey scale, and every row that was written reads back as it was last written. *)
Theorem C57_rows bits width height calls : good_bits bits -> fits bits width height ->
  Forall (fun p => 0 <= fst p < height /\ Z.of_nat (length (snd p)) = row_bytes bits width) calls ->
  exists m f g h, bmp_init bits width height = Ok (m, f) /\ write_lines m calls f = Ok g /\ read_header g = Some h /\
    hd_width h = width /\ hd_height h = height /\ hd_bits h = bits /\ hd_planes h = 1 /\ hd_compression h = 0 /\ hd_info h = 40 /\
    hd_offset h = 54 + 4 * hd_colours h /\
    hd_image h = stride bits width * height /\ hd_size h = hd_offset h + hd_image h /\
    (forall i, 0 <= i < hd_colours h -> colour_of g i = let v := if bits =? 1 then 255 * i else i in [v; v; v; 0]) /\
    (forall y d, 0 <= y < height -> last_given y calls = Some d -> row_of h g y = d).
Proof.
  intros Hb Hf Hc. destruct (init_head bits width height Hb Hf) as (m & f & E & Hh & _).
  destruct (write_lines_spec bits width height Hb Hf m f calls E) as (g & Eg & (G1 & G2 & G3) & _ & Gr).
  { eapply Forall_impl; [|exact Hc]. intros p [H1 H2]. split; [exact H1|]. lia. }
  exists m, f, g. eexists. splits; try exact E; try exact Eg; try exact G2; try reflexivity.
  - intros i Hi. unfold the_header, hd_colours in Hi. unfold colour_of. rewrite part_rd.
    pose proof (ncols_range bits Hb) as Hn.
    replace (rd g (Z.to_nat (54 + 4 * i)) (Z.to_nat 4)) with (rd (palette (ncols_of bits)) (Z.to_nat (4 * i)) 4).
    2: { rewrite <- G3. unfold rd at 2. rewrite rd_firstn by lia. rewrite rd_skipn. f_equal; lia. }
    destruct Hb as [->|[->| ->]]; unfold ncols_of in Hi; cbn in Hi.
    + assert (i = 0 \/ i = 1) as [->| ->] by lia; reflexivity.
    + assert (A : forall n, (n < 256)%nat -> rd (palette 256) (4 * n) 4 = [Z.of_nat n; Z.of_nat n; Z.of_nat n; 0]).
      { assert (B : forall l n, (n < length l)%nat -> rd (flat_map (fun i : Z => [i; i; i; 0]) l) (4 * n) 4 = let v := nth n l 0 in [v; v; v; 0]).
        { induction l as [|a l IH]; intros [|n] Hl; cbn [length] in Hl; try lia; [reflexivity|].
          replace (4 * S n)%nat with (S (S (S (S (4 * n))))) by lia. exact (IH n ltac:(lia)). }
        intros n Hlt. change (palette 256) with (flat_map (fun i : Z => [i; i; i; 0]) (map Z.of_nat (seq 0 256))).
        rewrite B by (rewrite map_length, seq_length; exact Hlt). cbv zeta.
        replace (nth n (map Z.of_nat (seq 0 256)) 0) with (Z.of_nat n); [reflexivity|].
        change 0 with (Z.of_nat 0) at 1. rewrite map_nth, seq_nth by exact Hlt. reflexivity. }
      change (ncols_of 8) with 256. replace (Z.to_nat (4 * i)) with (4 * Z.to_nat i)%nat by lia. rewrite A by lia.
      rewrite Z2Nat.id by lia. reflexivity.
    + lia.
  - intros y d Hy Hd. unfold row_of, the_header. cbn [hd_offset hd_height hd_bits hd_width]. rewrite part_rd.
    destruct (Gr y d Hd Hy) as [_ K]. exact K.
Qed.

(* When the rows fill their padded width and the top row was written, the file has exactly the declared size. *)
Theorem C57_size_partial bits width height calls : good_bits bits -> fits bits width height ->
  Forall (fun p => 0 <= fst p < height /\ Z.of_nat (length (snd p)) = row_bytes bits width) calls ->
  row_bytes bits width = stride bits width -> 0 < height -> last_given 0 calls <> None ->
  exists m f g h, bmp_init bits width height = Ok (m, f) /\ write_lines m calls f = Ok g /\ read_header g = Some h /\
    Z.of_nat (length g) = hd_size h.
Proof.
  intros Hb Hf Hc Hs Hh0 Ht. destruct (init_head bits width height Hb Hf) as (m & f & E & Hh & HL & _).
  destruct (write_lines_spec bits width height Hb Hf m f calls E) as (g & Eg & (G1 & G2 & G3) & Gl & Gr).
  { eapply Forall_impl; [|exact Hc]. intros p [H1 H2]. split; [exact H1|]. lia. }
  exists m, f, g. eexists. splits; try exact E; try exact Eg; try exact G2.
  destruct (image_facts bits width height Hb Hf) as (Hn & Hwb & Hr & Hd & Hw & Hhe).
  destruct (last_given 0 calls) as [d|] eqn:Ed; [|congruence].
  destruct (Gr 0 d Ed ltac:(lia)) as [K1 K2].
  assert (Ld : Z.of_nat (length d) = row_bytes bits width).
  { revert Ed. clear - Hc. induction calls as [|[a b] calls IH] using rev_ind; [discriminate|].
    apply Forall_app in Hc as [Hc1 Hc2]. inversion Hc2 as [|? ? [_ Hb] _]; subst. cbn [snd] in Hb.
    rewrite last_given_snoc. cbn [fst snd]. destruct (a =? 0); [intros [= <-]; exact Hb|apply IH; exact Hc1]. }
  unfold the_header. cbn [hd_size]. unfold row_pos in *. 
  assert (stride bits width * height = (height - 1 - 0) * stride bits width + stride bits width) by lia.
  assert (0 <= (height - 1 - 0) * stride bits width) by nia. lia.
Qed.
(* Otherwise the file is always shorter than declared: the padding of the last row on disk is never written. *)
Theorem C57_size_refuted bits width height calls : good_bits bits -> fits bits width height -> 0 < width -> 0 < height ->
  Forall (fun p => 0 <= fst p < height /\ Z.of_nat (length (snd p)) = row_bytes bits width) calls ->
  row_bytes bits width < stride bits width ->
  exists m f g h, bmp_init bits width height = Ok (m, f) /\ write_lines m calls f = Ok g /\ read_header g = Some h /\
    Z.of_nat (length g) < hd_size h.
Proof.
  intros Hb Hf Hw0 Hh0 Hc Hs. destruct (init_head bits width height Hb Hf) as (m & f & E & Hh & HL & _).
  destruct (write_lines_spec bits width height Hb Hf m f calls E) as (g & Eg & (G1 & G2 & G3) & Gl & Gr).
  { eapply Forall_impl; [|exact Hc]. intros p [H1 H2]. split; [exact H1|]. lia. }
  exists m, f, g. eexists. splits; try exact E; try exact Eg; try exact G2.
  destruct (image_facts bits width height Hb Hf) as (Hn & Hwb & Hr & Hd & Hw & Hhe).
  unfold the_header. cbn [hd_size]. unfold row_pos in *.
  assert (stride bits width * height = (height - 1 - 0) * stride bits width + stride bits width) by lia.
  assert (0 <= (height - 1 - 0) * stride bits width) by nia. lia.
Qed.

(* write_all writes every row of a 1-bit image *)
Theorem C57_write_all_partial bits width height data : fits 1 width height ->
  Z.of_nat (length data) = height * row_bytes 1 width ->
  exists g h, write_all bits width height (row_bytes 1 width) data = Ok g /\ read_header g = Some h /\
    hd_width h = width /\ hd_height h = height /\ hd_bits h = 1 /\
    forall y, 0 <= y < height -> row_of h g y = part data (y * row_bytes 1 width) (row_bytes 1 width).
Proof.
  intros Hf Hd. set (rb := row_bytes 1 width) in *.
  set (calls := map (fun y => (Z.of_nat y, slice (Z.of_nat y * rb) rb data)) (seq 0 (Z.to_nat height))).
  destruct Hf as (Hw & Hh & Hs). assert (Hrb : 0 <= rb) by (apply Z.div_pos; lia).
  assert (Hc : Forall (fun p => 0 <= fst p < height /\ Z.of_nat (length (snd p)) = rb) calls).
  { apply Forall_forall. intros p Hp. apply in_map_iff in Hp as (y & <- & Hy). apply in_seq in Hy. cbn [fst snd].
    split; [lia|]. unfold slice. rewrite firstn_length, skipn_length. nia. }
  destruct (C57_rows 1 width height calls (or_introl eq_refl) (conj Hw (conj Hh Hs)) Hc)
    as (m & f & g & h & E1 & E2 & E3 & E4 & E5 & E6 & _ & _ & _ & _ & _ & _ & _ & R).
  exists g, h. splits; try assumption.
  - unfold write_all. rewrite E1. cbn [bind]. exact E2.
  - intros y Hy. apply R; [exact Hy|].
    assert (G : forall n k, last_given y (map (fun y => (Z.of_nat y, slice (Z.of_nat y * rb) rb data)) (seq k n)) =
                if (Z.of_nat k <=? y) && (y <? Z.of_nat (k + n)) then Some (slice (y * rb) rb data) else None).
    { clear - Hy. induction n as [|n IH]; intro k.
      - cbn. replace ((Z.of_nat k <=? y) && (y <? Z.of_nat (k + 0))) with false by lia. reflexivity.
      - rewrite seq_S, map_app. cbn [map]. rewrite last_given_snoc, IH. cbn [fst snd].
        destruct (Z.eqb_spec (Z.of_nat (k + n)) y) as [<-|Hne].
        + replace ((Z.of_nat k <=? Z.of_nat (k + n)) && (Z.of_nat (k + n) <? Z.of_nat (k + S n))) with true by lia. reflexivity.
        + replace ((Z.of_nat k <=? y) && (y <? Z.of_nat (k + S n))) with ((Z.of_nat k <=? y) && (y <? Z.of_nat (k + n))) by lia. reflexivity. }
    unfold calls. rewrite G. replace ((Z.of_nat 0 <=? y) && (y <? Z.of_nat (0 + Z.to_nat height))) with true by lia. reflexivity.
Qed.
(* but an 8- or 24-bit image is always declared as a 1-bit image *)
Theorem C57_depth_refuted bits width height step data : fits 1 width height -> 0 < height -> bits <> 1 ->
  0 <= step -> Z.of_nat (length data) = height * step -> step = row_bytes bits width -> step <= stride 1 width ->
  exists g h, write_all bits width height step data = Ok g /\ read_header g = Some h /\ hd_bits h <> bits.
Proof.
  intros Hf Hh0 Hb Hst Hd Hs Hfit. destruct (init_head 1 width height (or_introl eq_refl) Hf) as (m & f & E & (G1 & G2 & G3) & HL & Hl & Hp).
  destruct (image_facts 1 width height (or_introl eq_refl) Hf) as (Hn & Hwb & Hr & Hdd & Hw & Hhe).
  unfold write_all. rewrite E. cbn [bind].
  set (off := 54 + 4 * ncols_of 1) in *.
  assert (K : forall calls f, (Z.to_nat off <= length f)%nat -> read_header f = Some (the_header 1 width height) ->
    Forall (fun p => 0 <= fst p < height) calls ->
    exists g, write_lines m calls f = Ok g /\ read_header g = Some (the_header 1 width height)).
  { induction calls as [|[y d] r IH]; intros f0 L0 H0 Hc; [exists f0; split; [reflexivity|exact H0]|].
    inversion Hc as [|? ? Hy Hc']; subst. cbn [fst] in Hy. cbn [write_lines]. unfold write_line. rewrite Hl, Hp.
    replace (off + stride 1 width * height - (y + 1) * stride 1 width) with (off + (height - 1 - y) * stride 1 width) by lia.
    assert (off <= off + (height - 1 - y) * stride 1 width) by nia.
    replace (off + (height - 1 - y) * stride 1 width <? 0) with false by (unfold off in *; lia). cbn [bind].
    apply IH; [| |exact Hc'].
    - destruct d as [|x d]; [exact L0|]. rewrite fw_length by discriminate. lia.
    - destruct d as [|x d]; [exact H0|]. rewrite <- H0.
      assert (54 <= off) by (unfold off; lia).
      apply read_header_rd; [rewrite fw_length by discriminate; lia|lia|]. apply fw_other; lia. }
  destruct (K (map (fun y => (Z.of_nat y, slice (Z.of_nat y * step) step data)) (seq 0 (Z.to_nat height))) f) as (g & Eg & Hg);
    [lia|exact G2| |].
  { apply Forall_forall. intros p Hin. apply in_map_iff in Hin as (y & <- & Hy). apply in_seq in Hy. cbn [fst]. lia. }
  exists g, (the_header 1 width height). splits; [exact Eg|exact Hg|]. cbn. congruence.
Qed.
(* a depth that is neither 1, 8 nor 24 is refused *)
Theorem C57_bad_depth bits width height : ~ good_bits bits -> bmp_init bits width height = Err ValueError.
Proof.
  intro H. unfold good_bits in H. unfold bmp_init.
  replace (bits =? 1) with false by lia. replace (bits =? 8) with false by lia. replace (bits =? 24) with false by lia. reflexivity.
Qed.
(* a 10x2 one-bit image, written top row first; and a 5x1 grey image written out of order, twice *)
Example C57_witness :
  fits 1 10 2 /\ (exists g h, write_all 1 10 2 2 [1; 2; 3; 4] = Ok g /\ read_header g = Some h /\ row_of h g 0 = [1; 2] /\ row_of h g 1 = [3; 4] /\
    Z.of_nat (length g) = 68 /\ hd_size h = 70) /\
  (exists m f g h, bmp_init 8 4 2 = Ok (m, f) /\ write_lines m [(1, [9; 9; 9; 9]); (0, [1; 2; 3; 4]); (1, [5; 6; 7; 8])] f = Ok g /\
    read_header g = Some h /\ row_of h g 0 = [1; 2; 3; 4] /\ row_of h g 1 = [5; 6; 7; 8] /\ colour_of g 77 = [77; 77; 77; 0] /\ Z.of_nat (length g) = hd_size h).
Proof.
  splits.
  - unfold fits. vm_compute. repeat split; discriminate.
  - eexists _, _. split; [vm_compute; reflexivity|]. split; [vm_compute; reflexivity|]. vm_compute. auto.
  - do 4 eexists. split; [vm_compute; reflexivity|]. split; [vm_compute; reflexivity|]. split; [vm_compute; reflexivity|]. vm_compute. auto 10.
Qed.
