From Coq Require Import String ZifyBool ZifyNat.
From Verif Require Import Base Obj Stream_Model Num Geom_Model Page_Model Interp_Model Interp_Spec.
From Coq Require Import Qcanon.
Open Scope Z_scope.

Lemma advance_add v p a b : advance v (advance v p a) b = advance v p (a + b)%Qc.
Proof. destruct p as [x y], v; cbn [advance]; f_equal; ring. Qed.
Lemma advance_0 v p : advance v p (qz 0) = p.
Proof. destruct p as [x y], v; cbn [advance]; f_equal; change (qz 0) with (0%Qc); ring. Qed.

Section code.
  Context (f : font) (ts : tstate) (dx : num).
  Definition glyph_adv (c : Z) : num := (f_width f c * t_size ts * t_scaling ts)%Qc.
  Definition word_adv (c : Z) : num := if c =? 32 then t_wordspace ts else qz 0.
  (* places of the characters and final displacement *)
  Fixpoint code_seq (off : num) (need : bool) (l : list tj) : list (Z * num) * num :=
    match l with
    | [] => ([], off)
    | Adj v :: r => code_seq (off - v * dx)%Qc true r
    | Chr c :: r =>
        let off1 := if need then (off + t_charspace ts)%Qc else off in
        let '(ps, e) := code_seq (off1 + glyph_adv c + word_adv c)%Qc true r in ((c, off1) :: ps, e)
    end.
  Definition char_text (c : Z) : list Z := match f_unichr f c with Some t => t | None => [] end.
  Definition shown (lm : point) (q : Z * num) : list Z * (point * point) :=
    (char_text (fst q), snd (char_box f ts (translate_matrix (t_matrix ts) (advance (f_vertical f) lm (snd q))) (fst q))).
  Definition readable (c : Z) : Prop := t_ignore ts = true \/ f_unichr f c <> None.

  Lemma ts_unichr_ok c : readable c -> ts_unichr f ts c = Ok (char_text c).
  Proof. unfold ts_unichr, char_text, readable. destruct (f_unichr f c); [reflexivity|]. intros [->|H]; [reflexivity|congruence]. Qed.

  Lemma render_cids_code cids lm r : forall off need, Forall readable cids ->
    let n' := need || negb (match cids with [] => true | _ => false end) in
    exists end_, render_cids f ts (advance (f_vertical f) lm off) need cids =
      (advance (f_vertical f) lm end_, map (shown lm) (fst (code_seq off need (map Chr cids))), n', None) /\
      code_seq off need (map Chr cids ++ r) =
        (fst (code_seq off need (map Chr cids)) ++ fst (code_seq end_ n' r), snd (code_seq end_ n' r)) /\
      snd (code_seq off need (map Chr cids)) = end_.
  Proof.
    induction cids as [|c cids IH]; intros off need HR; cbn [map app].
    - exists off. cbn [render_cids code_seq fst map app]. rewrite orb_false_r. destruct (code_seq off need r). split; [reflexivity|]. split; reflexivity.
    - inversion HR as [|? ? H1 H2]; subst. cbn [render_cids]. rewrite (ts_unichr_ok c H1).
      set (off1 := if need then (off + t_charspace ts)%Qc else off).
      assert (E1 : (if need then advance (f_vertical f) (advance (f_vertical f) lm off) (t_charspace ts) else advance (f_vertical f) lm off)
                   = advance (f_vertical f) lm off1).
      { unfold off1. destruct need; [apply advance_add|reflexivity]. }
      rewrite E1. destruct (char_box f ts _ c) as [adv box] eqn:Eb.
      assert (Ea : adv = glyph_adv c).
      { unfold char_box in Eb. destruct (if f_vertical f then _ else _) as [bll bur]. destruct (apply_matrix_pt _ bll), (apply_matrix_pt _ bur).
        destruct (qlt _ _), (qlt _ _); injection Eb as <- _; reflexivity. }
      subst adv. rewrite (advance_add (f_vertical f) lm off1 (glyph_adv c)).
      assert (E2 : (if (c =? 32) && negb (qeqb (t_wordspace ts) (qz 0)) then advance (f_vertical f) (advance (f_vertical f) lm (off1 + glyph_adv c)%Qc) (t_wordspace ts)
                    else advance (f_vertical f) lm (off1 + glyph_adv c)%Qc) = advance (f_vertical f) lm (off1 + glyph_adv c + word_adv c)%Qc).
      { unfold word_adv. destruct (c =? 32); cbn [andb].
        - destruct (qeqb (t_wordspace ts) (qz 0)) eqn:Ew; cbn [negb]; [|apply advance_add].
          apply qeqb_iff in Ew. rewrite Ew. f_equal. change (qz 0) with 0%Qc. ring.
        - f_equal. change (qz 0) with 0%Qc. ring. }
      rewrite E2. destruct (IH (off1 + glyph_adv c + word_adv c)%Qc true H2) as (e & R1 & R2 & R3).
      assert (En : forall b : bool, true || b = true) by reflexivity.
      exists e. rewrite R1. cbn [code_seq]. fold off1.
      destruct (code_seq (off1 + glyph_adv c + word_adv c)%Qc true (map Chr cids)) as [ps e0] eqn:Ec.
      cbn [orb negb] in *. rewrite orb_true_r. cbn [fst snd map] in *. repeat split.
      + unfold shown at 2. cbn [fst snd]. rewrite Eb. reflexivity.
      + rewrite R2. reflexivity.
      + exact R3.
  Qed.

  Lemma render_seq_code seq l : tj_seq (f_decode f) seq l -> forall lm off need,
    Forall (fun x => match x with Chr c => readable c | _ => True end) l ->
    render_seq f ts dx (advance (f_vertical f) lm off) need seq =
      (advance (f_vertical f) lm (snd (code_seq off need l)), map (shown lm) (fst (code_seq off need l)), None).
  Proof.
    induction 1 as [|o v seq l Hn _ IH|b cids seq l Hd _ IH]; intros lm off need HR; cbn [render_seq].
    - reflexivity.
    - inversion HR as [|? ? _ H2]; subst. rewrite Hn, advance_add. cbn [code_seq]. replace (off + - (v * dx))%Qc with (off - v * dx)%Qc by ring. apply IH. assumption.
    - apply Forall_app in HR as [H1 H2]. assert (H1' : Forall readable cids).
      { clear -H1. induction cids as [|c cids IHc]; constructor; inversion H1; subst; [assumption|apply IHc; assumption]. }
      cbn [num_of]. rewrite Hd. destruct (render_cids_code cids lm l off need H1') as (e & R1 & R2 & R3). rewrite R1, R2.
      rewrite (IH lm e _ H2). cbn [fst snd]. rewrite map_app. reflexivity.
  Qed.

  (* no characters: no item *)
  Lemma code_seq_chars off need l : map fst (fst (code_seq off need l)) = flat_map (fun x => match x with Chr c => [c] | _ => [] end) l.
  Proof.
    revert off need; induction l as [|[v|c] l IH]; intros; cbn [code_seq flat_map]; [reflexivity|apply IH|].
    destruct (code_seq _ true l) as [ps e] eqn:E. cbn [fst map app]. f_equal.
    specialize (IH ((if need then (off + t_charspace ts)%Qc else off) + glyph_adv c + word_adv c)%Qc true). rewrite E in IH. exact IH.
  Qed.
End code.

Section versus_spec.
  Context (f : font) (ts : tstate) (tc tw th : num).
  Hypothesis Hc : t_charspace ts = (tc * th)%Qc.
  Hypothesis Hw : t_wordspace ts = (tw * th)%Qc.
  Hypothesis Hs : t_scaling ts = th.
  Notation size := (t_size ts).
  Notation dx := (milli * size * th)%Qc.
  Notation code := (code_seq f ts dx).
  Notation places := (spec_places (f_width f) size tc tw th).
  Notation total := (spec_total (f_width f) size tc tw th).

  Lemma total_cons x l : total (x :: l) = (spec_disp (f_width f) size tc tw th x + total l)%Qc.
  Proof. reflexivity. Qed.

  (* once needcharspace holds *)
  Lemma code_need l : forall off, 
    fst (code off true l) = places (off + tc * th)%Qc l /\ snd (code off true l) = (off + total l)%Qc.
  Proof.
    induction l as [|[v|c] l IH]; intros off; cbn [code_seq spec_places].
    - split; [reflexivity|]. cbn. change (qz 0) with 0%Qc. ring.
    - destruct (IH (off - v * dx)%Qc) as [A B]. rewrite A, B, total_cons. cbn [spec_disp]. split; [f_equal; ring|ring].
    - destruct (IH (off + t_charspace ts + glyph_adv f ts c + word_adv ts c)%Qc) as [A B].
      destruct (code _ true l) as [ps e]. cbn [fst snd] in *. rewrite A, B, total_cons. cbn [spec_disp]. unfold glyph_adv, word_adv.
      rewrite Hc, Hs, Hw. change (qz 0) with 0%Qc. destruct (c =? 32); (split; [f_equal; f_equal; ring|ring]).
  Qed.
  Definition starts_chr (l : list tj) : bool := match l with Chr _ :: _ => true | _ => false end.
  Lemma code_start l off :
    fst (code off false l) = places (if starts_chr l then off else (off + tc * th)%Qc) l /\
    snd (code off false l) = (off + total l - (if starts_chr l then tc * th else qz 0))%Qc.
  Proof.
    destruct l as [|[v|c] l]; cbn [code_seq spec_places starts_chr].
    - split; [reflexivity|]. cbn. change (qz 0) with 0%Qc. ring.
    - destruct (code_need l (off - v * dx)%Qc) as [A B]. rewrite A, B, total_cons. cbn [spec_disp]. change (qz 0) with 0%Qc. split; [f_equal; ring|ring].
    - destruct (code_need l (off + glyph_adv f ts c + word_adv ts c)%Qc) as [A B].
      destruct (code _ true l) as [ps e]. cbn [fst snd] in *. rewrite A, B, total_cons. cbn [spec_disp]. unfold glyph_adv, word_adv.
      rewrite Hs, Hw. change (qz 0) with 0%Qc. destruct (c =? 32); (split; [f_equal; f_equal; ring|ring]).
  Qed.
End versus_spec.

(* the box of a character is that of the two transformed corners *)
Lemma box_of_char f ts m c : box_of (snd (char_box f ts m c)) =
  let '(bll, bur) := if f_vertical f then
      let width := (f_bwidth f * t_size ts)%Qc in
      let '(vx, vy) := f_disp f c in
      let vx' := match vx with None => (width * half)%Qc | Some v => (v * t_size ts * milli)%Qc end in
      let ty := ((qz 1000 - vy) * t_size ts * milli + t_rise ts)%Qc in
      ((- vx', ty + glyph_adv f ts c)%Qc, (- vx' + width, ty)%Qc)
    else ((qz 0, f_descent f * t_size ts + t_rise ts)%Qc, (glyph_adv f ts c, f_descent f * t_size ts + t_rise ts + f_height f * t_size ts)%Qc) in
  let '(x0, y0) := apply_matrix_pt m bll in let '(x1, y1) := apply_matrix_pt m bur in Bbox x0 y0 x1 y1.
Proof.
  unfold char_box. fold (glyph_adv f ts c).
  assert (K : forall x0 y0 x1 y1 : num,
    box_of (let '(a, b) := if qlt x1 x0 then (x1, x0) else (x0, x1) in let '(c', d) := if qlt y1 y0 then (y1, y0) else (y0, y1) in ((a, c'), (b, d))) = Bbox x0 y0 x1 y1).
  { intros. assert (S1 : forall a b, qmin a b = qmin b a /\ qmax a b = qmax b a).
    { intros a b. unfold qmin, qmax. destruct (qlt b a) eqn:E1, (qlt a b) eqn:E2; try (split; reflexivity).
      - apply qlt_iff in E1, E2. exfalso. qc_lra.
      - apply qlt_false in E1, E2. split; apply qc_le_antisym; assumption. }
    unfold Bbox. destruct (qlt x1 x0), (qlt y1 y0); cbn [box_of]; unfold Bbox; rewrite ?(proj1 (S1 x1 x0)), ?(proj2 (S1 x1 x0)), ?(proj1 (S1 y1 y0)), ?(proj2 (S1 y1 y0)); reflexivity. }
  destruct (f_vertical f).
  - destruct (f_disp f c) as [[vx|] vy]; cbv beta iota zeta;
      match goal with |- context [apply_matrix_pt m ?p] => destruct (apply_matrix_pt m p) as [x0 y0] end;
      match goal with |- context [apply_matrix_pt m ?p] => destruct (apply_matrix_pt m p) as [x1 y1] end;
      rewrite <- (K x0 y0 x1 y1); destruct (qlt x1 x0), (qlt y1 y0); reflexivity.
  - cbv beta iota zeta;
      match goal with |- context [apply_matrix_pt m ?p] => destruct (apply_matrix_pt m p) as [x0 y0] end;
      match goal with |- context [apply_matrix_pt m ?p] => destruct (apply_matrix_pt m p) as [x1 y1] end;
      rewrite <- (K x0 y0 x1 y1); destruct (qlt x1 x0), (qlt y1 y0); reflexivity.
Qed.
