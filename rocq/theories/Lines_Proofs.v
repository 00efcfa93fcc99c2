From Verif Require Import Base Lex_Model Lex_Chunk Lines_Model Lines_Spec.
From Coq Require Import ZifyBool ZifyNat.

Lemma is_eol_iff c : is_eol c = true <-> eol_byte c.
Proof. unfold is_eol, eol_byte. lia. Qed.
Lemma no_eol_app a b : no_eol (a ++ b) <-> no_eol a /\ no_eol b.
Proof. apply Forall_app. Qed.

Lemma span_eol s : forall a r, span is_eol s = (a, r) -> no_eol a /\ (r = [] \/ exists c r', r = c :: r' /\ eol_byte c).
Proof.
  induction s as [|c s IH]; intros a r H; cbn [span] in H.
  - inv H. split; [constructor|left; reflexivity].
  - destruct (is_eol c) eqn:E.
    + inv H. split; [constructor|]. right. exists c, s. split; [reflexivity|apply is_eol_iff; assumption].
    + destruct (span is_eol s) as [a' r'] eqn:E2. inv H. destruct (IH a' r eq_refl) as [I1 I2]. split; [|assumption].
      constructor; [|assumption]. rewrite <- is_eol_iff. congruence.
Qed.

(* the loop after a CR *)
Lemma eol_true f line b cs : nonempty cs -> (1 <= f)%nat ->
  match b ++ concat cs with
  | [] => fst (nextline_loop f line true b cs) = Err PSEOF
  | c :: r => if c =? 10
              then fst (nextline_loop f line true b cs) = Ok (line ++ [10]) /\
                   let st := snd (nextline_loop f line true b cs) in fst st ++ concat (snd st) = r /\ nonempty (snd st)
              else fst (nextline_loop f line true b cs) = Ok line /\
                   let st := snd (nextline_loop f line true b cs) in fst st ++ concat (snd st) = c :: r /\ nonempty (snd st)
  end.
Proof.
  intros Hne Hf. destruct f; [lia|]. cbn [nextline_loop].
  destruct b as [|x b]; cbn [fillbuf app].
  - destruct cs as [|c cs]; [reflexivity|]. inversion_clear Hne as [|? ? Hc Hne']. destruct c as [|x b]; [congruence|].
    cbn [concat app]. destruct (Z.eqb_spec x 10) as [->|]; cbn; splits; try reflexivity; assumption.
  - destruct (Z.eqb_spec x 10) as [->|]; cbn; splits; try reflexivity; assumption.
Qed.

(* the invariant of the loop before the end of line *)
Lemma eol_false : forall f line b cs, nonempty cs -> no_eol line ->
  (length cs + (match b with [] => 2 | _ => 3 end) <= f)%nat ->
  let out := nextline_loop f line false b cs in
  match fst out with
  | Ok l => exists a tail, l = line ++ a /\ b ++ concat cs = a ++ tail /\ Line (line ++ a) tail /\
              fst (snd out) ++ concat (snd (snd out)) = tail /\ nonempty (snd (snd out))
  | Err e => e = PSEOF /\ unfinished_line (line ++ b ++ concat cs)
  end.
Proof.
  induction f as [|f IH]; intros line b cs Hne Hl Hf; [destruct b; lia|]. cbn [nextline_loop]. cbv zeta.
  destruct (fillbuf b cs) as [[b1 cs1]|] eqn:Ef.
  - assert (Hb1 : b1 <> [] /\ b ++ concat cs = b1 ++ concat cs1 /\ nonempty cs1 /\ (length cs1 + 3 <= S f)%nat).
    { destruct b as [|x b]; cbn [fillbuf] in Ef.
      - destruct cs as [|c cs]; [discriminate|]. inv Ef. inversion_clear Hne. cbn [length] in Hf. splits; try assumption; try reflexivity; lia.
      - inv Ef. splits; try assumption; try reflexivity; try discriminate; lia. }
    destruct Hb1 as (Hb1 & Hcat & Hne1 & Hf1). rewrite Hcat.
    destruct (span is_eol b1) as [a r] eqn:Es. pose proof (span_app _ _ _ _ Es) as Eb. destruct (span_eol _ _ _ Es) as [Ha Hr].
    destruct Hr as [->|(c & r' & -> & Hc)].
    + rewrite app_nil_r in Eb. subst a.
      specialize (IH (line ++ b1) [] cs1 Hne1). cbv zeta in IH.
      assert (Hnl : no_eol (line ++ b1)) by (apply no_eol_app; split; assumption).
      specialize (IH Hnl ltac:(cbn; lia)). cbn [app] in IH.
      destruct (nextline_loop f (line ++ b1) false [] cs1) as [[l|e] st]; cbn [fst snd] in *.
      * destruct IH as (a & tail & I1 & I2 & I3 & I4 & I5). exists (b1 ++ a), tail.
        rewrite <- !app_assoc in *. splits; try assumption. rewrite I2. reflexivity.
      * rewrite <- !app_assoc in IH. exact IH.
    + destruct (Z.eqb_spec c 13) as [->|Hc13].
      * pose proof (eol_true f (line ++ a ++ [13]) r' cs1 Hne1 ltac:(lia)) as T.
        destruct (r' ++ concat cs1) as [|x rest] eqn:Er.
        -- destruct (nextline_loop f (line ++ a ++ [13]) true r' cs1) as [[l|e] st]; cbn [fst snd] in *; [discriminate T|].
           injection T as ->. split; [reflexivity|]. exists (line ++ a). split; [apply no_eol_app; split; assumption|].
           right. subst b1. rewrite <- !app_assoc. cbn [app]. rewrite Er. reflexivity.
        -- destruct (x =? 10) eqn:Ex; destruct T as (T1 & T2 & T3);
             destruct (nextline_loop f (line ++ a ++ [13]) true r' cs1) as [[l|e] st]; cbn [fst snd] in *; try discriminate T1;
             injection T1 as ->.
           ++ exists (a ++ [13; 10]), rest. rewrite <- !app_assoc. cbn [app]. splits; try assumption; try reflexivity.
              { subst b1. rewrite <- app_assoc. cbn [app]. rewrite Er. f_equal. f_equal. f_equal. lia. }
              rewrite app_assoc. apply Line_crlf. apply no_eol_app; split; assumption.
           ++ exists (a ++ [13]), (x :: rest). rewrite <- !app_assoc. cbn [app]. splits; try assumption; try reflexivity.
              { subst b1. rewrite <- app_assoc. cbn [app]. rewrite Er. reflexivity. }
              rewrite app_assoc. apply Line_cr; [apply no_eol_app; split; assumption|lia].
      * cbn [fst snd]. destruct Hc as [->|]; [|congruence]. exists (a ++ [10]), (r' ++ concat cs1).
        rewrite <- !app_assoc. cbn [app]. splits; try assumption; try reflexivity.
        { subst b1. rewrite <- app_assoc. reflexivity. }
        rewrite app_assoc. apply Line_lf. apply no_eol_app; split; assumption.
  - destruct b as [|x b]; [|discriminate]. destruct cs as [|c cs]; [|discriminate].
    cbn [fst]. split; [reflexivity|]. cbn. rewrite app_nil_r. exists line. split; [assumption|left; reflexivity].
Qed.

Lemma nextline_spec pos b cs : nonempty cs ->
  match nextline pos b cs with
  | (Ok (p, l), (pos', b', cs')) => p = pos /\ pos' = pos + Z.of_nat (length l) /\ nonempty cs' /\
       b ++ concat cs = l ++ b' ++ concat cs' /\ Line l (b' ++ concat cs')
  | (Err e, _) => e = PSEOF /\ unfinished_line (b ++ concat cs)
  end.
Proof.
  intros Hne. unfold nextline.
  pose proof (eol_false (length cs + 3) [] b cs Hne ltac:(constructor) ltac:(destruct b; lia)) as H. cbv zeta in H.
  destruct (nextline_loop _ _ _ _ _) as [[l|e] st]; cbn [fst snd app] in *.
  - destruct H as (a & tail & -> & H2 & H3 & H4 & H5). splits; try reflexivity; try assumption; rewrite H4; assumption.
  - exact H.
Qed.

Lemma line_nonempty l r : Line l r -> (1 <= length l)%nat.
Proof. intros []; rewrite app_length; cbn [length]; lia. Qed.

Lemma all_lines_spec : forall f pos b cs, nonempty cs -> (length (b ++ concat cs) < f)%nat ->
  exists rest, Lines pos (fst (all_lines f pos b cs)) rest (b ++ concat cs) /\ unfinished_line rest /\
    snd (all_lines f pos b cs) = PSEOF.
Proof.
  induction f as [|f IH]; intros pos b cs Hne Hf; [lia|]. cbn [all_lines].
  pose proof (nextline_spec pos b cs Hne) as H.
  destruct (nextline pos b cs) as [[[p l]|e] [[pos' b'] cs']].
  - destruct H as (-> & -> & Hne' & Hcat & HL). rewrite Hcat in *. pose proof (line_nonempty _ _ HL) as Hl.
    rewrite app_length in Hf.
    destruct (IH (pos + Z.of_nat (length l)) b' cs' Hne' ltac:(lia)) as (rest & I1 & I2 & I3).
    exists rest. destruct (all_lines f _ b' cs') as [ls e]. cbn [fst snd] in *. splits; try assumption.
    apply Lines_cons; assumption.
  - destruct H as (-> & H). cbn [fst snd]. exists (b ++ concat cs). splits; [constructor|assumption|reflexivity].
Qed.

(* the decomposition is unique *)
Lemma no_eol_split a a' c c' r r' : no_eol a -> no_eol a' -> eol_byte c -> eol_byte c' ->
  a ++ c :: r = a' ++ c' :: r' -> a = a' /\ c = c' /\ r = r'.
Proof.
  intros Ha. revert a'. induction Ha as [|x a Hx Ha IH]; intros a' Ha' Hc Hc' E.
  - destruct Ha' as [|y a' Hy Ha']; [injection E as <- <-; splits; reflexivity|]. injection E as <- _. tauto.
  - destruct Ha' as [|y a' Hy Ha']; [injection E as <- _; tauto|]. injection E as <- E.
    destruct (IH a' Ha' Hc Hc' E) as (-> & -> & ->). splits; reflexivity.
Qed.

Lemma line_form l r : Line l r -> exists a c u, no_eol a /\ eol_byte c /\ l ++ r = a ++ c :: u /\
  l = a ++ c :: (if c =? 13 then match u with x :: _ => if x =? 10 then [10] else [] | [] => [] end else []).
Proof.
  intros [body rest H|body rest H|body c rest H Hc].
  - exists body, 10, rest. rewrite <- app_assoc. splits; try assumption; try reflexivity. left; reflexivity.
  - exists body, 13, (10 :: rest). rewrite <- app_assoc. splits; try assumption; try reflexivity. right; reflexivity.
  - exists body, 13, (c :: rest). rewrite <- app_assoc. splits; try assumption; try reflexivity.
    + right; reflexivity.
    + cbn. replace (c =? 10) with false by lia. reflexivity.
Qed.

Lemma line_unique l1 r1 l2 r2 : Line l1 r1 -> Line l2 r2 -> l1 ++ r1 = l2 ++ r2 -> l1 = l2 /\ r1 = r2.
Proof.
  intros H1 H2 E. destruct (line_form _ _ H1) as (a & c & u & Ha & Hc & E1 & L1).
  destruct (line_form _ _ H2) as (a' & c' & u' & Ha' & Hc' & E2 & L2).
  rewrite E1, E2 in E. destruct (no_eol_split _ _ _ _ _ _ Ha Ha' Hc Hc' E) as (<- & <- & <-).
  assert (El : l1 = l2) by congruence. split; [assumption|]. subst l2. rewrite <- L1 in *. 
  apply (app_inv_head l1). congruence.
Qed.

Lemma line_not_unfinished l r : Line l r -> ~ unfinished_line (l ++ r).
Proof.
  intros H (body & Hb & E).
  destruct E as [E|E].
  - destruct (line_form _ _ H) as (a & c & u & Ha & Hc & E1 & _). rewrite E1 in E. subst body.
    apply no_eol_app in Hb as [_ Hb]. inversion_clear Hb. tauto.
  - destruct (line_form _ _ H) as (a & c & u & Ha & Hc & E1 & EL). rewrite E1 in E.
    destruct (no_eol_split _ _ _ _ _ _ Ha Hb Hc (or_intror eq_refl) E) as (-> & -> & ->). cbn in EL.
    destruct H as [b0 rest Hb0|b0 rest Hb0|b0 c rest Hb0 Hc0].
    + apply app_inj_tail in EL as [_ EL]. discriminate.
    + assert (length (b0 ++ [13; 10]) = length (body ++ [13])) by congruence.
      change [13; 10] with ([13] ++ [10]) in EL. rewrite app_assoc in EL. apply app_inj_tail in EL as [_ EL]. discriminate.
    + rewrite EL in E1. rewrite <- app_assoc in E1. apply app_inv_head in E1. discriminate.
Qed.

Lemma lines_unique data : forall pos ls1 r1 ls2 r2, Lines pos ls1 r1 data -> Lines pos ls2 r2 data ->
  unfinished_line r1 -> unfinished_line r2 -> ls1 = ls2 /\ r1 = r2.
Proof.
  intros pos ls1 r1 ls2 r2 H. revert ls2 r2. induction H as [pos rest|pos l ls rest tail HL H IH]; intros ls2 r2 H2 U1 U2.
  - destruct H2 as [|pos l ls rest tail HL H2]; [split; reflexivity|]. exfalso. apply (line_not_unfinished _ _ HL U1).
  - inversion H2 as [? ? A|pos' l' ls' rest' tail' HL' H2' A B C D].
    + subst. exfalso. apply (line_not_unfinished _ _ HL U2).
    + subst. destruct (line_unique _ _ _ _ HL HL' ltac:(congruence)) as [-> ->].
      destruct (IH _ _ H2' U1 U2) as [-> ->]. split; reflexivity.
Qed.

Lemma lines_data pos ls rest data : Lines pos ls rest data -> data = concat (map snd ls) ++ rest.
Proof. induction 1; cbn; [reflexivity|]. rewrite <- app_assoc. congruence. Qed.

(* ---- backward ---- *)
Lemma last_eol_none s : last_eol s = None -> no_eol s.
Proof.
  induction s as [|c s IH]; cbn [last_eol]; intros H; [constructor|].
  destruct (last_eol s) as [[a b]|]; [discriminate|]. destruct (is_eol c) eqn:E; [discriminate|].
  constructor; [rewrite <- is_eol_iff; congruence|]. apply IH; reflexivity.
Qed.
Lemma last_eol_some s : forall a b, last_eol s = Some (a, b) -> s = a ++ b /\ Segment b.
Proof.
  induction s as [|c s IH]; cbn [last_eol]; intros a b H; [discriminate|].
  destruct (last_eol s) as [[a' b']|] eqn:E.
  - inv H. destruct (IH a' b eq_refl) as [-> I]. split; [reflexivity|assumption].
  - destruct (is_eol c) eqn:Ec; [|discriminate]. inv H. split; [reflexivity|].
    exists c, s. splits; [reflexivity|apply is_eol_iff; assumption|apply last_eol_none; assumption].
Qed.

Lemma segment_app b buf : Segment b -> no_eol buf -> Segment (b ++ buf).
Proof.
  intros (c & r & -> & Hc & Hr) Hb. exists c, (r ++ buf). splits; [reflexivity|assumption|].
  apply no_eol_app; split; assumption.
Qed.

Lemma rev_inner_spec : forall f s buf ys buf', (length s < f)%nat -> no_eol buf -> rev_inner f s buf = (ys, buf') ->
  no_eol buf' /\ Forall Segment ys /\ s ++ buf = buf' ++ concat (rev ys).
Proof.
  induction f as [|f IH]; intros s buf ys buf' Hf Hb H; [lia|]. cbn [rev_inner] in H.
  destruct (last_eol s) as [[a b]|] eqn:E.
  - destruct (last_eol_some _ _ _ E) as [-> Hs]. destruct (rev_inner f a []) as [ys0 b0] eqn:E2. inv H.
    assert (Hla : (length a < f)%nat).
    { rewrite app_length in Hf. destruct Hs as (c & r & -> & _). cbn [length] in Hf. lia. }
    destruct (IH a [] ys0 buf' Hla ltac:(constructor) E2) as (I1 & I2 & I3). rewrite app_nil_r in I3.
    splits; [assumption| |].
    + constructor; [apply segment_app; assumption|assumption].
    + cbn [rev]. rewrite concat_app. cbn [concat]. rewrite app_nil_r, <- app_assoc, I3, <- app_assoc. reflexivity.
  - inv H. apply last_eol_none in E. splits; [apply no_eol_app; split; assumption|constructor|].
    cbn. rewrite app_nil_r. reflexivity.
Qed.

Lemma rev_outer_spec n data : (0 < n)%nat -> forall f prevpos buf, (prevpos < f)%nat -> (prevpos <= length data)%nat -> no_eol buf ->
  exists head, no_eol head /\ Forall Segment (rev_outer f n data prevpos buf) /\
    firstn prevpos data ++ buf = head ++ concat (rev (rev_outer f n data prevpos buf)).
Proof.
  intros Hn. induction f as [|f IH]; intros prevpos buf Hf Hp Hb; [lia|]. cbn [rev_outer].
  destruct prevpos as [|pp]. { exists buf. rewrite firstn_O. cbn. rewrite app_nil_r. splits; [assumption|constructor|reflexivity]. }
  remember (S pp) as prevpos. set (pos := (prevpos - n)%nat). remember (firstn (prevpos - pos) (skipn pos data)) as s eqn:Es.
  assert (Hls : length s = (prevpos - pos)%nat). { rewrite Es, firstn_length, skipn_length. unfold pos. lia. }
  destruct s as [|x s0]. { cbn in Hls. unfold pos in Hls. lia. }
  remember (x :: s0) as s. clear Heqs x s0.
  destruct (rev_inner (S (length s)) s buf) as [ys buf'] eqn:Ei.
  destruct (rev_inner_spec _ _ _ _ _ (Nat.lt_succ_diag_r _) Hb Ei) as (I1 & I2 & I3).
  destruct (IH pos buf' ltac:(unfold pos in *; lia) ltac:(unfold pos in *; lia) I1) as (head & J1 & J2 & J3).
  exists head. splits; [assumption|apply Forall_app; split; assumption|].
  rewrite rev_app_distr, concat_app, app_assoc, <- J3, <- app_assoc, <- I3, app_assoc. f_equal.
  rewrite Es. rewrite <- (firstn_skipn pos (firstn prevpos data)), firstn_firstn.
  replace (Nat.min pos prevpos) with pos by (unfold pos; lia). f_equal.
  rewrite skipn_firstn_comm. reflexivity.
Qed.

Lemma segs_unique : forall ys1 ys2 h1 h2, no_eol h1 -> no_eol h2 -> Forall Segment ys1 -> Forall Segment ys2 ->
  h1 ++ concat ys1 = h2 ++ concat ys2 -> h1 = h2 /\ ys1 = ys2.
Proof.
  induction ys1 as [|y1 ys1 IH]; intros ys2 h1 h2 H1 H2 S1 S2 E.
  - cbn in E. rewrite app_nil_r in E. destruct ys2 as [|y2 ys2]; [cbn in E; rewrite app_nil_r in E; split; [assumption|reflexivity]|].
    apply Forall_inv in S2. destruct S2 as (c & r & -> & Hc & Hr). subst h1. apply no_eol_app in H1 as [_ H1]. cbn in H1. apply Forall_inv in H1; cbv beta in H1; contradiction.
  - pose proof (Forall_inv_tail S1) as S1'. apply Forall_inv in S1. destruct S1 as (c & r & -> & Hc & Hr).
    destruct ys2 as [|y2 ys2].
    + cbn [concat] in E. rewrite app_nil_r in E. subst h2. apply no_eol_app in H2 as [_ H2]. cbn in H2. apply Forall_inv in H2; cbv beta in H2; contradiction.
    + pose proof (Forall_inv_tail S2) as S2'. apply Forall_inv in S2. destruct S2 as (c' & r' & -> & Hc' & Hr'). cbn [concat app] in E.
      destruct (no_eol_split _ _ _ _ _ _ H1 H2 Hc Hc' E) as (-> & -> & E').
      destruct (IH ys2 r r' Hr Hr' S1' S2' E') as [-> ->]. split; reflexivity.
Qed.

Lemma revread_spec n data : (0 < n)%nat ->
  exists head, no_eol head /\ Forall Segment (revreadlines n data) /\ data = head ++ concat (rev (revreadlines n data)).
Proof.
  intros Hn. destruct (rev_outer_spec n data Hn (S (length data)) (length data) [] ltac:(lia) ltac:(lia) ltac:(constructor))
    as (head & H1 & H2 & H3). exists head. splits; [assumption|assumption|].
  rewrite firstn_all, app_nil_r in H3. exact H3.
Qed.
