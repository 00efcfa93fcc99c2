(* C84 well-formed content is interpreted without exceptions, and its text is extracted completely. *)
From Coq Require Import String ZifyBool ZifyNat.
From Verif Require Import Base Obj Stream_Model Num Geom_Model Page_Model Interp_Model Interp_Spec Interp_Proofs Text_Proofs Interp_Props Sec_Model.
From Verif Require Import Markup_Model Markup_Spec Markup_Proofs Convert_Model Convert_Spec Font_Proofs Interp_Witness Forms_Props Stream_Spec Markup_Props.
From Verif Require Import TextFile_Props Names_Props Total_Spec.
From Coq Require Import Qcanon.
Open Scope Z_scope.
Import ListNotations.

Definition good (c : option cspace) : Prop := exists n k, c = Some (mkCs n (OInt k)).
Lemma has_num o : has_kind KNum o -> exists v, num_of o = Some v.
Proof. intros [[z ->]|[t ->]]; eexists; reflexivity. Qed.
Lemma has_operand k o : has_kind k o -> operand o.
Proof. intros H w ->. destruct k; cbn in H; [destruct H as [[? ?]|[? ?]]|destruct H|destruct H|destruct H]; discriminate. Qed.
Lemma has_operands ks args : Forall2 has_kind ks args -> Forall operand args.
Proof. induction 1; constructor; [eapply has_operand; eassumption|assumption]. Qed.
Lemma numbers_nums n l : numbers n l -> exists v, nums l = Some v /\ length v = n.
Proof.
  intros [H1 H2]. revert n H1. induction H2 as [|o l Ho _ IH]; intros n Hn; [exists []; split; [reflexivity|exact Hn]|].
  destruct (has_num o Ho) as (v & Ev). destruct (IH (length l) eq_refl) as (vs & Es & L). exists (v :: vs). cbn [nums]. rewrite Ev, Es. split; [reflexivity|]. cbn in *. lia.
Qed.

Section total.
Context (getobj : Z -> option obj) (depth : nat) (mkfont : obj -> res font) (nested : istate -> list obj -> gen item * istate).
Notation step := (step getobj depth).
Notation exec := (exec getobj depth).
Notation run := (run getobj depth mkfont nested).
(* what no operator but CS, cs changes, and what q and Q keep *)
Definition same_spaces (s s1 : istate) : Prop :=
  g_scs (s_g s1) = g_scs (s_g s) /\ g_ncs (s_g s1) = g_ncs (s_g s) /\ s_cs s1 = s_cs s /\ t_ignore (s_text s1) = t_ignore (s_text s).
Definition space_op (c : op) : bool := match c with o_CS | o_cs | o_q | o_Q | o_TJ | o_Tj | o_quote | o_dquote => true | _ => false end.
Ltac ss := repeat split; reflexivity.
Lemma exec_same_spaces c args s : space_op c = false -> same_spaces s (fst (exec c args s)).
Proof.
  intros H. destruct c; try discriminate; unfold Interp_Model.exec, with_num, device, paint, nextline, fresh_lm, ok, fail;
    try (destruct args as [|? [|? [|? [|]]]]; try solve [ss]);
    try solve [ss]; try solve [brk; ss].
  all: try solve [destruct (nums _) as [v|]; [|ss]; brk; ss].
  - brk; try ss; pose proof (pop_other s z) as P; rewrite Heqp in P; destruct P as (k & -> & _); ss.
  - brk; try ss; pose proof (pop_other s z) as P; rewrite Heqp in P; destruct P as (k & -> & _); ss.
  - unfold add_item. brk; ss.
  - unfold add_item. brk; ss.
Qed.
Definition has_devices (s : istate) : Prop := forall n, In n ["DeviceGray"; "DeviceRGB"; "DeviceCMYK"]%string -> exists c, assoc_get (s_cs s) (ON n) = Some c.
Lemma exec_plain n ks args : In (n, ks) plain_ops -> Forall2 has_kind ks args ->
  exists c, command (bs n) = Some c /\ arity c = length args /\ speech_op c = false /\ space_op c = false /\ forall s, has_devices s -> snd (exec c args s) = None.
Proof.
  intros HI HF.
  assert (HD : forall s n f, has_devices s -> In n ["DeviceGray"; "DeviceRGB"; "DeviceCMYK"]%string -> snd (device s n f) = None).
  { intros s m f Hd Hi. unfold device. destruct (Hd m Hi) as (x & ->). reflexivity. }
  unfold plain_ops in HI. cbn [In] in HI.
  repeat (destruct HI as [HI|HI]; [injection HI as <- <-|]).
  all: try (exfalso; exact HI).
  all: unfold N6, N4, N3, N2, N1 in HF.
  all: repeat match goal with H : Forall2 has_kind (_ :: _) _ |- _ => inversion H; clear H; subst | H : Forall2 has_kind [] _ |- _ => inversion H; clear H; subst end.
  all: repeat match goal with H : has_kind KNum _ |- _ => apply has_num in H as (? & ?) end.
  all: eexists; split; [reflexivity|]; split; [reflexivity|]; split; [reflexivity|]; split; [reflexivity|].
  all: intros s Hs; cbn [Interp_Model.exec]; unfold with_num; cbn [nums].
  all: repeat match goal with H : num_of _ = Some _ |- _ => rewrite H; clear H end; try reflexivity.
  all: apply HD; [exact Hs|cbn; tauto].
Qed.
Lemma exec_other n : In n other_ops -> command (bs n) = None.
Proof. unfold other_ops. cbn [In]. intros H. repeat (destruct H as [<-|H]; [reflexivity|]). destruct H. Qed.

Record Fits (lenient : bool) (fonts : list Z -> font -> Prop) (spaces : list Z -> Prop) (xobjs : list (obj * obj)) (resources : obj)
  (open : bool) (F : option font) (st : list (option font)) (s : istate) : Prop := mkFits {
  ft_x : s_xobjs s = xobjs; ft_r : s_resources s = resources; ft_f : t_font (s_text s) = F; ft_st : shown_fonts s = st;
  ft_fonts : forall n f, fonts n f -> assoc_get (s_fonts s) (OName n) = Some f;
  ft_b : if open then s_block s <> None else s_block s = None; ft_d : s_done s = [];
  ft_scs : good (g_scs (s_g s)); ft_ncs : good (g_ncs (s_g s));
  ft_cs : forall n, spaces n -> exists c, assoc_get (s_cs s) (OName n) = Some c /\ good c; ft_dev : has_devices s;
  ft_ig : t_ignore (s_text s) = lenient; ft_igs : Forall (fun x => t_ignore (snd (fst x)) = lenient) (s_gstack s) }.
Section fits.
Context (lenient : bool) (fonts : list Z -> font -> Prop) (spaces : list Z -> Prop) (xobjs : list (obj * obj)) (resources : obj).
Notation Fits := (Fits lenient fonts spaces xobjs resources).
Lemma fits_same b F st s s1 : Fits b F st s -> same_text s s1 -> same_spaces s s1 -> Fits b F st (with_done s1 []).
Proof.
  intros [] (A1 & A2 & A3 & A4 & A5 & A6 & _) (B1 & B2 & B3 & B4). constructor; cbn; try congruence; try assumption.
  - unfold shown_fonts in *. cbn. congruence.
  - intros n f H. match goal with X : s_fonts s1 = _ |- _ => rewrite X end. auto.
  - destruct b; congruence.
  - intros n H. rewrite B3. auto.
  - unfold has_devices. cbn. rewrite B3. exact ft_dev0.
Qed.
Lemma fits_args b F st s a : Fits b F st s -> Fits b F st (with_args s a).
Proof. intros []. constructor; assumption. Qed.
Lemma with_args_same s : with_args s (s_args s) = s. Proof. destruct s; reflexivity. Qed.
(* an operator that leaves the text state alone *)
Lemma run_op n c b F st s args s1 l cs : Fits b F st s -> command (bs n) = Some c -> arity c = length args -> Forall operand args -> exec c args s = (s1, None) ->
  same_text s s1 -> (exists items s', run (with_done s1 []) l = ((items, None), s') /\ Reads items (block_texts (s_block s) ++ cs)) ->
  exists items s', run s (args ++ OK n :: l) = ((items, None), s') /\ Reads items (block_texts (s_block s) ++ cs).
Proof.
  intros HF Hc Ha Ho He (_ & _ & _ & _ & _ & _ & p & Hd & Hp) (i2 & s' & R & K).
  rewrite (run_push getobj depth mkfont nested args Ho s _ (ft_d _ _ _ _ _ _ _ _ _ HF)). cbn [Interp_Model.run].
  rewrite (step_op getobj depth n (arity c) c s (s_args s) args Hc eq_refl (eq_sym Ha)), with_args_same, He. rewrite (ft_d _ _ _ _ _ _ _ _ _ HF) in Hd. cbn [app] in Hd. rewrite Hd.
  destruct (reads_silent getobj depth mkfont nested p Hp (s_g s1)) as (i1 & E1 & K1). rewrite E1. cbn [snd]. rewrite R. cbn [gapp fst snd].
  exists (i1 ++ i2), s'. split; [reflexivity|]. apply K1, K.
Qed.
Lemma render_cids_ok f ts cids : t_ignore ts = true \/ Forall (fun c => f_unichr f c <> None) cids -> forall lm need, exists lm' cs n, render_cids f ts lm need cids = (lm', cs, n, None).
Proof.
  intros H. induction cids as [|c cids IH]; intros lm need; cbn [render_cids]; [repeat eexists|].
  assert (H' : t_ignore ts = true \/ Forall (fun c => f_unichr f c <> None) cids) by (destruct H as [H|H]; [left; exact H|inversion H; right; assumption]).
  assert (E : exists t, ts_unichr f ts c = Ok t).
  { unfold ts_unichr. destruct (f_unichr f c) eqn:Ec; [eexists; reflexivity|]. destruct H as [->|H]; [eexists; reflexivity|inversion H; congruence]. }
  destruct E as (t & ->). destruct (char_box f ts _ c) as [adv box].
  match goal with |- context [render_cids f ts ?a true cids] => destruct (IH H' a true) as (lm' & cs & n & E) end. rewrite E. repeat eexists.
Qed.
Lemma render_seq_ok f ts dx l tx : said f l tx -> (t_ignore ts = true \/ Forall (fun o => forall b cids, o = OStr b -> f_decode f b = Ok cids -> Forall (fun c => f_unichr f c <> None) cids) l) ->
  forall lm need, exists lm' cs, render_seq f ts dx lm need l = (lm', cs, None).
Proof.
  induction 1 as [|o v l tx Hv _ IH|b cids l tx Hd _ IH]; intros H lm need; cbn [render_seq]; [repeat eexists| |].
  - rewrite Hv. apply IH. destruct H as [H|H]; [left; exact H|inversion H; right; assumption].
  - cbn [num_of]. rewrite Hd.
    destruct (render_cids_ok f ts cids) with (lm := lm) (need := need) as (lm1 & cs1 & n1 & E1).
    { destruct H as [H|H]; [left; exact H|inversion H; subst; right; eauto]. }
    rewrite E1. destruct (IH) with (lm := lm1) (need := n1) as (lm2 & cs2 & E2).
    { destruct H as [H|H]; [left; exact H|inversion H; right; assumption]. }
    rewrite E2. repeat eexists.
Qed.
Lemma show_ok s f seq tx : t_font (s_text s) = Some f -> t_ignore (s_text s) = lenient -> s_block s <> None -> sayable lenient f seq tx ->
  exists s1, show s seq = (s1, None) /\ same_spaces s s1.
Proof.
  intros Hf Hi Hb (H1 & H2 & H3). unfold show. rewrite Hf. destruct (s_block s) as [b|]; [|congruence].
  destruct (render_seq_ok f (decode_ts f (s_text s) (s_ctm s)) (dxscale_of (decode_ts f (s_text s) (s_ctm s))) seq tx H1) with (lm := hget (s_heap s) (t_lm (decode_ts f (s_text s) (s_ctm s)))) (need := false)
    as (lm' & cs & E).
  { cbn [decode_ts t_ignore]. rewrite Hi. exact H3. }
  rewrite E. pose proof (render_seq_texts _ _ _ _ _ H1 _ _ _ _ E) as Et. unfold char_block.
  destruct cs as [|[c [[x0 y0] [x1 y1]]] cs]; [cbn in Et; congruence|]. destruct (cb_union _ _ _ _ _) as [[[? ?] ?] ?]. eexists. split; [reflexivity|]. repeat split.
Qed.
(* a showing operator *)
Lemma run_show_ok n c s s0 f seq t1 args st l cs : Fits true (Some f) st s -> command (bs n) = Some c -> arity c = length args -> Forall operand args ->
  exec c args s = show s0 seq -> t_font (s_text s0) = Some f -> t_ignore (s_text s0) = lenient -> s_gstack s0 = s_gstack s -> s_fonts s0 = s_fonts s -> s_done s0 = s_done s ->
  s_block s0 = s_block s -> s_xobjs s0 = s_xobjs s -> s_resources s0 = s_resources s -> s_g s0 = s_g s -> s_cs s0 = s_cs s -> sayable lenient f seq t1 ->
  (forall s1, Fits true (Some f) st s1 -> exists items s', run s1 l = ((items, None), s') /\ Reads items (block_texts (s_block s1) ++ cs)) ->
  exists items s', run s (args ++ OK n :: l) = ((items, None), s') /\ Reads items (block_texts (s_block s) ++ t1 ++ cs).
Proof.
  intros HF Hc Ha Ho He B1 B2 B3 B4 B5 B6 B7 B8 B9 B10 Hs IH.
  rewrite (run_push getobj depth mkfont nested args Ho s _ (ft_d _ _ _ _ _ _ _ _ _ HF)).
  assert (Hb : s_block s0 <> None) by (rewrite B6; exact (ft_b _ _ _ _ _ _ _ _ _ HF)).
  destruct (show_ok s0 f seq t1 B1 B2 Hb Hs) as (s1 & S & D1 & D2 & D3 & D4).
  destruct (show_says s0 f seq t1 s1 B1 (proj1 Hs) S) as (A1 & A2 & A3 & A4 & A8 & A9 & (b1 & A5) & A6 & A7).
  assert (Hst : step (with_args s (s_args s ++ args)) (OK n) = (s1, None)).
  { rewrite (step_op getobj depth n (arity c) c s (s_args s) args Hc eq_refl (eq_sym Ha)), with_args_same, He. exact S. }
  rewrite (run_quiet getobj depth mkfont nested _ _ s1 l Hst) by (rewrite A4, B5; exact (ft_d _ _ _ _ _ _ _ _ _ HF)).
  rewrite app_assoc. rewrite <- B6, <- A7. apply IH. destruct HF. constructor; cbn; try congruence.
  - unfold shown_fonts in *. congruence.
  - intros m f' Hm. match goal with X : s_fonts s1 = _ |- _ => rewrite X end. rewrite B4. auto.
  - intros m Hm. rewrite D3, B10. auto.
  - unfold has_devices. rewrite D3, B10. exact ft_dev0.
Qed.
(* what Do does in a state with these XObjects *)
Definition form_runs (n : list Z) (t : list (list Z)) : Prop :=
  forall ctm g, good (g_scs g) -> good (g_ncs g) -> exists p items, item_Do getobj depth xobjs ctm resources (OName n) = Ok p /\
    gflat (finish getobj depth mkfont nested g) (match p with Some p => [p] | None => [] end) = (items, None) /\ Reads items t.

Theorem C84_content b F st l ts (forms : list Z -> list (list Z) -> Prop) : (forall n t, forms n t -> form_runs n t) ->
  Shows lenient fonts spaces forms b F st l ts -> forall s, Fits b F st s ->
  exists items s', run s l = ((items, None), s') /\ Reads items (block_texts (s_block s) ++ ts).
Proof.
  intros HForm.
  induction 1 as [F st|b F st n ks args l ts Hn Hk _ IH|b F st n args l ts Hn Ho _ IH|b F st n args l ts Hn Ho _ IH|b F st n c l ts Hn Hc _ IH|b F st d data l ts _ IH
    |b F st n x f l ts Hf Hx _ IH|b F st l ts _ IH|b F F' st l ts _ IH|F st l ts _ IH|F st l ts _ IH|F st n t l ts Hn _ IH
    |f st str l t1 ts Hs _ IH|f st seq l t1 ts Hs _ IH|f st str l t1 ts Hs _ IH|f st w c str l t1 ts Hw Hc Hs _ IH]; intros s HF.
  - exists [], s. split; [reflexivity|]. rewrite (ft_b _ _ _ _ _ _ _ _ _ HF). constructor.
  - destruct (exec_plain n ks args Hn Hk) as (c & C1 & C2 & C3 & C4 & C5).
    destruct (exec c args s) as [s1 e] eqn:E. pose proof (C5 s (ft_dev _ _ _ _ _ _ _ _ _ HF)) as C6. rewrite E in C6. cbn in C6. subst e.
    pose proof (exec_same_text getobj depth c args s C3) as T. pose proof (exec_same_spaces c args s C4) as S. rewrite E in T, S. cbn [fst] in T, S.
    eapply run_op; try eassumption; [eapply has_operands; eassumption|]. destruct (IH _ (fits_same _ _ _ _ _ HF T S)) as (i & s' & R & K). exists i, s'. split; [exact R|].
    cbn [s_block with_done] in K. destruct T as (_ & _ & T & _). rewrite T in K. exact K.
  - rewrite (run_push getobj depth mkfont nested args Ho s _ (ft_d _ _ _ _ _ _ _ _ _ HF)).
    assert (E : step (with_args s (s_args s ++ args)) (OK n) = (with_args s (s_args s ++ args), None)) by (unfold Interp_Model.step, OK; rewrite (exec_other n Hn); reflexivity).
    rewrite (run_quiet getobj depth mkfont nested _ _ _ l E (ft_d _ _ _ _ _ _ _ _ _ HF)). exact (IH _ (fits_args _ _ _ _ _ HF)).
  - rewrite (run_push getobj depth mkfont nested args Ho s _ (ft_d _ _ _ _ _ _ _ _ _ HF)). pose proof (fits_args _ _ _ _ (s_args s ++ args) HF) as HF'. set (s1 := with_args s (s_args s ++ args)) in *.
    change (s_block s) with (s_block s1). destruct (ft_scs _ _ _ _ _ _ _ _ _ HF') as (nm & k & Es). destruct (ft_ncs _ _ _ _ _ _ _ _ _ HF') as (nm' & k' & En).
    assert (E : exists s2 v a, step s1 (OK n) = (s2, None) /\ (s2 = with_g (with_args s1 a) (set_stroke_color (s_g s1) (Some (mkCs nm (OInt k))) v) \/ s2 = with_g (with_args s1 a) (set_nostroke_color (s_g s1) (Some (mkCs nm' (OInt k'))) v))).
    { assert (Q1 : exists v a, exec o_SCN [] s1 = (with_g (with_args s1 a) (set_stroke_color (s_g s1) (Some (mkCs nm (OInt k))) v), None)).
      { cbn [Interp_Model.exec]. rewrite Es. cbn [cs_n]. pose proof (pop_other s1 k) as P. destruct (pop s1 k) as [v s2]. destruct P as (a & -> & _). exists v, a. reflexivity. }
      assert (Q2 : exists v a, exec o_scn [] s1 = (with_g (with_args s1 a) (set_nostroke_color (s_g s1) (Some (mkCs nm' (OInt k'))) v), None)).
      { cbn [Interp_Model.exec]. rewrite En. cbn [cs_n]. pose proof (pop_other s1 k') as P. destruct (pop s1 k') as [v s2]. destruct P as (a & -> & _). exists v, a. reflexivity. }
      destruct Q1 as (v1 & a1 & Q1). destruct Q2 as (v2 & a2 & Q2). cbn [In] in Hn.
      destruct Hn as [<-|[<-|[<-|[<-|[]]]]]; unfold Interp_Model.step, OK.
      - change (command (bs "SC")) with (Some o_SCN). cbn [arity Nat.eqb]. eexists _, v1, a1. split; [exact Q1|left; reflexivity].
      - change (command (bs "SCN")) with (Some o_SCN). cbn [arity Nat.eqb]. eexists _, v1, a1. split; [exact Q1|left; reflexivity].
      - change (command (bs "sc")) with (Some o_scn). cbn [arity Nat.eqb]. eexists _, v2, a2. split; [exact Q2|right; reflexivity].
      - change (command (bs "scn")) with (Some o_scn). cbn [arity Nat.eqb]. eexists _, v2, a2. split; [exact Q2|right; reflexivity]. }
    destruct E as (s2 & v & a & E & E2). assert (HD : s_done s2 = []) by (destruct E2 as [-> | ->]; exact (ft_d _ _ _ _ _ _ _ _ _ HF)).
    assert (HB : s_block s2 = s_block s1) by (destruct E2 as [-> | ->]; reflexivity).
    rewrite (run_quiet getobj depth mkfont nested _ _ _ l E HD), <- HB. apply IH. clear -HF' E2. destruct HF'. destruct E2 as [-> | ->]; constructor; assumption.
  - change ([OName c; OK n] ++ l) with ([OName c] ++ OK n :: l).
    destruct (ft_cs _ _ _ _ _ _ _ _ _ HF c Hc) as (k & Ek & Gk).
    assert (E : exists co, command (bs n) = Some co /\ arity co = 1%nat /\ exists g, exec co [OName c] s = (with_g s g, None) /\ (g = g_with_scs (s_g s) k \/ g = g_with_ncs (s_g s) k)).
    { cbn [In] in Hn. destruct Hn as [<-|[<-|[]]].
      - exists o_CS. split; [reflexivity|]. split; [reflexivity|]. eexists. cbn [Interp_Model.exec hashable negb]. rewrite Ek. split; [reflexivity|left; reflexivity].
      - exists o_cs. split; [reflexivity|]. split; [reflexivity|]. eexists. cbn [Interp_Model.exec hashable negb]. rewrite Ek. split; [reflexivity|right; reflexivity]. }
    destruct E as (co & C1 & C2 & g & C3 & C4).
    rewrite (run_instr getobj depth mkfont nested n 1 co s (with_g s g) [OName c] l C1 C2 eq_refl); [|repeat constructor; discriminate|exact (ft_d _ _ _ _ _ _ _ _ _ HF)|exact C3|exact (ft_d _ _ _ _ _ _ _ _ _ HF)].
    change (s_block s) with (s_block (with_g s g)). apply IH. clear -HF C4 Gk. destruct HF. destruct C4 as [-> | ->]; constructor; cbn; assumption.
  - change ([OStream d data; OK "EI"] ++ l) with ([OStream d data] ++ OK "EI" :: l).
    destruct (exec o_EI [OStream d data] s) as [s1 e] eqn:E.
    assert (e = None) as ->.
    { cbn [Interp_Model.exec item_EI] in E. unfold add_item in E. destruct (dget d "W"), (dget d "H"); injection E as <- <-; reflexivity. }
    pose proof (exec_same_text getobj depth o_EI [OStream d data] s eq_refl) as T. pose proof (exec_same_spaces o_EI [OStream d data] s eq_refl) as S. rewrite E in T, S. cbn [fst] in T, S.
    eapply run_op; try eassumption; try reflexivity; [repeat constructor; discriminate|]. destruct (IH _ (fits_same _ _ _ _ _ HF T S)) as (i & s' & R & K). exists i, s'. split; [exact R|].
    cbn [s_block with_done] in K. destruct T as (_ & _ & T & _). rewrite T in K. exact K.
  - change ([OName n; x; OK "Tf"] ++ l) with ([OName n; x] ++ OK "Tf" :: l). pose proof (has_operand _ _ Hx) as Hop. destruct (has_num x Hx) as (v & Ev).
    set (s1 := with_text (with_text s (t_with_size (s_text s) v)) (t_with_font (t_with_size (s_text s) v) (Some f))).
    rewrite (run_instr getobj depth mkfont nested "Tf" 2 o_Tf s s1 [OName n; x] l); try reflexivity; try exact (ft_d _ _ _ _ _ _ _ _ _ HF).
    2:{ repeat constructor; [discriminate|exact Hop]. }
    2:{ cbn [Interp_Model.exec]. rewrite Ev. cbn [hashable negb]. rewrite (ft_fonts _ _ _ _ _ _ _ _ _ HF _ _ Hf). reflexivity. }
    change (s_block s) with (s_block s1). apply IH. clear -HF. destruct HF. constructor; cbn; try assumption; reflexivity.
  - rewrite (run_quiet getobj depth mkfont nested s (OK "q") _ l (step_q getobj depth s)) by exact (ft_d _ _ _ _ _ _ _ _ _ HF).
    set (s1 := with_gstack s _). change (s_block s) with (s_block s1). apply IH. clear -HF. destruct HF. constructor; cbn; try assumption.
    + unfold shown_fonts in *. cbn. rewrite map_app, rev_app_distr. cbn. congruence.
    + apply Forall_app. split; [assumption|]. repeat constructor. assumption.
  - pose proof (ft_st _ _ _ _ _ _ _ _ _ HF) as HS. destruct (s_gstack s) as [|x g _] eqn:Eg using rev_ind; [unfold shown_fonts in HS; rewrite Eg in HS; discriminate|]. destruct x as [[m t] g0].
    rewrite (run_quiet getobj depth mkfont nested s (OK "Q") _ l (step_Q getobj depth s g m t g0 Eg)) by exact (ft_d _ _ _ _ _ _ _ _ _ HF).
    set (s1 := with_gstack _ _). change (s_block s) with (s_block s1). apply IH. unfold shown_fonts in HS. rewrite Eg, map_app, rev_app_distr in HS. cbn in HS. injection HS as H1 H2.
    clear -HF H1 H2 Eg. destruct HF. rewrite Eg in ft_igs0. apply Forall_app in ft_igs0 as [G1 G2]. inversion G2; subst. constructor; cbn; try assumption; try reflexivity.
  - assert (HB : s_block s = None) by exact (ft_b _ _ _ _ _ _ _ _ _ HF).
    assert (E1 : step s (OK "BT") = (with_block (fresh_lm s (t_with_matrix (s_text s) matrix_identity)) (Some (mkTB None [])), None)).
    { unfold Interp_Model.step, OK. replace (command (bs "BT")) with (Some o_BT) by reflexivity. cbn [arity Nat.eqb Interp_Model.exec]. rewrite HB. reflexivity. }
    rewrite (run_quiet getobj depth mkfont nested s (OK "BT") _ l E1) by exact (ft_d _ _ _ _ _ _ _ _ _ HF). rewrite HB.
    set (s1 := with_block _ _). change (block_texts None) with (block_texts (s_block s1)). apply IH. clear -HF. destruct HF. constructor; cbn; try assumption. discriminate.
  - pose proof (ft_b _ _ _ _ _ _ _ _ _ HF) as HB. cbn in HB. destruct (s_block s) as [tb|] eqn:Eb; [|congruence]. pose proof (ft_d _ _ _ _ _ _ _ _ _ HF) as HD.
    assert (E1 : step s (OK "ET") = (with_block (with_done s [PItem (IText tb)]) None, None)).
    { unfold Interp_Model.step, OK. replace (command (bs "ET")) with (Some o_ET) by reflexivity. cbn [arity Nat.eqb Interp_Model.exec]. rewrite Eb, HD. reflexivity. }
    rewrite (run_item getobj depth mkfont nested s (OK "ET") _ (IText tb) l E1) by reflexivity.
    destruct (IH (with_done (with_block (with_done s [PItem (IText tb)]) None) [])) as (i & s' & R & K); [clear -HF; destruct HF; constructor; cbn; try assumption; reflexivity|].
    rewrite R. eexists _, s'. split; [reflexivity|]. apply rd_text. exact K.
  - assert (HB : s_block s = None) by exact (ft_b _ _ _ _ _ _ _ _ _ HF). pose proof (ft_d _ _ _ _ _ _ _ _ _ HF) as HD.
    destruct (HForm n t Hn (s_ctm s) (s_g s) (ft_scs _ _ _ _ _ _ _ _ _ HF) (ft_ncs _ _ _ _ _ _ _ _ _ HF)) as (p & i1 & Ep & Eg & Kr).
    change ([OName n; OK "Do"] ++ l) with ([OName n] ++ OK "Do" :: l).
    rewrite (run_push getobj depth mkfont nested [OName n]); [|repeat constructor; discriminate|assumption].
    cbn [Interp_Model.run]. rewrite (step_op getobj depth "Do" 1 o_Do s (s_args s) [OName n]) by reflexivity. rewrite with_args_same. cbn [Interp_Model.exec]. unfold add_item.
    rewrite (ft_x _ _ _ _ _ _ _ _ _ HF), (ft_r _ _ _ _ _ _ _ _ _ HF), Ep, HD.
    set (s1 := match p with Some p0 => with_done s ([] ++ [p0]) | None => s end).
    assert (X : match p with Some p0 => ok (with_done s ([] ++ [p0])) | None => ok s end = (s1, None)) by (unfold s1; destruct p; reflexivity).
    rewrite X. assert (D1 : s_done s1 = match p with Some p0 => [p0] | None => [] end) by (unfold s1; destruct p; cbn; auto). rewrite D1.
    assert (G1 : s_g s1 = s_g s) by (unfold s1; destruct p; reflexivity). rewrite G1, Eg. cbn [snd].
    assert (S1 : with_done s1 [] = s) by (transitivity (with_done s []); [unfold s1; destruct p; reflexivity|apply with_done_nil; exact HD]). rewrite S1.
    destruct (IH s HF) as (i2 & s' & R & K). rewrite R. cbn [gapp fst snd]. exists (i1 ++ i2), s'. split; [reflexivity|].
    rewrite HB in *. cbn [block_texts app] in *. apply reads_app; assumption.
  - change ([OStr str; OK "Tj"] ++ l) with ([OStr str] ++ OK "Tj" :: l).
    apply (run_show_ok "Tj" o_Tj s s f [OStr str] t1 [OStr str] st l ts HF); try reflexivity; try assumption; try (repeat constructor; discriminate);
      [exact (ft_f _ _ _ _ _ _ _ _ _ HF)|exact (ft_ig _ _ _ _ _ _ _ _ _ HF)].
  - change ([OArr seq; OK "TJ"] ++ l) with ([OArr seq] ++ OK "TJ" :: l).
    apply (run_show_ok "TJ" o_TJ s s f seq t1 [OArr seq] st l ts HF); try reflexivity; try assumption; try (repeat constructor; discriminate);
      [exact (ft_f _ _ _ _ _ _ _ _ _ HF)|exact (ft_ig _ _ _ _ _ _ _ _ _ HF)].
  - change ([OStr str; OK "'"] ++ l) with ([OStr str] ++ OK "'" :: l).
    apply (run_show_ok "'" o_quote s (nextline s) f [OStr str] t1 [OStr str] st l ts HF); try reflexivity; try assumption; try (repeat constructor; discriminate);
      [exact (ft_f _ _ _ _ _ _ _ _ _ HF)|exact (ft_ig _ _ _ _ _ _ _ _ _ HF)].
  - change ([w; c; OStr str; OK """"] ++ l) with ([w; c; OStr str] ++ OK """" :: l). pose proof (has_operand _ _ Hw) as Ow. pose proof (has_operand _ _ Hc) as Oc. destruct (has_num w Hw) as (w' & Ew). destruct (has_num c Hc) as (c' & Ec).
    apply (run_show_ok """" o_dquote s (with_text s (t_with_charspace (t_with_wordspace (s_text s) w') c')) f [OStr str] t1 [w; c; OStr str] st l ts HF); try reflexivity; try assumption;
      [repeat constructor; [exact Ow|exact Oc|discriminate]|cbn [Interp_Model.exec]; rewrite Ew, Ec; reflexivity|exact (ft_f _ _ _ _ _ _ _ _ _ HF)|exact (ft_ig _ _ _ _ _ _ _ _ _ HF)].
Qed.
End fits.
End total.

(* ---------- pages ---------- *)
Lemma shows_mono lenient fonts spaces (f1 f2 : list Z -> list (list Z) -> Prop) : (forall n t, f1 n t -> f2 n t) ->
  forall b F st l ts, Shows lenient fonts spaces f1 b F st l ts -> Shows lenient fonts spaces f2 b F st l ts.
Proof. intros H b F st l ts HS. induction HS; [econstructor|eapply sh_plain|eapply sh_other|eapply sh_colour|eapply sh_space|eapply sh_image|eapply sh_Tf|eapply sh_q|eapply sh_Q|eapply sh_BT|eapply sh_ET|eapply sh_Do|eapply sh_Tj|eapply sh_TJ|eapply sh_quote|eapply sh_dquote]; eauto. Qed.
Lemma shows_finite lenient fonts spaces (forms : list Z -> list (list Z) -> Prop) b F st l ts : Shows lenient fonts spaces forms b F st l ts ->
  exists L, Forall (fun p => forms (fst p) (snd p)) L /\ Shows lenient fonts spaces (fun n t => In (n, t) L) b F st l ts.
Proof.
  intros HS. induction HS.
  1: exists []; split; [constructor|econstructor].
  all: try solve [destruct IHHS as (L & A & B); exists L; split; [exact A|];
    first [solve [eapply sh_plain; eassumption]|solve [eapply sh_other; eassumption]|solve [eapply sh_colour; eassumption]|solve [eapply sh_space; eassumption]|solve [eapply sh_image; eassumption]|solve [eapply sh_Tf; eassumption]|solve [eapply sh_q; eassumption]|solve [eapply sh_Q; eassumption]|solve [eapply sh_BT; eassumption]|solve [eapply sh_ET; eassumption]|solve [eapply sh_Tj; eassumption]|solve [eapply sh_TJ; eassumption]|solve [eapply sh_quote; eassumption]|solve [eapply sh_dquote; eassumption]]].
  all: destruct IHHS as (L & A & B).
  exists ((n, t) :: L). split; [constructor; assumption|]. apply sh_Do; [left; reflexivity|]. eapply shows_mono; [|exact B]. intros; right; assumption.
Qed.
Lemma eventually_all {A} (P : A -> nat -> Prop) (L : list A) : Forall (fun x => exists n, forall d, (n <= d)%nat -> P x d) L -> exists n, forall d, (n <= d)%nat -> Forall (fun x => P x d) L.
Proof.
  induction 1 as [|x L (n & Hn) _ (m & Hm)]; [exists O; intros; constructor|]. exists (n + m)%nat. intros d Hd. constructor; [apply Hn|apply Hm]; lia.
Qed.
Lemma get_in (d : list (obj * obj)) k v : dict_get d k = Some v -> exists k', In (k', v) d.
Proof. induction d as [|[k' w] d IH]; cbn [dict_get]; [discriminate|]. destruct (key_eqb k' k); [intros [= ->]; exists k'; left; reflexivity|]. intros E. destruct (IH E) as (k2 & H). exists k2. right. exact H. Qed.

Section pages.
Context (getobj : Z -> option obj) (mkfont : nat -> obj -> res font) (parse : nat -> list obj -> gen obj).
Context (fontat : obj -> font -> Prop) (tokens : list obj -> list obj -> Prop).
Context (Hfont : forall o f, fontat o f -> exists n, forall d, (n <= d)%nat -> mkfont d o = Ok f).
Context (Htok : forall st objs, tokens st objs -> exists n, forall d, (n <= d)%nat -> parse d st = (objs, None)).
Notation process d := (process getobj d (mkfont d) (parse d)).

Lemma fonts_ok fs : Forall (fun e : obj * obj => exists f, fontat (snd e) f) fs -> exists n, forall d, (n <= d)%nat ->
  Forall (fun e => exists f, fontat (snd e) f /\ mkfont d (snd e) = Ok f) fs.
Proof.
  intros H. apply eventually_all. eapply Forall_impl; [|exact H]. intros e (f & E).
  destruct (Hfont _ _ E) as (n & Hn). exists n. intros d Hd. exists f. split; [exact E|apply Hn, Hd].
Qed.
Lemma font_one o f f' : fontat o f -> fontat o f' -> f = f'.
Proof.
  intros H H'. destruct (Hfont _ _ H) as (n & Hn). destruct (Hfont _ _ H') as (n' & Hn'). specialize (Hn (n + n')%nat ltac:(lia)). specialize (Hn' (n + n')%nat ltac:(lia)). congruence.
Qed.
Lemma fold_fonts_ok d fs : Forall (fun e : obj * obj => exists f, fontat (snd e) f /\ mkfont d (snd e) = Ok f) fs -> forall s,
  exists s', fold_res (fun s e => do f <- mkfont d (snd e); Ok (with_fonts s (assoc_set (s_fonts s) (fst e) f))) s fs = Ok s' /\ s_g s' = s_g s /\ s_cs s' = s_cs s.
Proof.
  induction 1 as [|e fs (f & _ & E) _ IH]; intros s; cbn [fold_res]; [exists s; repeat split|]. rewrite E. cbn [bind].
  destruct (IH (with_fonts s (assoc_set (s_fonts s) (fst e) f))) as (s' & E' & A & B). exists s'. split; [exact E'|]. split; assumption.
Qed.
Lemma fold_xobjs_ok xs : forall s,
  exists s', fold_res (fun s (e : obj * obj) => Ok (with_xobjs s (assoc_set (s_xobjs s) (fst e) (snd e)))) s xs = Ok s' /\ s_g s' = s_g s /\ s_cs s' = s_cs s.
Proof. induction xs as [|e xs IH]; intros s; cbn [fold_res bind]; [exists s; repeat split|]. destruct (IH (with_xobjs s (assoc_set (s_xobjs s) (fst e) (snd e)))) as (s' & E' & A & B). exists s'. repeat split; assumption. Qed.
Lemma family_good n : In n families -> exists c, assoc_get predefined_cs (ON n) = Some c /\ good c.
Proof.
  unfold families. cbn [In]. intros H. repeat (destruct H as [<-|H]; [eexists; split; [reflexivity|do 2 eexists; reflexivity]|]). destruct H.
Qed.
Lemma family_not n : In n families -> list_eqb (bs n) (bs "ICCBased") = false /\ list_eqb (bs n) (bs "DeviceN") = false.
Proof. unfold families. cbn [In]. intros H. repeat (destruct H as [<-|H]; [split; reflexivity|]). destruct H. Qed.
Lemma space_ok v : ColourSpace getobj v -> exists n, forall d, (n <= d)%nat -> exists c, get_colorspace getobj d v = Ok c /\ good c.
Proof.
  intros [n H|n params H|x a data k H E|x l r H].
  - exists O. intros d _. destruct (family_good n H) as (c & E & G). exists c. split; [|exact G]. unfold get_colorspace. cbn [bind ON hashable]. change (OName (bs n)) with (ON n). rewrite E. reflexivity.
  - exists O. intros d _. destruct (family_good n H) as (c & E & G). exists c. split; [|exact G]. unfold get_colorspace. cbn [bind]. destruct (family_not n H) as [F1 F2].
    destruct params as [|p params]; cbn [ON hashable]; rewrite ?F1, ?F2; change (OName (bs n)) with (ON n); rewrite E; reflexivity.
  - destruct (leads_resolved _ _ _ H) as (n & R). exists n. intros d Hd. eexists. split.
    + unfold get_colorspace, validated_stream. cbn [bind ON]. change (list_eqb (bs "ICCBased") (bs "ICCBased")) with true. cbv iota. rewrite R by exact Hd. cbn [bind sattrs]. rewrite E. reflexivity.
    + do 2 eexists. reflexivity.
  - destruct (leads_list _ _ _ H) as (n & R). exists n. intros d Hd. eexists. split.
    + unfold get_colorspace. cbn [bind ON]. change (list_eqb (bs "DeviceN") (bs "ICCBased")) with false. change (list_eqb (bs "DeviceN") (bs "DeviceN")) with true. cbv iota. rewrite R by exact Hd. reflexivity.
    + do 2 eexists. reflexivity.
Qed.
Definition cs_effect (cs : list (obj * obj)) (s s' : istate) : Prop := forall m, match dict_get cs (OName m) with
  | Some _ => exists c, assoc_get (s_cs s') (OName m) = Some c /\ good c | None => assoc_get (s_cs s') (OName m) = assoc_get (s_cs s) (OName m) end.
Lemma fold_cs_ok cs : Forall (fun e : obj * obj => exists v, Leads getobj ONull (snd e) v /\ ColourSpace getobj v) cs -> named cs -> exists n, forall d, (n <= d)%nat -> forall s,
  exists s', fold_res (fun s e => do x <- resolved getobj d (snd e); do c <- get_colorspace getobj d x; Ok (with_cs s (assoc_set (s_cs s) (fst e) c))) s cs = Ok s' /\ s_g s' = s_g s /\ cs_effect cs s s'.
Proof.
  induction cs as [|[k x] cs IH]; intros HF HN.
  - exists O. intros d _ s. exists s. repeat split.
  - inversion HF as [|? ? (v & HL & HC) HF']; subst. cbn [snd] in HL. destruct (named_cons _ _ _ HN) as ([m ->] & Hm & HN').
    destruct (IH HF' HN') as (n1 & I1). destruct (leads_resolved _ _ _ HL) as (n2 & R). destruct (space_ok v HC) as (n3 & S). exists (n1 + n2 + n3)%nat.
    intros d Hd s. cbn [fold_res fst snd]. rewrite R by lia. cbn [bind]. destruct (S d ltac:(lia)) as (c & Ec & Gc). rewrite Ec. cbn [bind].
    destruct (I1 d ltac:(lia) (with_cs s (assoc_set (s_cs s) (OName m) c))) as (s' & E' & A & B). exists s'. split; [exact E'|]. split; [exact A|].
    intros q. specialize (B q). cbn [dict_get key_eqb]. destruct (list_eqb m q) eqn:Eq.
    + apply list_eqb_eq in Eq. subst q. rewrite (dict_get_gone cs m Hm HN') in B. cbn [s_cs with_cs] in B. rewrite assoc_get_set, list_eqb_refl in B. exists c. split; assumption.
    + destruct (dict_get cs (OName q)); [exact B|]. cbn [s_cs with_cs] in B. rewrite assoc_get_set, Eq in B. exact B.
Qed.
Lemma resources_ok d : named d -> forall fs xs cs, category getobj d "Font" fs -> category getobj d "XObject" xs -> category getobj d "ColorSpace" cs -> named cs ->
  (forall o, dict_get d (ON "ProcSet") = Some o -> exists v, Leads getobj ONull o v) -> Forall (fun e => exists f, fontat (snd e) f) fs ->
  Forall (fun e => exists v, Leads getobj ONull (snd e) v /\ ColourSpace getobj v) cs ->
  exists n, forall depth, (n <= depth)%nat -> forall s, exists s', fold_res (fun s kv =>
      if is_key "Font" kv then
        do fs <- dict_value getobj depth (snd kv);
        fold_res (fun s e => do f <- mkfont depth (snd e); Ok (with_fonts s (assoc_set (s_fonts s) (fst e) f))) s fs
      else if is_key "ColorSpace" kv then
        do cs <- dict_value getobj depth (snd kv);
        fold_res (fun s e => do x <- resolved getobj depth (snd e); do c <- get_colorspace getobj depth x; Ok (with_cs s (assoc_set (s_cs s) (fst e) c))) s cs
      else if is_key "ProcSet" kv then do _ <- list_value getobj depth (snd kv); Ok s
      else if is_key "XObject" kv then
        do xs <- dict_value getobj depth (snd kv);
        fold_res (fun s e => Ok (with_xobjs s (assoc_set (s_xobjs s) (fst e) (snd e)))) s xs
      else Ok s) s d = Ok s' /\ s_g s' = s_g s /\ cs_effect cs s s'.
Proof.
  induction d as [|[k v] d IH]; intros Hn fs xs cs Hf Hx Hc Hcn Hp Ff Fc.
  { exists O. intros depth _ s. exists s. destruct Hc as [[_ ->]|(? & H & _)]; [|discriminate]. repeat split. }
  destruct (named_cons _ _ _ Hn) as ([m ->] & Hm & Hn').
  assert (GET : forall c, dict_get ((OName m, v) :: d) (ON c) = if list_eqb m (bs c) then Some v else dict_get d (ON c)) by reflexivity.
  unfold category in Hf, Hx, Hc. rewrite GET in Hf, Hx, Hc, Hp.
  assert (GONE : forall c, list_eqb m (bs c) = true -> dict_get d (ON c) = None).
  { intros c E. apply list_eqb_eq in E. unfold ON. rewrite <- E. apply dict_get_gone; assumption. }
  assert (OTHER : forall a b, list_eqb m (bs a) = true -> list_eqb (bs a) (bs b) = false -> list_eqb m (bs b) = false) by (intros a b E; apply list_eqb_eq in E as ->; auto).
  assert (KEY : forall c, is_key c (OName m, v) = list_eqb m (bs c)) by reflexivity.
  destruct (list_eqb m (bs "Font")) eqn:E1; [|destruct (list_eqb m (bs "ColorSpace")) eqn:E2; [|destruct (list_eqb m (bs "ProcSet")) eqn:E3; [|destruct (list_eqb m (bs "XObject")) eqn:E4]]].
  - rewrite (OTHER "Font"%string "XObject"%string E1 eq_refl) in Hx. rewrite (OTHER "Font"%string "ColorSpace"%string E1 eq_refl) in Hc. rewrite (OTHER "Font"%string "ProcSet"%string E1 eq_refl) in Hp.
    destruct Hf as [[? _]|(v' & [= <-] & Hl)]; [discriminate|].
    destruct (IH Hn' [] xs cs) as (n1 & I1); try assumption; [left; split; [apply GONE; exact E1|reflexivity]|constructor|].
    destruct (leads_dict _ _ _ Hl) as (n2 & R2). destruct (fonts_ok fs Ff) as (n3 & F3). exists (n1 + n2 + n3)%nat. intros depth Hd s. cbn [fold_res]. rewrite KEY, E1. cbn [snd].
    rewrite R2 by lia. cbn [bind]. destruct (fold_fonts_ok depth fs (F3 depth ltac:(lia)) s) as (s1 & Es & A & B). rewrite Es. cbn [bind].
    destruct (I1 depth ltac:(lia) s1) as (s' & E' & A' & B'). exists s'. split; [exact E'|]. split; [congruence|]. intros q. specialize (B' q). rewrite B in B'. exact B'.
  - rewrite (OTHER "ColorSpace"%string "XObject"%string E2 eq_refl) in Hx. rewrite (OTHER "ColorSpace"%string "ProcSet"%string E2 eq_refl) in Hp.
    destruct Hc as [[? _]|(v' & [= <-] & Hl)]; [discriminate|].
    destruct (IH Hn' fs xs []) as (n1 & I1); try assumption; [left; split; [apply GONE; exact E2|reflexivity]|split; constructor|constructor|].
    destruct (leads_dict _ _ _ Hl) as (n2 & R2). destruct (fold_cs_ok cs Fc Hcn) as (n3 & F3). exists (n1 + n2 + n3)%nat. intros depth Hd s. cbn [fold_res]. rewrite !KEY, E1, E2. cbn [snd].
    rewrite R2 by lia. cbn [bind]. destruct (F3 depth ltac:(lia) s) as (s1 & Es & A & B). rewrite Es. cbn [bind].
    destruct (I1 depth ltac:(lia) s1) as (s' & E' & A' & B'). exists s'. split; [exact E'|]. split; [congruence|]. intros q. specialize (B' q). specialize (B q). cbn [dict_get] in B'. rewrite B'. exact B.
  - rewrite (OTHER "ProcSet"%string "XObject"%string E3 eq_refl) in Hx.
    destruct (Hp v eq_refl) as (w & Hl). destruct (leads_resolved _ _ _ Hl) as (n2 & R2).
    destruct (IH Hn' fs xs cs) as (n1 & I1); try assumption; [intros o Ho; rewrite (GONE "ProcSet"%string E3) in Ho; discriminate|].
    exists (n1 + n2)%nat. intros depth Hd s. cbn [fold_res]. rewrite !KEY, E1, E2, E3. cbn [snd]. unfold list_value at 1. rewrite R2 by lia. cbn [bind]. apply I1. lia.
  - destruct Hx as [[? _]|(v' & [= <-] & Hl)]; [discriminate|].
    destruct (IH Hn' fs [] cs) as (n1 & I1); try assumption; [left; split; [apply GONE; exact E4|reflexivity]|].
    destruct (leads_dict _ _ _ Hl) as (n2 & R2). exists (n1 + n2)%nat. intros depth Hd s. cbn [fold_res]. rewrite !KEY, E1, E2, E3, E4. cbn [snd].
    rewrite R2 by lia. cbn [bind]. destruct (fold_xobjs_ok xs s) as (s1 & Es & A & B). rewrite Es. cbn [bind].
    destruct (I1 depth ltac:(lia) s1) as (s' & E' & A' & B'). exists s'. split; [exact E'|]. split; [congruence|]. intros q. specialize (B' q). rewrite B in B'. exact B'.
  - destruct (IH Hn' fs xs cs) as (n1 & I1); try assumption. exists n1. intros depth Hd s. cbn [fold_res]. rewrite !KEY, E1, E2, E3, E4. cbn [bind]. apply I1. exact Hd.
Qed.

Theorem C84_page k : forall lenient r streams ts, Draws getobj fontat tokens k lenient r streams ts ->
  exists n, forall depth fuel, (n <= depth)%nat -> (n <= fuel)%nat -> forall ctm,
    exists s0, prep_state getobj depth (mkfont depth) ctm r lenient = Ok s0 /\ good (g_scs (s_g s0)) /\ good (g_ncs (s_g s0)) /\
    forall g, good (g_scs g) -> good (g_ncs g) -> exists items s', process depth fuel (with_g s0 g) streams = ((items, None), s') /\ Reads items ts.
Proof.
  induction k as [|k IH]; intros lenient r streams ts HD; [destruct HD|].
  destruct HD as (d & fs & xs & cs & objs & (HL & Hd & Hf & Hfn & Hx & Hxn & Hc & Hcn & Hp & Ff & Fc) & HT & HS).
  destruct (shows_finite _ _ _ _ _ _ _ _ _ HS) as (L & HLf & HS'). clear HS.
  destruct (leads_dict _ _ _ HL) as (n1 & R1). destruct (resources_ok d Hd fs xs cs Hf Hx Hc Hcn Hp Ff Fc) as (n2 & R2). destruct (fonts_ok fs Ff) as (n3 & F3). destruct (Htok _ _ HT) as (n4 & T4).
  assert (HForms : exists n, forall depth, (n <= depth)%nat -> Forall (fun p : list Z * list (list Z) => forall fuel, (n <= fuel)%nat -> forall xobjs, (forall q, assoc_get xobjs (OName q) = dict_get xs (OName q)) ->
      form_runs getobj depth (mkfont depth) (process depth fuel) xobjs r (fst p) (snd p)) L).
  { clear HS' HT T4. induction HLf as [|[nm t] L Hform _ (m & IHm)]; [exists O; intros; constructor|].
    assert (HOne : exists n, forall depth fuel, (n <= depth)%nat -> (n <= fuel)%nat -> forall xobjs, (forall q, assoc_get xobjs (OName q) = dict_get xs (OName q)) -> form_runs getobj depth (mkfont depth) (process depth fuel) xobjs r nm t).
    { destruct Hform as (x & fd & data & Ex & Lx & K). cbn [fst snd] in *. destruct (leads_resolved _ _ _ Lx) as (a1 & A1).
      destruct K as [[E1 ->]|(fr & bb & l & E1 & E2 & Lb & Nb & HM & HO & HDr)].
      - exists a1. intros depth fuel Hdep Hfu xobjs Hxo ctm g _ _. unfold item_Do. cbn [hashable negb]. rewrite Hxo, Ex. unfold validated_stream. rewrite A1 by lia. cbn [bind sattrs]. unfold dget. rewrite E1.
        change (match Some (ON "Image") with Some (OName st) => list_eqb st (bs "Form") | _ => false end) with false. cbv iota.
        change (match Some (ON "Image") with Some (OName st) => list_eqb st (bs "Image") | _ => false end) with true.
        destruct (dict_get fd (ON "Width")), (dict_get fd (ON "Height")); eexists _, _; (split; [reflexivity|split; [reflexivity|repeat constructor]]).
      - destruct (leads_list _ _ _ Lb) as (a2 & A2). destruct (numbers_nums 4 l Nb) as (bv & Eb & Lbv).
        assert (HM' : exists a3, forall depth, (a3 <= depth)%nat -> exists m0, form_matrix getobj depth (dict_get fd (ON "Matrix")) = Ok m0).
        { destruct (dict_get fd (ON "Matrix")) as [mo|] eqn:Em; [|exists O; intros; eexists; reflexivity]. destruct (HM mo eq_refl) as (ml & Lm & Nm). destruct (leads_list _ _ _ Lm) as (a3 & A3).
          destruct (numbers_nums 6 ml Nm) as (mv & Emv & Lmv). exists a3. intros depth Hdep. unfold form_matrix. rewrite A3 by lia. cbn [bind]. rewrite Emv.
          destruct mv as [|? [|? [|? [|? [|? [|? [|? ?]]]]]]]; try discriminate. eexists. reflexivity. }
        assert (HR' : exists a4, forall depth, (a4 <= depth)%nat -> form_resources getobj depth r (dict_get fd (ON "Resources")) = Ok fr).
        { destruct HO as [[X ->]|[[X ->]|(o & rd & X & Y & Z & ->)]]; rewrite X; [exists O; intros; reflexivity|exists O; intros; reflexivity|].
          destruct (leads_dict _ _ _ Z) as (a4 & A4). exists a4. intros depth Hdep. cbn [form_resources].
          assert (truthy o = true) as -> by (inversion Z as [? Hr| |]; subst; try reflexivity; destruct rd; [congruence|reflexivity]). rewrite A4 by lia. reflexivity. }
        destruct HM' as (a3 & A3). destruct HR' as (a4 & A4). destruct (IH false fr [OStream fd data] t HDr) as (a5 & A5).
        exists (a1 + a2 + a3 + a4 + a5)%nat. intros depth fuel Hdep Hfu xobjs Hxo ctm g G1 G2. unfold item_Do. cbn [hashable negb]. rewrite Hxo, Ex. unfold validated_stream. rewrite A1 by lia. cbn [bind sattrs]. unfold dget. rewrite E1, E2.
        change (match Some (ON "Form") with Some (OName st) => list_eqb st (bs "Form") | _ => false end) with true. cbv iota.
        rewrite A2 by lia. cbn [bind]. destruct (A3 depth ltac:(lia)) as (m0 & Em0). rewrite Em0. cbn [bind]. rewrite A4 by lia. cbn [bind]. rewrite Eb.
        destruct bv as [|? [|? [|? [|? [|? ?]]]]]; try discriminate. cbn [make_xobject bind].
        destruct (A5 depth fuel ltac:(lia) ltac:(lia) ctm) as (s0 & Ep & _ & _ & Run). destruct (Run g G1 G2) as (kids & s' & Er & Kr).
        eexists (Some _), _. split; [reflexivity|]. split; [cbn [gflat finish]; rewrite Ep, Er; reflexivity|]. rewrite <- (app_nil_r t). constructor; [exact Kr|constructor]. }
    destruct HOne as (m1 & H1). exists (m + m1)%nat. intros depth Hdep. constructor; [intros fuel Hfu xobjs Hxo; apply H1; [lia|lia|exact Hxo]|].
    assert (X := IHm depth ltac:(lia)). revert X. apply Forall_impl. intros p Hp' fuel Hfu. apply Hp'. lia. }
  destruct HForms as (n5 & F5). exists (S (n1 + n2 + n3 + n4 + n5)). intros depth fuel Hdep Hfu ctm.
  assert (HP : exists s0, prep_state getobj depth (mkfont depth) ctm r lenient = Ok s0 /\ good (g_scs (s_g s0)) /\ good (g_ncs (s_g s0)) /\ (forall m, space_of cs m -> exists c, assoc_get (s_cs s0) (OName m) = Some c /\ good c) /\ has_devices s0).
  { unfold prep_state, init_resources. cbv zeta. match goal with |- context [dict_value getobj depth (s_resources ?x)] => set (sI := x) end. change (s_resources sI) with r. rewrite R1 by lia. cbn [bind].
    destruct (R2 depth ltac:(lia) sI) as (s' & E' & A & B). exists s'. split; [exact E'|]. rewrite A.
    split; [do 2 eexists; reflexivity|]. split; [do 2 eexists; reflexivity|]. split.
    - intros m Hm. specialize (B m). unfold space_of in Hm. destruct (dict_get cs (OName m)); [exact B|]. destruct Hm as (f & Hf' & ->). rewrite B. exact (family_good f Hf').
    - intros m Hm. specialize (B (bs m)). destruct (dict_get cs (OName (bs m))); [destruct B as (c & B & _); exists c; exact B|]. cbn [In] in Hm.
      unfold ON. rewrite B. destruct Hm as [<-|[<-|[<-|[]]]]; eexists; reflexivity. }
  destruct HP as (s0 & Ep & G1 & G2 & G3 & G4). exists s0. split; [exact Ep|]. split; [exact G1|]. split; [exact G2|]. intros g Hg1 Hg2.
  destruct (prep_resources getobj depth (mkfont depth) _ _ _ _ _ _ _ Ep HL Hd Hf Hfn Hx Hxn) as [RF RX].
  destruct (C66_form_start getobj depth (mkfont depth) ctm r lenient s0 Ep) as (P1 & P2 & P3 & P4 & P5 & P6 & P7 & P8 & P9).
  destruct fuel as [|fuel]; [lia|]. cbn [Interp_Model.process]. rewrite T4 by lia.
  specialize (F5 depth ltac:(lia)).
  destruct (C84_content getobj depth (mkfont depth) (process depth fuel) lenient (fun n f => exists x, dict_get fs (OName n) = Some x /\ fontat x f) (space_of cs) (s_xobjs s0) r false None [] objs ts (fun n t => In (n, t) L)) with (s := with_g s0 g) as (items & s' & R & K).
  - intros n t Hin. rewrite Forall_forall in F5. apply (F5 (n, t) Hin); [lia|exact RX].
  - exact HS'.
  - constructor; cbn; try assumption; try reflexivity.
    + rewrite P8. reflexivity.
    + unfold shown_fonts. cbn. rewrite P3. reflexivity.
    + intros n f (x & Ex & Hxf). rewrite RF. unfold font_of. rewrite Ex. destruct (get_in _ _ _ Ex) as (k' & Hin).
      specialize (F3 depth ltac:(lia)). rewrite Forall_forall in F3. destruct (F3 _ Hin) as (f' & E1 & E2). cbn [snd] in *. unfold font_at. rewrite E2, (font_one _ _ _ E1 Hxf). reflexivity.
    + rewrite P8. reflexivity.
    + rewrite P3. constructor.
  - rewrite R. exists items, s'. split; [reflexivity|]. cbn [s_block with_g] in K. rewrite P7 in K. exact K.
Qed.
(* C84. A page with well-formed resources and content: the page is set up, its content is run to the end, without an exception, and the
   items it gives have exactly the characters the content shows. *)
Theorem C84_page_text k lenient r streams ts : Draws getobj fontat tokens k lenient r streams ts ->
  exists n, forall depth fuel, (n <= depth)%nat -> (n <= fuel)%nat -> forall ctm,
    exists s0 items s', prep_state getobj depth (mkfont depth) ctm r lenient = Ok s0 /\ process depth fuel s0 streams = ((items, None), s') /\ Reads items ts.
Proof.
  intros H. destruct (C84_page k lenient r streams ts H) as (n & Hn). exists n. intros depth fuel Hd Hf ctm.
  destruct (Hn depth fuel Hd Hf ctm) as (s0 & Ep & G1 & G2 & Run). destruct (Run (s_g s0) G1 G2) as (items & s' & Er & K).
  exists s0, items, s'. split; [exact Ep|]. split; [|exact K]. replace s0 with (with_g s0 (s_g s0)) at 1 by (destruct s0; reflexivity). exact Er.
Qed.
End pages.

(* ---------- what is excluded ---------- *)
(* how a page with the given resources and content ends *)
Definition ends_with (getobj : Z -> option obj) (r : obj) (objs : list obj) : option exn :=
  match prep_state getobj 5 (fun _ => Err KeyError) matrix_identity r false with
  | Ok s => snd (fst (process getobj 5 (fun _ => Err KeyError) (fun _ => (objs, None)) 5 s []))
  | Err e => Some e
  end.
Definition use_space : list obj := [ON "C"; OK "cs"; OInt 0; OInt 0; OInt 0; OK "scn"].
(* the number of components of an ICC profile given indirectly; a colour space of the family CalCMYK (PDF 1.1): setting a colour in it raises an exception, and the rest of the page is lost *)
Theorem C84_ICC_N_refuted : exists getobj, getobj 5 = Some (OStream [(ON "N", ORef 6)] []) /\ getobj 6 = Some (OInt 3) /\
  ends_with getobj (ODict [(ON "ColorSpace", ODict [(ON "C", OArr [ON "ICCBased"; ORef 5])])]) use_space = Some TypeError.
Proof.
  exists (fun i => if i =? 5 then Some (OStream [(ON "N", ORef 6)] []) else if i =? 6 then Some (OInt 3) else None).
  split; [reflexivity|]. split; [reflexivity|]. vm_compute. reflexivity.
Qed.
Theorem C84_CalCMYK_refuted : ends_with (fun _ => None) (ODict [(ON "ColorSpace", ODict [(ON "C", OArr [ON "CalCMYK"; ODict []])])]) use_space = Some InvalidOperation.
Proof. vm_compute. reflexivity. Qed.
(* names that are not in the resources *)
Theorem C84_missing_space_refuted : ends_with (fun _ => None) (ODict []) use_space = Some InvalidOperation.
Proof. vm_compute. reflexivity. Qed.

(* ---------- a case: a page with a form, colour spaces, curves, an inline image and every way to show text ---------- *)
Definition v_res : obj := ODict [(ON "Font", ODict [(ON "F1", ORef 8)]); (ON "XObject", ODict [(ON "X", ORef 7)]);
  (ON "ColorSpace", ODict [(ON "C", OArr [ON "ICCBased"; ORef 9]); (ON "S", OArr [ON "Separation"; ON "Red"])])].
Definition v_getobj (i : Z) : option obj :=
  if i =? 7 then Some w_form else if i =? 9 then Some (OStream [(ON "N", OInt 3)] []) else None.
Definition v_objs : list obj :=
  [OK "q"] ++ [OInt 2; OInt 0; OInt 0; OInt 2; OInt 0; OInt 0; OK "cm"] ++ [ON "C"; OK "cs"] ++ [OInt 1; OInt 0; OInt 0; OK "scn"] ++
  [OInt 1; OInt 1; OInt 5; OInt 5; OK "re"] ++ [OK "f"] ++ [OK "BT"] ++ [ON "F1"; OInt 10; OK "Tf"] ++ [OStr [72; 105]; OK "Tj"] ++ [OStr [33]; OK "'"] ++
  [OInt 1; OInt 2; OStr [63]; OK """"] ++ [OK "ET"] ++ [OK "Q"] ++ [OStream [(ON "W", OInt 1)] [0]; OK "EI"] ++ [ON "X"; OK "Do"].
Definition v_form : list obj := [OK "BT"] ++ [ON "F1"; OInt 9; OK "Tf"] ++ [OArr [OStr [65]; OInt (-100); OStr [98]]; OK "TJ"] ++ [OK "ET"].
Definition v_tokens (l objs : list obj) : Prop := objs = match l with OStream (_ :: _) _ :: _ => v_form | _ => v_objs end.
Definition v_font (o : obj) (f : font) : Prop := o = ORef 8 /\ f = font1.
Definition v_texts : list (list Z) := [[72]; [105]; [33]; [63]; [65]; [98]].
Ltac anum := solve [left; eexists; reflexivity | right; eexists; reflexivity | eexists; reflexivity].
Lemma v_say1 s : Forall (fun c => c <= 127) s -> said font1 [OStr s] (map (fun c => [c]) s).
Proof.
  intros H. assert (E : map (fun c => [c]) s = map (fun c => match f_unichr font1 c with Some t => t | None => [] end) s ++ []).
  { rewrite app_nil_r. apply map_ext_in. intros c Hc. rewrite Forall_forall in H. specialize (H c Hc). cbn. rewrite (proj2 (Z.leb_le _ _) H). reflexivity. }
  rewrite E. apply sd_str; [reflexivity|constructor].
Qed.
Lemma v_known s b cids : Forall (fun c => c <= 127) s -> OStr s = OStr b -> f_decode font1 b = Ok cids -> Forall (fun c => f_unichr font1 c <> None) cids.
Proof. intros H [= <-] [= <-]. eapply Forall_impl; [|exact H]. intros c Hc. cbn. rewrite (proj2 (Z.leb_le _ _) Hc). discriminate. Qed.
Lemma v_say s : Forall (fun c => c <= 127) s -> s <> [] -> sayable false font1 [OStr s] (map (fun c => [c]) s).
Proof.
  intros H N. split; [apply v_say1, H|]. split; [destruct s; [congruence|discriminate]|]. right. constructor; [|constructor]. intros b cids. apply v_known, H.
Qed.
Lemma C84_witness : Draws v_getobj v_font v_tokens 2 false v_res [OStream [] []] v_texts.
Proof.
  assert (L : forall l, Leads v_getobj ONull (ODict l) (ODict l)) by (intros; apply Leads_stop; discriminate).
  assert (R : exists d fs xs cs, v_res = ODict d /\ dict_get fs (ON "F1") = Some (ORef 8) /\ fs = [(ON "F1", ORef 8)] /\ xs = [(ON "X", ORef 7)] /\
         (Leads v_getobj ONull v_res (ODict d) /\ named d /\ category v_getobj d "Font" fs /\ named fs /\ category v_getobj d "XObject" xs /\ named xs /\
         category v_getobj d "ColorSpace" cs /\ named cs /\ (forall o, dict_get d (ON "ProcSet") = Some o -> exists v, Leads v_getobj ONull o v) /\
         Forall (fun e => exists f, v_font (snd e) f) fs /\ Forall (fun e => exists v, Leads v_getobj ONull (snd e) v /\ ColourSpace v_getobj v) cs) /\ space_of cs (bs "C")).
  { eexists. exists [(ON "F1", ORef 8)], [(ON "X", ORef 7)], [(ON "C", OArr [ON "ICCBased"; ORef 9]); (ON "S", OArr [ON "Separation"; ON "Red"])]. splits.
    1: reflexivity.
    all: try apply L.
    all: try reflexivity.
    all: try (right; eexists; split; [reflexivity|apply L]).
    all: try (apply w_named; [reflexivity|repeat (apply Forall_cons; [eexists; reflexivity|]); apply Forall_nil]).
    - intros o [=].
    - repeat constructor. eexists. split; reflexivity.
    - constructor; [eexists; split; [apply Leads_stop; discriminate|]|constructor; [eexists; split; [apply Leads_stop; discriminate|]|constructor]].
      + eapply cs_icc; [eapply Leads_ref; [reflexivity|apply Leads_stop; discriminate]|reflexivity].
      + apply (cs_array _ "Separation" [ON "Red"]). unfold families. cbn [In]. tauto. }
  destruct R as (d & fs & xs & cs & Er & _ & -> & -> & RR & SC).
  cbn [Draws]. exists d, [(ON "F1", ORef 8)], [(ON "X", ORef 7)], cs, v_objs. split; [exact RR|]. split; [reflexivity|].
  unfold v_objs. apply sh_q. apply (sh_plain _ _ _ _ _ _ _ "cm" N6 [_; _; _; _; _; _]).
  { unfold plain_ops. cbn [In]. tauto. }
  { repeat constructor; anum. }
  apply sh_space; [cbn [In]; tauto|exact SC|]. apply (sh_colour _ _ _ _ _ _ _ "scn" [_; _; _]); [cbn [In]; tauto|repeat constructor; intros k; discriminate|].
  apply (sh_plain _ _ _ _ _ _ _ "re" N4 [_; _; _; _]).
  { unfold plain_ops. cbn [In]. tauto. }
  { repeat constructor; anum. }
  apply (sh_plain _ _ _ _ _ _ _ "f" [] []).
  { unfold plain_ops. cbn [In]. tauto. }
  { constructor. }
  apply sh_BT. apply (sh_Tf _ _ _ _ _ _ _ (bs "F1") (OInt 10) font1); [eexists; repeat split; reflexivity|anum|].
  change v_texts with (map (fun c => [c]) [72; 105] ++ map (fun c => [c]) [33] ++ map (fun c => [c]) [63] ++ [[65]; [98]] ++ []).
  assert (S : forall s, forallb (fun c => c <=? 127) s = true -> s <> [] -> sayable false font1 [OStr s] (map (fun c => [c]) s)).
  { intros s H. apply v_say. apply Forall_forall. intros c Hc. rewrite forallb_forall in H. apply Z.leb_le, H, Hc. }
  apply sh_Tj; [apply S; [reflexivity|discriminate]|]. apply sh_quote; [apply S; [reflexivity|discriminate]|].
  apply sh_dquote; [anum|anum|apply S; [reflexivity|discriminate]|]. apply sh_ET. apply sh_Q. apply sh_image. apply (sh_Do _ _ _ _ _ _ (bs "X")); [|constructor].
  exists (ORef 7). eexists. eexists. split; [reflexivity|]. split; [eapply Leads_ref; [reflexivity|apply Leads_stop; discriminate]|]. right.
  exists v_res. eexists _, _. split; [reflexivity|]. split; [reflexivity|]. split; [apply Leads_stop; discriminate|]. split; [split; [reflexivity|repeat constructor; anum]|].
  split; [intros m [=]|]. split; [left; split; reflexivity|].
  exists d, [(ON "F1", ORef 8)], [(ON "X", ORef 7)], cs, v_form. split; [exact RR|]. split; [reflexivity|].
  unfold v_form. apply sh_BT. apply (sh_Tf _ _ _ _ _ _ _ (bs "F1") (OInt 9) font1); [eexists; repeat split; reflexivity|anum|].
  change [[65]; [98]] with ([[65]; [98]] ++ []). apply sh_TJ; [|apply sh_ET; constructor]. split; [|split; [discriminate|]].
  - apply (sd_str font1 [65] [65] _ [[98]]); [reflexivity|]. eapply sd_num; [reflexivity|]. apply (sd_str font1 [98] [98] _ []); [reflexivity|constructor].
  - right. repeat (apply Forall_cons; [|]); [| | |apply Forall_nil]; intros b cids H; try discriminate H; (eapply v_known; [|exact H]); repeat constructor; lia.
Qed.
