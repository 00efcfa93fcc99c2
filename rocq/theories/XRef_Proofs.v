From Coq Require Import String.
From Verif Require Import Base PNG_Model PNG_Spec PNG_Proofs Lex_Model Lex_Chunk Lex_Spec Lex_Proofs Lines_Model Lines_Spec Lines_Proofs Obj Stack_Model Stack_Spec Stack_Proofs XRef_Model XRef_Spec.
From Coq Require Import ZifyBool ZifyNat.

(* ---------- cross-reference streams ---------- *)
Lemma firstn_len_app {A} (a b : list A) n : length a = n -> firstn n (a ++ b) = a.
Proof. intros <-. rewrite firstn_app, firstn_all, Nat.sub_diag. cbn. apply app_nil_r. Qed.
Lemma skipn_len_app {A} (a b : list A) n : length a = n -> skipn n (a ++ b) = b.
Proof. intros <-. apply skipn_before. reflexivity. Qed.

Lemma write_entry_length w1 w2 w3 e : length (write_entry w1 w2 w3 e) = (w1 + w2 + w3)%nat.
Proof. unfold write_entry. destruct (fields e) as [[t a] b]. rewrite !app_length, !be_encode_length. lia. Qed.

Lemma chunk_nth {A} (f : A -> list Z) w (es : list A) : (forall e, length (f e) = w) -> forall k e rest,
  nth_error es k = Some e -> firstn w (skipn (w * k) (concat (map f es) ++ rest)) = f e.
Proof.
  intros Hw. induction es as [|x es IH]; intros k e rest H; [destruct k; discriminate|]. destruct k as [|k]; cbn in H.
  - injection H as ->. rewrite Nat.mul_0_r. cbn [skipn map concat]. rewrite <- app_assoc. apply firstn_len_app. apply Hw.
  - cbn [map concat]. rewrite <- app_assoc. replace (w * S k)%nat with (w * k + w)%nat by lia.
    rewrite <- skipn_skipn, skipn_len_app by apply Hw. apply IH. assumption.
Qed.

Lemma sections_concat w1 w2 w3 l : write_sections w1 w2 w3 l = concat (map (write_entry w1 w2 w3) (concat (map snd l))).
Proof.
  unfold write_sections. induction l as [|s l IH]; [reflexivity|]. cbn [map concat]. rewrite IH, map_app, concat_app. reflexivity.
Qed.

Lemma int_pairs_index l : int_pairs (index_of l) = Ok (map (fun s => (fst s, Z.of_nat (length (snd s)))) l).
Proof. induction l as [|s l IH]; [reflexivity|]. cbn [index_of flat_map app int_pairs]. fold (index_of l). rewrite IH. reflexivity. Qed.
Lemma index_even l : Nat.even (length (index_of l)) = true.
Proof. induction l as [|s l IH]; [reflexivity|]. cbn [index_of flat_map app length Nat.even]. exact IH. Qed.

Definition xs_of (w1 w2 w3 : nat) (l : list subsection) : xrefstm :=
  mkXS (map (fun s => (fst s, Z.of_nat (length (snd s)))) l) w1 w2 w3 (write_sections w1 w2 w3 l).
Lemma xs_load_lemma attrs w1 w2 w3 l : XRefAttrs attrs w1 w2 w3 l ->
  xs_load attrs (Ok (write_sections w1 w2 w3 l)) = Ok (xs_of w1 w2 w3 l).
Proof.
  intros (Ht & Hw & size & Hs & Hi). unfold xs_load. rewrite Ht, Hw, Hs. unfold ON. rewrite list_eqb_refl. cbn [negb].
  assert (E : match dget attrs "Index" with None => Ok [OInt 0; OInt size] | Some (OArr l0) => Ok l0 | Some _ => Err TypeError end = Ok (index_of l)).
  { destruct Hi as [->|[-> (es & -> & ->)]]; reflexivity. }
  rewrite E. cbn [bind]. rewrite index_even. cbn [negb]. rewrite int_pairs_index. cbn [bind]. rewrite !Nat2Z.id. reflexivity.
Qed.

Lemma xs_index_lemma pre : forall s post k id acc, id = fst s + Z.of_nat k -> (k < length (snd s))%nat ->
  Forall (fun t => ~ covers t id) pre ->
  xs_index (map (fun s : subsection => (fst s, Z.of_nat (length (snd s)))) (pre ++ s :: post)) acc id =
  Some (acc + Z.of_nat (length (concat (map snd pre)) + k)).
Proof.
  induction pre as [|t pre IH]; intros s post k id acc Hid Hk HF.
  - cbn [app map xs_index concat length]. replace ((fst s <=? id) && (id <? fst s + Z.of_nat (length (snd s)))) with true by lia. f_equal. lia.
  - cbn [app map xs_index concat]. inversion_clear HF as [|? ? Ht HF']. unfold covers in Ht.
    replace ((fst t <=? id) && (id <? fst t + Z.of_nat (length (snd t)))) with false by lia.
    rewrite (IH s post k id _ Hid Hk HF'). rewrite app_length. f_equal. lia.
Qed.
Lemma xs_index_none l : forall id acc, Forall (fun t => ~ covers t id) l ->
  xs_index (map (fun s : subsection => (fst s, Z.of_nat (length (snd s)))) l) acc id = None.
Proof.
  induction l as [|t l IH]; intros id acc HF; [reflexivity|]. cbn [map xs_index]. inversion_clear HF as [|? ? Ht HF']. unfold covers in Ht.
  replace ((fst t <=? id) && (id <? fst t + Z.of_nat (length (snd t)))) with false by lia. apply IH; assumption.
Qed.

Definition width_ok (w : nat) : Prop := In w [0; 1; 2; 3; 4; 8]%nat.
Lemma nunpack_fits w d v : width_ok w -> fits w d v -> nunpack (be_encode w v) d = Ok v.
Proof.
  intros [<-|Hw] Hv; [cbn in Hv |- *; congruence|]. apply nunpack_lemma; [exact Hw|].
  cbn in Hw. repeat destruct Hw as [<-|Hw]; try exact Hv. destruct Hw.
Qed.

Lemma nth_sections (pre : list subsection) s post k e : nth_error (snd s) k = Some e ->
  nth_error (concat (map snd (pre ++ s :: post))) (length (concat (map snd pre)) + k) = @Some xentry e.
Proof.
  intros H. rewrite map_app, concat_app, nth_error_app2 by apply Nat.le_add_r.
  rewrite (Nat.add_comm (length _)), Nat.add_sub. cbn [map concat].
  rewrite nth_error_app1 by (apply nth_error_Some; congruence). assumption.
Qed.

Lemma ent_lemma w1 w2 w3 l k e : nth_error (concat (map snd l)) k = Some e -> ent (xs_of w1 w2 w3 l) (Z.of_nat k) = write_entry w1 w2 w3 e.
Proof.
  intros H. unfold ent, entlen, xs_of. cbn [xs_fl1 xs_fl2 xs_fl3 xs_data]. rewrite Nat2Z.id, sections_concat.
  rewrite <- (app_nil_r (concat _)). apply chunk_nth; [apply write_entry_length|assumption].
Qed.

Lemma xs_get_pos_lemma w1 w2 w3 l id e : width_ok w1 -> width_ok w2 -> width_ok w3 ->
  EntryOf l id e -> entry_ok w1 w2 w3 e ->
  xs_get_pos (xs_of w1 w2 w3 l) id = match place_of e with Some p => Ok p | None => Err KeyError end.
Proof.
  intros H1 H2 H3 (pre & s & post & k & -> & Hid & Hk & HF) He.
  assert (Hk' : (k < length (snd s))%nat) by (apply nth_error_Some; congruence).
  unfold xs_get_pos. cbn [xs_of xs_ranges]. rewrite (xs_index_lemma pre s post k id 0 Hid Hk' HF).
  rewrite Z.add_0_l. fold (xs_of w1 w2 w3 (pre ++ s :: post)). rewrite (ent_lemma _ _ _ _ _ _ (nth_sections pre s post k e Hk)).
  unfold entry_ok in He. unfold write_entry. destruct (fields e) as [[t a] b] eqn:Ef. destruct He as (F1 & F2 & F3 & F4).
  cbn [xs_of xs_fl1 xs_fl2]. rewrite firstn_len_app by apply be_encode_length. rewrite nunpack_fits by assumption. cbn [bind].
  rewrite skipn_len_app by apply be_encode_length. rewrite firstn_len_app by apply be_encode_length. rewrite nunpack_fits by assumption. cbn [bind].
  rewrite (Nat.add_comm w1 w2), <- skipn_skipn, !skipn_len_app by apply be_encode_length.
  rewrite nunpack_fits by assumption. cbn [bind].
  destruct e; cbn in Ef; injection Ef as <- <- <-; cbn [place_of]; try reflexivity.
  replace (type =? 1) with false by lia. replace (type =? 2) with false by lia. reflexivity.
Qed.

Lemma xs_ids_lemma w1 w2 w3 first es : width_ok w1 -> Forall (entry_ok w1 w2 w3) es ->
  forall post pre, xs_ids_range (xs_of w1 w2 w3 [(first, pre ++ post)]) first (length pre) (length post) =
   (flat_map (fun ke => match place_of (snd ke) with Some _ => [first + Z.of_nat (fst ke)] | None => [] end)
      (combine (seq (length pre) (length post)) post), None) \/ es <> pre ++ post.
Proof.
  intros Hw Ho. induction post as [|e post IH]; intros pre; [left; reflexivity|].
  destruct (list_eq_dec (fun a b : xentry => ltac:(decide equality; apply Z.eq_dec)) es (pre ++ e :: post)) as [->|]; [left|right; assumption].
  specialize (IH (pre ++ [e])). rewrite <- app_assoc in IH. cbn [app] in IH. destruct IH as [IH|IH]; [|congruence].
  rewrite app_length in IH. cbn [length] in IH. rewrite Nat.add_1_r in IH.
  cbn [length xs_ids_range seq combine flat_map fst snd].
  rewrite (ent_lemma w1 w2 w3 [(first, pre ++ e :: post)] (length pre) e).
  2:{ cbn [map snd concat]. rewrite app_nil_r, nth_error_app2, Nat.sub_diag by lia. reflexivity. }
  rewrite IH. rewrite Forall_app in Ho. destruct Ho as [_ Ho]. apply Forall_inv in Ho. unfold entry_ok in Ho. unfold write_entry.
  destruct (fields e) as [[t a] b] eqn:Ef. destruct Ho as (F1 & F2 & F3 & F4).
  cbn [xs_of xs_fl1]. rewrite firstn_len_app by apply be_encode_length. rewrite nunpack_fits by assumption.
  destruct e; cbn in Ef; injection Ef as <- <- <-; cbn [place_of]; try reflexivity.
  replace (type =? 1) with false by lia. replace (type =? 2) with false by lia. reflexivity.
Qed.

(* ---------- cross-reference tables ---------- *)
Lemma zget_zset_same {A} (d : list (Z * A)) k v : zget (zset d k v) k = Some v.
Proof.
  induction d as [|[k' v'] d IH]; cbn [zset zget]; [rewrite Z.eqb_refl; reflexivity|].
  destruct (k' =? k) eqn:E; cbn [zget]; rewrite E; [reflexivity|assumption].
Qed.
Lemma zget_zset_other {A} (d : list (Z * A)) k v k2 : k <> k2 -> zget (zset d k v) k2 = zget d k2.
Proof.
  intros Hk. induction d as [|[k' v'] d IH]; cbn [zset zget].
  - destruct (k =? k2) eqn:E; [lia|reflexivity].
  - destruct (k' =? k) eqn:E; cbn [zget]; destruct (k' =? k2) eqn:E2; try reflexivity; try assumption. lia.
Qed.

(* the line st is at *)
Definition lview (st : lstate) (data : list Z) (p : Z) : Prop :=
  let '(pos, b, cs) := st in pos = p /\ b ++ concat cs = data /\ nonempty cs.
Lemma lnext_lemma st line rest p : lview st (line ++ rest) p -> Line line rest ->
  exists st', lnext st = (Ok (p, line), st') /\ lview st' rest (p + Z.of_nat (length line)).
Proof.
  destruct st as [[pos b] cs]. intros (-> & Hd & Hn) HL. unfold lnext.
  pose proof (nextline_spec p b cs Hn) as H. destruct (nextline p b cs) as [[[q l]|e] [[pos' b'] cs']].
  - destruct H as (-> & -> & Hn' & He & HL'). rewrite Hd in He.
    destruct (line_unique _ _ _ _ HL HL' He) as [<- ->]. eexists. split; [reflexivity|]. hnf. splits; [reflexivity|reflexivity|assumption].
  - destruct H as [_ U]. rewrite Hd in U. exfalso. exact (line_not_unfinished _ _ HL U).
Qed.

Lemma textline_line text line rest : TextLine text line rest -> no_eol text -> Line line rest.
Proof.
  intros (sp & m & -> & Hsp & Hm & Hr) Ht.
  assert (Hb : no_eol (text ++ sp)).
  { apply no_eol_app. split; [assumption|]. eapply Forall_impl; [|exact Hsp]. unfold eol_byte. cbn. lia. }
  rewrite app_assoc. destruct Hm; [constructor 1; assumption| |constructor 2; assumption].
  destruct Hr as (c & r & -> & Hc); [reflexivity|]. constructor 3; assumption.
Qed.

Lemma span_nil_all (p : Z -> bool) s : Forall (fun c => p c = false) s -> span p s = (s, []).
Proof. induction 1 as [|c s Hc Hs IH]; cbn [span]; [reflexivity|]. rewrite Hc, IH. reflexivity. Qed.
Lemma span_stop (p : Z -> bool) a c r : Forall (fun c => p c = false) a -> p c = true -> span p (a ++ c :: r) = (a, c :: r).
Proof. induction 1 as [|x a Hx Ha IH]; intros Hc; cbn [span app]; [rewrite Hc; reflexivity|]. rewrite Hx, IH by assumption. reflexivity. Qed.
Definition blank (s : list Z) : Prop := Forall (fun c => is_space c = true) s.
Lemma strip_lemma a x mid y b : blank a -> blank b -> is_space x = false -> is_space y = false ->
  strip (a ++ x :: mid ++ y :: b) = x :: mid ++ [y].
Proof.
  intros Ha Hb Hx Hy. unfold strip.
  rewrite (span_stop _ a x) by (try (eapply Forall_impl; [|exact Ha]); cbn; intros; lia). cbn [snd].
  replace (rev (x :: mid ++ y :: b)) with (rev b ++ y :: rev (x :: mid)).
  2:{ change (x :: mid ++ y :: b) with ((x :: mid) ++ [y] ++ b). rewrite !rev_app_distr. cbn [rev app]. rewrite <- !app_assoc. reflexivity. }
  rewrite (span_stop _ (rev b) y); [|apply Forall_rev; eapply Forall_impl; [|exact Hb]; cbn; intros; lia|lia].
  cbn [snd]. change (y :: rev (x :: mid)) with ([y] ++ rev (x :: mid)). rewrite rev_app_distr, rev_involutive. reflexivity.
Qed.
Lemma strip_one a x b : blank a -> blank b -> is_space x = false -> strip (a ++ x :: b) = [x].
Proof.
  intros Ha Hb Hx. unfold strip.
  rewrite (span_stop _ a x) by (try (eapply Forall_impl; [|exact Ha]); cbn; intros; lia). cbn [snd rev].
  rewrite (span_stop _ (rev b) x); [|apply Forall_rev; eapply Forall_impl; [|exact Hb]; cbn; intros; lia|lia]. reflexivity.
Qed.
Lemma strip_blank a : blank a -> strip a = [].
Proof. intros Ha. unfold strip. rewrite (span_nil_all _ a); [reflexivity|]. eapply Forall_impl; [|exact Ha]. cbn. intros; lia. Qed.

(* text that begins and ends with non-blanks *)
Definition tight (t : list Z) : Prop := (exists x r, t = x :: r /\ is_space x = false) /\ (exists r y, t = r ++ [y] /\ is_space y = false).
Lemma strip_tight a t b : blank a -> blank b -> tight t -> strip (a ++ t ++ b) = t.
Proof.
  intros Ha Hb ((x & r & -> & Hx) & (r' & y & E & Hy)).
  destruct r' as [|x' r'].
  - injection E as -> ->. cbn [app]. apply strip_one; assumption.
  - injection E as <- ->. cbn [app]. rewrite <- app_assoc. cbn [app]. apply strip_lemma; assumption.
Qed.
Lemma eol_mark_blank m : eol_mark m -> blank m.
Proof. intros []; repeat constructor. Qed.
Lemma sp_blank sp : Forall (fun c => c = 32 \/ c = 9) sp -> blank sp.
Proof. intros H. eapply Forall_impl; [|exact H]. cbn. intros c [->| ->]; reflexivity. Qed.
Lemma textline_strip t line rest : TextLine t line rest -> tight t -> strip line = t.
Proof.
  intros (sp & m & -> & Hsp & Hm & _) Ht. apply (strip_tight [] t (sp ++ m)); [constructor| |assumption].
  apply Forall_app. split; [apply sp_blank; assumption|apply eol_mark_blank; assumption].
Qed.

Lemma textline_strip_nil line rest : TextLine [] line rest -> strip line = [].
Proof.
  intros (sp & m & -> & Hsp & Hm & _). cbn [app]. unfold strip. rewrite (span_nil_all _ (sp ++ m)); [reflexivity|].
  apply Forall_app. split; (eapply Forall_impl; [|first [exact (sp_blank _ Hsp)|exact (eol_mark_blank _ Hm)]]); intros c Hc; cbn beta in *; rewrite Hc; reflexivity.
Qed.

Lemma dec_ends t v : Dec t v -> (exists c r, t = c :: r /\ digit c) /\ (exists r c, t = r ++ [c] /\ digit c).
Proof.
  induction 1 as [d Hd|t v d H IH Hd]; unfold digit in *.
  - split; [exists (48 + d), []; split; [reflexivity|lia]|exists [], (48 + d); split; [reflexivity|lia]].
  - split; [|exists t, (48 + d); split; [reflexivity|lia]]. destruct IH as [(c & r & -> & Hc) _]. exists c, (r ++ [48 + d]). split; [reflexivity|assumption].
Qed.
Lemma digit_facts c : digit c -> is_space c = false /\ c <> 32 /\ ~ eol_byte c.
Proof. unfold digit, is_space, eol_byte. lia. Qed.
Lemma dec_tight a va b vb : Dec a va -> Dec b vb -> tight (a ++ 32 :: b).
Proof.
  intros Ha Hb. destruct (dec_ends _ _ Ha) as [(c & r & -> & Hc) _]. destruct (dec_ends _ _ Hb) as [_ (r' & c' & -> & Hc')].
  split; [exists c, (r ++ 32 :: r' ++ [c'])|exists ((c :: r) ++ 32 :: r'), c'].
  - split; [reflexivity|apply digit_facts; assumption].
  - split; [|apply digit_facts; assumption]. rewrite <- app_assoc. reflexivity.
Qed.
Lemma split_sp_word w s : Forall (fun c => c <> 32) w -> split_sp (w ++ 32 :: s) = w :: split_sp s.
Proof.
  induction 1 as [|c w Hc Hw IH]; cbn [app split_sp]; [rewrite Z.eqb_refl; reflexivity|].
  replace (c =? 32) with false by lia. rewrite IH. reflexivity.
Qed.
Lemma split_sp_last w : Forall (fun c => c <> 32) w -> split_sp w = [w].
Proof.
  induction 1 as [|c w Hc Hw IH]; cbn [split_sp]; [reflexivity|].
  replace (c =? 32) with false by lia. rewrite IH. reflexivity.
Qed.
Lemma dec_no32 t v : Dec t v -> Forall (fun c => c <> 32) t.
Proof. intros H. eapply Forall_impl; [|exact (proj1 (dec_digit _ _ H))]. intros c Hc. apply digit_facts in Hc. tauto. Qed.
Lemma dec_noeol t v : Dec t v -> no_eol t.
Proof. intros H. eapply Forall_impl; [|exact (proj1 (dec_digit _ _ H))]. intros c Hc. apply digit_facts in Hc. tauto. Qed.
Lemma dec_int t v : Dec t v -> py_int t = Some v.
Proof. intros H. pose proof (py_int_spec [] 1 t v Sign_none H) as E. cbn [app] in E. rewrite E. f_equal. lia. Qed.
Lemma no_eol_cons c s : ~ eol_byte c -> no_eol s -> no_eol (c :: s).
Proof. intros; constructor; assumption. Qed.

(* the object numbers of entries, and the dictionary after them *)
Fixpoint add_entries (offs : list (Z * pos3)) (id : Z) (es : list xentry) : list (Z * pos3) :=
  match es with
  | [] => offs
  | InUse o g :: r => add_entries (zset offs id (None, o, g)) (id + 1) r
  | _ :: r => add_entries offs (id + 1) r
  end.
Fixpoint add_sections (offs : list (Z * pos3)) (l : list subsection) : list (Z * pos3) :=
  match l with [] => offs | (first, es) :: r => add_sections (add_entries offs first es) r end.

Lemma xtentry_facts e t : XTEntry e t -> tight t /\ no_eol t.
Proof.
  assert (K : forall a b o g u, Dec a o -> Dec b g -> is_space u = false -> ~ eol_byte u ->
    tight (a ++ 32 :: b ++ [32; u]) /\ no_eol (a ++ 32 :: b ++ [32; u])).
  { intros a b o g u Ha Hb Hu He. split.
    - destruct (dec_ends _ _ Ha) as [(c & r & -> & Hc) _]. split.
      + eexists c, _. split; [reflexivity|apply digit_facts; assumption].
      + exists ((c :: r) ++ 32 :: b ++ [32]), u. split; [|assumption]. rewrite <- !app_assoc. cbn [app]. rewrite <- app_assoc. reflexivity.
    - apply no_eol_app. split; [apply (dec_noeol _ _ Ha)|]. apply no_eol_cons; [unfold eol_byte; lia|].
      apply no_eol_app. split; [apply (dec_noeol _ _ Hb)|]. repeat constructor; [unfold eol_byte; lia|assumption]. }
  intros [o g a b Ha Hb|o g a b Ha Hb].
  - apply (K a b o g 110 Ha Hb); [reflexivity|unfold eol_byte; lia].
  - apply (K a b o g 102 Ha Hb); [reflexivity|unfold eol_byte; lia].
Qed.
Lemma xtentry_split e t : XTEntry e t -> exists a b u, split_sp t = [a; b; u] /\
  match e with InUse o g => u = bs "n" /\ int_of a = Ok o /\ int_of b = Ok g | _ => list_eqb u (bs "n") = false end.
Proof.
  intros [o g a b Ha Hb|o g a b Ha Hb].
  - exists a, b, (bs "n"). split.
    + rewrite split_sp_word by exact (dec_no32 _ _ Ha). change (bs " n") with (32 :: bs "n"). rewrite split_sp_word by exact (dec_no32 _ _ Hb). reflexivity.
    + unfold int_of. rewrite (dec_int _ _ Ha), (dec_int _ _ Hb). splits; reflexivity.
  - exists a, b, (bs "f"). split; [|reflexivity].
    rewrite split_sp_word by exact (dec_no32 _ _ Ha). change (bs " f") with (32 :: bs "f"). rewrite split_sp_word by exact (dec_no32 _ _ Hb). reflexivity.
Qed.

Lemma xt_entries_lemma es text rest : XTEntries es text rest -> forall objid st offs p,
  lview st (text ++ rest) p -> exists st', xt_entries (length es) objid st offs = Ok (add_entries offs objid es, st') /\
    lview st' rest (p + Z.of_nat (length text)).
Proof.
  induction 1 as [rest|e es t line text rest He HT H IH]; intros objid st offs p V.
  - exists st. cbn. split; [reflexivity|]. rewrite Z.add_0_r. exact V.
  - destruct (xtentry_facts _ _ He) as [Ht1 Ht2]. rewrite <- app_assoc in V.
    destruct (lnext_lemma _ _ _ _ V (textline_line _ _ _ HT Ht2)) as (st1 & E1 & V1).
    cbn [length xt_entries]. rewrite E1, (textline_strip _ _ _ HT Ht1).
    destruct (xtentry_split _ _ He) as (a & b & u & -> & Hu).
    destruct (IH (objid + 1) st1 (add_entries offs objid [e]) _ V1) as (st2 & E2 & V2).
    exists st2. split.
    + destruct e as [n g|o g|x y|x y z]; cbn [add_entries] in E2 |- *.
      * rewrite Hu. exact E2.
      * destruct Hu as (-> & Ha & Hb). rewrite list_eqb_refl, Ha, Hb. cbn [bind]. exact E2.
      * rewrite Hu. exact E2.
      * rewrite Hu. exact E2.
    + rewrite app_length, Nat2Z.inj_add, Z.add_assoc. exact V2.
Qed.

Lemma xt_load_lemma secs text rest : XTable secs text rest -> forall tail trailer st offs p,
  rest = trailer ++ tail -> Line trailer tail -> prefixb (bs "trailer") trailer = true ->
  lview st (text ++ rest) p ->
  exists n, forall f, xt_load (n + f) st offs = Ok (add_sections offs secs, p + Z.of_nat (length text)).
Proof.
  induction 1 as [rest|line secs texts rest HT H IH|first es a b line text secs texts rest Ha Hb HT HE H IH]; intros tail trailer st offs p -> HL Hp V.
  - cbn [app] in V. destruct (lnext_lemma _ _ _ _ V HL) as (st1 & E1 & V1). exists 1%nat. intros f. cbn [length Nat.add xt_load]. rewrite E1, Hp.
    cbn [add_sections]. change (Z.of_nat 0) with 0. rewrite Z.add_0_r.
    destruct (strip trailer) eqn:Es; [|reflexivity]. exfalso.
    destruct trailer as [|c trailer]; [discriminate|]. cbn [prefixb bs] in Hp. apply andb_prop in Hp as [Hc _].
    apply Z.eqb_eq in Hc. vm_compute in Hc. subst c. unfold strip in Es. cbn [span] in Es. change (negb (is_space 116)) with true in Es. cbn [snd] in Es.
    set (r := rev (116 :: trailer)) in *. assert (Hin : In 116 r) by (unfold r; rewrite <- in_rev; left; reflexivity).
    clearbody r. revert Hin Es. induction r as [|y r IHr]; intros Hin Es; [destruct Hin|]. cbn [span] in Es.
    destruct (negb (is_space y)) eqn:Ey.
    { cbn [snd rev] in Es. apply app_eq_nil in Es as [_ Es]. discriminate. }
    destruct Hin as [->|Hin]; [discriminate|]. apply IHr; [assumption|]. destruct (span _ r); exact Es.
  - rewrite <- app_assoc in V.
    destruct (lnext_lemma _ _ _ _ V (textline_line _ _ _ HT (Forall_nil _))) as (st1 & E1 & V1).
    destruct (IH tail trailer st1 offs _ eq_refl HL Hp V1) as (n & E2). exists (S n). intros f. cbn [Nat.add xt_load].
    rewrite E1, (textline_strip_nil _ _ HT), E2. rewrite app_length. f_equal. f_equal. lia.
  - pose proof (dec_tight _ _ _ _ Ha Hb) as Ht.
    assert (Hn : no_eol (a ++ 32 :: b)).
    { apply no_eol_app. split; [apply (dec_noeol _ _ Ha)|]. apply no_eol_cons; [unfold eol_byte; lia|apply (dec_noeol _ _ Hb)]. }
    rewrite <- !app_assoc in V. rewrite app_assoc in V. rewrite <- app_assoc in V.
    destruct (lnext_lemma _ _ _ _ V (textline_line _ _ _ HT Hn)) as (st1 & E1 & V1).
    destruct (xt_entries_lemma _ _ _ HE first st1 offs _ V1) as (st2 & E2 & V2).
    destruct (IH tail trailer st2 (add_entries offs first es) _ eq_refl HL Hp V2) as (n & E3).
    exists (S n). intros f. cbn [Nat.add xt_load]. rewrite E1, (textline_strip _ _ _ HT Ht).
    destruct (a ++ 32 :: b) as [|c0 r0] eqn:Eab; [destruct a; discriminate|].
    assert (Hpf : prefixb (bs "trailer") line = false).
    { destruct HT as (sp & m & -> & _). cbn [app]. destruct (dec_ends _ _ Ha) as [(c & r & -> & Hc) _]. injection Eab as <- _.
      change (bs "trailer") with (116 :: bs "railer"). cbn [prefixb]. unfold digit in Hc. replace (116 =? c) with false by lia. reflexivity. }
    rewrite Hpf, <- Eab. rewrite split_sp_word by exact (dec_no32 _ _ Ha). rewrite split_sp_last by exact (dec_no32 _ _ Hb).
    rewrite (dec_int _ _ Ha), (dec_int _ _ Hb), Nat2Z.id.
    rewrite E2. cbn [bind]. rewrite E3.
    cbn [add_sections]. rewrite !app_length. f_equal. f_equal. lia.
Qed.

Definition NoOverlap (l : list subsection) : Prop := ForallOrdPairs (fun s t => forall id, ~ (covers s id /\ covers t id)) l.

Lemma add_entries_get es : forall offs first id, zget (add_entries offs first es) id =
  match (if first <=? id then nth_error es (Z.to_nat (id - first)) else None) with
  | Some (InUse o g) => Some (None, o, g)
  | _ => zget offs id
  end.
Proof.
  induction es as [|e es IH]; intros offs first id.
  - cbn [add_entries]. destruct (first <=? id); [destruct (Z.to_nat _)|]; reflexivity.
  - assert (K : forall offs', (id <> first -> zget offs' id = zget offs id) ->
      (id = first -> zget offs' id = match e with InUse o g => Some (None, o, g) | _ => zget offs id end) ->
      zget (add_entries offs' (first + 1) es) id =
      match (if first <=? id then nth_error (e :: es) (Z.to_nat (id - first)) else None) with
      | Some (InUse o g) => Some (None, o, g) | _ => zget offs id end).
    { intros offs' H1 H2. rewrite IH. destruct (Z.eq_dec id first) as [->|Hne].
      - replace (first + 1 <=? first) with false by lia. rewrite Z.leb_refl, Z.sub_diag, H2 by reflexivity. cbn [nth_error Z.to_nat]. destruct e; reflexivity.
      - rewrite H1 by assumption. destruct (first <=? id) eqn:E.
        + replace (first + 1 <=? id) with true by lia.
          replace (Z.to_nat (id - first)) with (S (Z.to_nat (id - (first + 1)))) by lia. reflexivity.
        + replace (first + 1 <=? id) with false by lia. reflexivity. }
    destruct e; cbn [add_entries].
    + apply K; intros; reflexivity.
    + apply K; intros H. { apply zget_zset_other. lia. } subst. apply zget_zset_same.
    + apply K; intros; reflexivity.
    + apply K; intros; reflexivity.
Qed.

Lemma add_sections_uncovered l : forall offs id, Forall (fun t => ~ covers t id) l -> zget (add_sections offs l) id = zget offs id.
Proof.
  induction l as [|[first es] l IH]; intros offs id H; [reflexivity|]. cbn [add_sections]. inversion_clear H as [|? ? H1 H2].
  rewrite IH by assumption. rewrite add_entries_get. unfold covers in H1. cbn [fst snd] in H1.
  destruct (first <=? id) eqn:E; [|reflexivity].
  replace (nth_error es (Z.to_nat (id - first))) with (@None xentry); [reflexivity|]. symmetry. apply nth_error_None. lia.
Qed.
Lemma add_sections_get l : forall offs id e, NoOverlap l -> EntryOf l id e ->
  zget (add_sections offs l) id = match e with InUse o g => Some (None, o, g) | _ => zget offs id end.
Proof.
  induction l as [|[first es] l IH]; intros offs id e HN (pre & s & post & k & El & Hid & Hk & HF).
  - destruct pre; discriminate.
  - inversion HN as [|? ? HN1 HN2]; subst. cbn [add_sections]. destruct pre as [|t pre].
    + injection El as <- ->. cbn [fst snd] in *.
      assert (Hlt : (k < length es)%nat) by (apply nth_error_Some; congruence).
      rewrite add_sections_uncovered.
      * rewrite add_entries_get. replace (first <=? first + Z.of_nat k) with true by lia.
        replace (Z.to_nat (first + Z.of_nat k - first)) with k by lia. rewrite Hk. destruct e; reflexivity.
      * eapply Forall_impl; [|exact HN1]. cbn beta. intros t Ht Hc. apply (Ht (first + Z.of_nat k)). split; [|exact Hc]. unfold covers. cbn [fst snd]. lia.
    + injection El as <- ->. inversion_clear HF as [|? ? HF1 HF2].
      rewrite (IH _ _ e HN2). 2:{ exists pre, s, post, k. splits; try assumption; reflexivity. }
      destruct e; try reflexivity; rewrite add_entries_get; unfold covers in HF1; cbn [fst snd] in HF1;
       (destruct (first <=? fst s + Z.of_nat k) eqn:E; [|reflexivity]);
       (replace (nth_error es (Z.to_nat (fst s + Z.of_nat k - first))) with (@None xentry); [reflexivity|]; symmetry; apply nth_error_None; lia).
Qed.

(* ---------- find_xref ---------- *)
Lemma seg_split data : exists h ys, no_eol h /\ Forall Segment ys /\ data = h ++ concat ys.
Proof. destruct (revread_spec 1 data ltac:(lia)) as (h & A & B & C). exists h, (rev (revreadlines 1 data)). splits; [assumption|apply Forall_rev; assumption|assumption]. Qed.
Lemma revread_is n data h ys : (0 < n)%nat -> no_eol h -> Forall Segment ys -> data = h ++ concat ys -> revreadlines n data = rev ys.
Proof.
  intros Hn H1 H2 E. destruct (revread_spec n data Hn) as (h' & A & B & C).
  destruct (segs_unique (rev (revreadlines n data)) ys h' h A H1 (Forall_rev B) H2) as [_ E2]; [congruence|].
  rewrite <- E2, rev_involutive. reflexivity.
Qed.
Definition nonblank_last (prev : option (list Z)) (ls : list (list Z)) : option (list Z) :=
  fold_left (fun prev l => match strip l with [] => prev | _ => Some (strip l) end) ls prev.
Lemma find_skip ls : forall rest prev, Forall (fun l => strip l <> bs "startxref") ls ->
  find_xref_loop (ls ++ rest) prev = find_xref_loop rest (nonblank_last prev ls).
Proof.
  induction ls as [|l ls IH]; intros rest prev H; [reflexivity|]. inversion_clear H as [|? ? H1 H2]. cbn [app find_xref_loop nonblank_last fold_left].
  destruct (list_eqb (strip l) (bs "startxref")) eqn:E; [apply list_eqb_eq in E; contradiction|].
  rewrite IH by assumption. reflexivity.
Qed.
Lemma strip_sub s : exists a b, s = a ++ strip s ++ b.
Proof.
  unfold strip. destruct (span (fun c => negb (is_space c)) s) as [a r] eqn:E. apply span_app in E. cbn [snd].
  destruct (span (fun c => negb (is_space c)) (rev r)) as [b r'] eqn:E2. apply span_app in E2. cbn [snd].
  exists a, (rev b). rewrite E. f_equal. rewrite <- rev_app_distr, <- E2, rev_involutive. reflexivity.
Qed.

Lemma find_xref_lemma n head e l1 num v l2 tail : (0 < n)%nat -> eol_byte e ->
  TextLine (bs "startxref") l1 (l2 ++ tail) -> Dec num v -> TextLine num l2 tail ->
  (forall a b, tail <> a ++ bs "startxref" ++ b) ->
  find_xref n (head ++ e :: l1 ++ l2 ++ tail) = Ok v.
Proof.
  intros Hn He (sp1 & m1 & -> & Hsp1 & Hm1 & Hr1) Hv (sp2 & m2 & -> & Hsp2 & Hm2 & Hr2) Hno.
  destruct (seg_split head) as (h & hs & Hh & Hhs & Ehead).
  destruct (seg_split (m2 ++ tail)) as (h2 & ys & Hh2 & Hys & Etail).
  assert (h2 = []) as ->.
  { destruct h2 as [|c h2]; [reflexivity|exfalso]. inversion_clear Hh2 as [|? ? Hc _]. destruct Hm2; injection Etail as <- _; apply Hc; unfold eol_byte; lia. }
  cbn [app] in Etail.
  assert (Hsp : forall sp, Forall (fun c => c = 32 \/ c = 9) sp -> no_eol sp).
  { intros sp H. eapply Forall_impl; [|exact H]. unfold eol_byte. cbn. lia. }
  assert (Hmid : exists mid c, Forall Segment (mid ++ [c :: num ++ sp2]) /\ m1 ++ num ++ sp2 = concat (mid ++ [c :: num ++ sp2]) /\ Forall (fun l => strip l = []) mid /\ eol_byte c).
  { assert (K : forall c, eol_byte c -> Segment (c :: num ++ sp2)).
    { intros c Hc. exists c, (num ++ sp2). splits; [reflexivity|assumption|]. apply no_eol_app. split; [apply (dec_noeol _ _ Hv)|apply Hsp; assumption]. }
    destruct Hm1; unfold eol_byte in *.
    - exists [], 10. splits; [repeat constructor; apply K; lia|cbn; rewrite app_nil_r; reflexivity|constructor|lia].
    - exists [], 13. splits; [repeat constructor; apply K; lia|cbn; rewrite app_nil_r; reflexivity|constructor|lia].
    - exists [[13]], 10. splits.
      + constructor; [exists 13, []; splits; [reflexivity|unfold eol_byte; lia|constructor]|repeat constructor; apply K; lia].
      + cbn. rewrite app_nil_r. reflexivity.
      + repeat constructor.
      + lia. }
  destruct Hmid as (mid & c & Hmid1 & Hmid2 & Hmid3 & Hc).
  unfold find_xref.
  rewrite (revread_is n _ h (hs ++ (e :: bs "startxref" ++ sp1) :: (mid ++ [c :: num ++ sp2]) ++ ys) Hn Hh).
  - rewrite rev_app_distr. cbn [rev]. rewrite !rev_app_distr. cbn [rev app]. rewrite <- !app_assoc.
    rewrite find_skip.
    2:{ apply Forall_rev. apply Forall_forall. intros y Hy Es. apply in_split in Hy as (ya & yb & ->).
        destruct (strip_sub y) as (sa & sb & Ey). rewrite Es in Ey. rewrite concat_app in Etail. cbn [concat] in Etail. rewrite Ey in Etail.
        rewrite <- !app_assoc in Etail. rewrite (app_assoc (concat ya)) in Etail. set (A := concat ya ++ sa) in Etail. set (B := sb ++ concat yb) in Etail.
        clearbody A B. clear -Etail Hm2 Hno.
        assert (K : exists k, A = m2 ++ k).
        { destruct Hm2; (destruct A as [|a0 A]; [discriminate|]); injection Etail as <- Etail; try (exists A; reflexivity).
          destruct A as [|a1 A]; [discriminate|]. injection Etail as <- Etail. exists A; reflexivity. }
        destruct K as [k ->]. rewrite <- app_assoc in Etail. apply app_inv_head in Etail. exact (Hno _ _ Etail). }
    destruct (dec_ends _ _ Hv) as [(x & r & En & Hx) (r' & y & En' & Hy)].
    assert (St : strip (c :: num ++ sp2) = num).
    { apply (strip_tight [c] num sp2).
      - constructor; [|constructor]. unfold eol_byte in Hc. unfold is_space. lia.
      - apply sp_blank; assumption.
      - split; [exists x, r; split; [assumption|apply digit_facts; assumption]|exists r', y; split; [assumption|apply digit_facts; assumption]]. }
    change (((c :: num ++ sp2) :: rev mid) ++ [e :: bs "startxref" ++ sp1] ++ rev hs) with ((c :: num ++ sp2) :: (rev mid ++ [e :: bs "startxref" ++ sp1] ++ rev hs)).
    cbn [find_xref_loop]. rewrite St.
    destruct (list_eqb num (bs "startxref")) eqn:El.
    { apply list_eqb_eq in El. exfalso. rewrite El in En. injection En as Ex _. vm_compute in Ex. subst x. unfold digit in Hx. lia. }
    replace (match num with [] => nonblank_last None (rev ys) | _ => Some num end) with (Some num) by (rewrite En; reflexivity). rewrite find_skip.
    2:{ apply Forall_rev. eapply Forall_impl; [|exact Hmid3]. intros l Hl. cbn beta. rewrite Hl. discriminate. }
    assert (Hnb : nonblank_last (Some num) (rev mid) = Some num).
    { apply Forall_rev in Hmid3. revert Hmid3. generalize (rev mid). induction l as [|l0 l IHl]; intros Hl; [reflexivity|].
      inversion_clear Hl as [|? ? Hl1 Hl2]. cbn [nonblank_last fold_left]. rewrite Hl1. apply IHl; assumption. }
    rewrite Hnb. cbn [app find_xref_loop].
    change (strip (e :: bs "startxref" ++ sp1)) with (strip ([e] ++ bs "startxref" ++ sp1)). rewrite (strip_tight [e] (bs "startxref") sp1).
    + rewrite list_eqb_refl. unfold int_of. rewrite (dec_int _ _ Hv). reflexivity.
    + constructor; [|constructor]. unfold eol_byte in He. unfold is_space. lia.
    + apply sp_blank; assumption.
    + split; [exists 115, (bs "tartxref"); split; reflexivity|exists (bs "startxre"), 102; split; reflexivity].
  - apply Forall_app. split; [assumption|]. constructor.
    + exists e, (bs "startxref" ++ sp1). splits; [reflexivity|assumption|]. apply no_eol_app. split; [|apply Hsp; assumption].
      repeat constructor; unfold eol_byte; vm_compute; intros [H|H]; discriminate.
    + apply Forall_app. split; assumption.
  - rewrite Ehead, !concat_app. cbn [concat]. rewrite concat_app, <- Hmid2, <- Etail. rewrite <- !app_assoc. cbn [app]. rewrite <- !app_assoc. reflexivity.
Qed.

(* ---------- load_trailer ---------- *)
Lemma step_startxref e p s pos : step (pdf_keyword e) p s pos (KW "startxref") =
  (let (l, s1) := pop s 1 in Ok (p, add_results s1 l)).
Proof. reflexivity. Qed.
