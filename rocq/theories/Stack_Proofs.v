From Coq Require Import String.
From Verif Require Import Base Lex_Model Lex_Chunk Lex_Spec Lex_Proofs Lines_Model Lines_Spec Lines_Proofs Obj Stack_Model Stack_Spec.
From Coq Require Import ZifyBool ZifyNat.

(* ---- one token of the reader ---- *)
Lemma nexttoken_tokens p t ts e : nonempty (chunks p) -> tokens p = (t :: ts, e) ->
  exists p', nexttoken p = (Ok t, p') /\ tokens p' = (ts, e) /\ nonempty (chunks p').
Proof.
  intros Hne H.
  set (g := S (measure_ (lx p) (length (buf p ++ concat (chunks p))))).
  rewrite (tokens_flat p g Hne ltac:(unfold g; lia)) in H.
  pose proof (nexttoken_flat (lex_fuel (length (buf p) + length (concat (chunks p)))) (lx p) (pos p) (buf p) (chunks p) g Hne
     ltac:(rewrite app_length; apply measure_fuel) ltac:(unfold g; lia)) as Hn.
  unfold nexttoken. destruct (nexttoken_loop _ _ _ _ _) as [[t'|ex] p'].
  - destruct Hn as (N1 & N2 & N3). specialize (N3 g ltac:(unfold g; lia)). rewrite H in N3.
    exists p'. pose proof (tokens_flat p' g N1 ltac:(unfold g; lia)) as T.
    destruct (flat g (lx p') _ _ _) as [ts' e']. injection N3 as -> -> ->. splits; [reflexivity|assumption|assumption].
  - rewrite Hn in H. discriminate.
Qed.

(* ---- text followed by anything ---- *)
Definition tok_eq (a b : Z * token) : Prop := snd a = snd b /\ (fst a = fst b \/ snd a = TKwd [62; 62]).

Lemma pre_app a b x : pre (a ++ b) x = pre a (pre b x).
Proof. unfold pre. cbn. rewrite app_assoc. reflexivity. Qed.

Lemma layoutP_lemma e pos ts text rest : LayoutP e pos ts text rest -> (forall r, rest <> 62 :: r) ->
  forall l, mode_ l = MMain ->
  (exists ts' l', Forall2 tok_eq ts' ts /\ mode_ l' = MMain /\
     toks l pos (text ++ rest) = pre ts' (toks l' (pos + Z.of_nat (length text)) rest)) /\
  (exists ts' l', Forall2 tok_eq ts' ts /\ mode_ l' = MMain /\
     toks l (pos - 1) (62 :: text ++ rest) = pre ts' (toks l' (pos + Z.of_nat (length text)) rest)).
Proof.
  induction 1 as [pos g rest Hg|pos g t sp k ts text rest Hg Hsp Hf HL IH]; intros Hr.
  - assert (A : forall l, mode_ l = MMain -> exists ts' l', Forall2 tok_eq ts' [] /\ mode_ l' = MMain /\
      toks l pos (g ++ rest) = pre ts' (toks l' (pos + Z.of_nat (length g)) rest)).
    { intros l Hm. destruct (sep_lemma g Hg l pos rest Hm) as (l' & Hl' & E).
      exists [], l'. splits; [constructor|assumption|]. rewrite E, pre_nil. reflexivity. }
    intros l Hm. split; [apply A; assumption|].
    destruct (pending_skip l (pos - 1) (g ++ rest) Hm) as (l' & Hl' & E).
    { intros r Er. pose proof (sep_head _ _ _ Hg Er) as ->. apply (Hr r Er). }
    destruct (A l' Hl') as (ts' & l2 & A1 & A2 & A3). exists ts', l2. splits; [assumption|assumption|].
    rewrite E. replace (pos - 1 + 1) with pos by lia. exact A3.
  - specialize (IH Hr).
    assert (A : forall l, mode_ l = MMain -> exists ts' l', Forall2 tok_eq ts' ((pos + Z.of_nat (length g), t) :: ts) /\ mode_ l' = MMain /\
      toks l pos ((g ++ sp ++ text) ++ rest) = pre ts' (toks l' (pos + Z.of_nat (length (g ++ sp ++ text))) rest)).
    { intros l Hm. rewrite <- !app_assoc.
      destruct (sep_lemma g Hg l pos (sp ++ text ++ rest) Hm) as (l1 & Hl1 & ->).
      destruct (spell_lemma _ _ _ Hsp e l1 (pos + Z.of_nat (length g)) (text ++ rest) Hf Hl1) as (l2 & Hl2 & ->).
      destruct (IH l2 Hl2) as [(ts1 & l3 & B1 & B2 & B3) (ts2 & l4 & C1 & C2 & C3)].
      assert (Hlen : pos + Z.of_nat (length g) + Z.of_nat (length sp) + Z.of_nat (length text) =
                     pos + Z.of_nat (length (g ++ sp ++ text))) by (rewrite !app_length; lia).
      rewrite Hlen in B3, C3.
      destruct k.
      - exists ((pos + Z.of_nat (length g), t) :: ts1), l3. splits; [constructor; [split; [reflexivity|left; reflexivity]|assumption]|assumption|].
        rewrite B3. reflexivity.
      - exists ((pos + Z.of_nat (length g), t) :: ts2), l4. splits; [constructor; [split; [reflexivity|left; reflexivity]|assumption]|assumption|].
        rewrite C3. reflexivity.
      - exists ((pos + Z.of_nat (length g), t) :: ts1), l3. splits; [constructor; [split; [reflexivity|left; reflexivity]|assumption]|assumption|].
        rewrite B3. reflexivity. }
    intros l Hm. split; [apply A; assumption|].
    destruct (head_dec ((g ++ sp ++ text) ++ rest)) as [[r Er]|Hn].
    + rewrite <- app_assoc in Er. pose proof (sep_head _ _ _ Hg Er) as ->. cbn [app length] in *. change (Z.of_nat 0) with 0 in *.
      rewrite <- app_assoc in Er. destruct (spell_head _ _ _ _ _ Hsp Er) as (-> & -> & ->). cbn [app].
      destruct (close_lemma l (pos - 1) (62 :: text ++ rest) Hm) as (l' & Hl' & E). rewrite E.
      destruct (IH l' Hl') as [_ (ts2 & l4 & C1 & C2 & C3)]. cbn [length] in *.
      exists ((pos - 1, TKwd [62; 62]) :: ts2), l4.
      splits; [constructor; [split; [reflexivity|right; reflexivity]|assumption]|assumption|].
      replace (pos - 1 + 2) with (pos + 0 + Z.of_nat 2 - 1) by lia. rewrite C3.
      replace (pos + 0 + Z.of_nat 2 + Z.of_nat (length text)) with (pos + Z.of_nat (S (S (length text)))) by lia. reflexivity.
    + destruct (pending_skip l (pos - 1) _ Hm Hn) as (l' & Hl' & E).
      destruct (A l' Hl') as (ts' & l2 & A1 & A2 & A3). exists ts', l2. splits; [assumption|assumption|].
      rewrite E. replace (pos - 1 + 1) with pos by lia. exact A3.
Qed.

(* ---- objects from tokens ---- *)
Section feed.
  Context {P : Type} (nt : P -> res (Z * token) * P) (good : P -> Prop) (tokP : P -> list (Z * token) * exn).
  Hypothesis Hnt : forall p t ts e, good p -> tokP p = (t :: ts, e) -> exists p', nt p = (Ok t, p') /\ tokP p' = (ts, e) /\ good p'.
  Context (kw : P -> stk -> Z -> list Z -> res (P * stk)) (flush : stk -> stk) (nulls refs : bool).
  Hypothesis Hnull : nulls = true -> forall p s pos, kw p s pos (bs "null") = Ok (p, push s (pos, ONull)).
  Hypothesis HR : refs = true -> forall p s pos, kw p s pos (bs "R") = do s1 <- do_ref s pos; Ok (p, s1).

  Definition quiet (s : stk) : Prop := results s = [] /\ (context s <> [] \/ forall s, flush s = s).
  Lemma quiet_push s x : quiet s -> quiet (push s x).
  Proof. intros [H1 H2]. split; [exact H1|exact H2]. Qed.
  Lemma quiet_start s pos k : quiet s -> quiet (start_type s pos k).
  Proof. intros [H1 H2]. split; [exact H1|]. left. discriminate. Qed.
  Lemma quiet_flush s : quiet s -> (match context s with [] => flush s | _ => s end) = s.
  Proof. intros [_ [H|H]]; destruct (context s); try congruence; apply H. Qed.

  (* running the parser over tokens that only push *)
  Definition runs (p : P) (s : stk) (ts : list (Z * token)) (s' : stk) : Prop :=
    forall ts2 e, good p -> tokP p = (ts ++ ts2, e) ->
    exists n p', good p' /\ tokP p' = (ts2, e) /\
      forall f, nextobject nt kw flush (n + f) p s = nextobject nt kw flush f p' s'.

  Lemma runs_nil p s : runs p s [] s.
  Proof. intros ts2 e H1 H2. exists O, p. splits; [assumption|assumption|]. intros f. reflexivity. Qed.

  Lemma runs_trans p s ts1 s1 ts2 s2 : runs p s ts1 s1 -> (forall p', runs p' s1 ts2 s2) -> runs p s (ts1 ++ ts2) s2.
  Proof.
    intros H1 H2 ts3 e Hne Ht. rewrite <- app_assoc in Ht.
    destruct (H1 _ _ Hne Ht) as (n1 & p1 & N1 & T1 & E1). destruct (H2 p1 _ _ N1 T1) as (n2 & p2 & N2 & T2 & E2).
    exists (n1 + n2)%nat, p2. splits; [assumption|assumption|]. intros f. rewrite <- Nat.add_assoc, E1, E2. reflexivity.
  Qed.

  Lemma runs_one p s pos t s' : results s = [] -> (forall p, step kw p s pos t = Ok (p, s')) ->
    (match context s' with [] => flush s' | _ => s' end) = s' -> runs p s [(pos, t)] s'.
  Proof.
    intros Hr Hs Hf ts2 e Hne Ht. cbn [app] in Ht.
    destruct (Hnt _ _ _ _ Hne Ht) as (p' & Hn & Ht' & Hne').
    exists 1%nat, p'. splits; [assumption|assumption|]. intros f. cbn [Nat.add nextobject]. rewrite Hr, Hn, Hs. cbn [bind].
    rewrite Hf. reflexivity.
  Qed.

  Lemma pop_two s a b : pop (push (push s a) b) 2 = ([a; b], s).
  Proof.
    unfold pop, push. cbn [curstack context curtype results]. rewrite !app_length. cbn [length].
    replace (length (curstack s) + 1 + 1 - 2)%nat with (length (curstack s)) by lia.
    rewrite <- app_assoc. cbn [app]. rewrite skipn_app, firstn_app, skipn_all, firstn_all, Nat.sub_diag.
    cbn [skipn firstn app]. rewrite app_nil_r. destruct s; reflexivity.
  Qed.

  Definition push_all (s : stk) (l : list pobj) : stk := mkStk (context s) (curtype s) (curstack s ++ l) (results s).
  Lemma push_push s l x : push (push_all s l) x = push_all s (l ++ [x]).
  Proof. unfold push, push_all. cbn. rewrite app_assoc. reflexivity. Qed.
  Lemma push_all_app s a b : push_all (push_all s a) b = push_all s (a ++ b).
  Proof. unfold push_all. cbn. rewrite app_assoc. reflexivity. Qed.
  Lemma push_all_nil s : push_all s [] = s.
  Proof. unfold push_all. rewrite app_nil_r. destruct s; reflexivity. Qed.

  Lemma end_start s pos k l : end_type (push_all (start_type s pos k) l) k =
    Some (pos, map snd l, s).
  Proof. unfold end_type. destruct k; cbn; destruct s; reflexivity. Qed.

  (* dictionaries from distinct keys *)
  Fixpoint flatten_kv (kvs : list (list Z * obj)) : list obj :=
    match kvs with [] => [] | (k, v) :: r => OName k :: v :: flatten_kv r end.

  Lemma dict_set_new acc k v : (forall k' v', In (k', v') acc -> key_eqb k' k = false) -> dict_set acc k v = acc ++ [(k, v)].
  Proof.
    induction acc as [|[k0 v0] acc IH]; intros H; [reflexivity|]. cbn [dict_set].
    rewrite (H k0 v0 (or_introl eq_refl)). cbn [app]. f_equal. apply IH. intros k' v' Hin. apply (H k' v'). right; assumption.
  Qed.

  Lemma build_dict_lemma kvs : forall acc, NoDup (map fst kvs) ->
    (forall k, In k (map fst kvs) -> forall k' v', In (k', v') acc -> key_eqb k' (OName k) = false) ->
    build_dict true acc (flatten_kv kvs) = Ok (acc ++ entries kvs).
  Proof.
    induction kvs as [|[k v] kvs IH]; intros acc Hd Hf; cbn [flatten_kv build_dict entries flat_map].
    - rewrite app_nil_r. reflexivity.
    - cbn [map fst] in Hd. inversion_clear Hd as [|? ? Hk Hd'].
      assert (Hset : forall v, dict_set acc (OName k) v = acc ++ [(OName k, v)]).
      { intros v0. apply dict_set_new. apply (Hf k). left. reflexivity. }
      assert (Hrec : build_dict true (acc ++ [(OName k, v)]) (flatten_kv kvs) = Ok ((acc ++ [(OName k, v)]) ++ entries kvs)).
      { apply IH; [assumption|]. intros k1 Hk1 k' v' Hin. apply in_app_or in Hin as [Hin|[Hin|[]]].
        - apply (Hf k1 (or_intror Hk1) k' v' Hin).
        - injection Hin as <- <-. destruct (key_eqb (OName k) (OName k1)) eqn:E; [|reflexivity].
          apply key_eqb_name in E. subst. contradiction. }
      rewrite <- app_assoc in Hrec.
      destruct v; cbn [snd fst app hashable]; rewrite ?Hset; try exact Hrec.
      apply IH; [assumption|]. intros k1 Hk1. apply Hf. right. assumption.
  Qed.

  Lemma flatten_even kvs : Nat.even (length (flatten_kv kvs)) = true.
  Proof. induction kvs as [|[k v] kvs IH]; [reflexivity|]. cbn [flatten_kv length]. exact IH. Qed.

  Lemma written_runs :
    (forall o ts, Written nulls refs o ts -> forall s pts, quiet s -> map snd pts = ts ->
       exists pos, forall p, runs p s pts (push s (pos, o))) /\
    (forall os ts, WrittenL nulls refs os ts -> forall s pts, quiet s -> map snd pts = ts ->
       exists l, map snd l = os /\ forall p, runs p s pts (push_all s l)) /\
    (forall kvs ts, WrittenE nulls refs kvs ts -> forall s pts, quiet s -> map snd pts = ts ->
       exists l, map snd l = flatten_kv kvs /\ forall p, runs p s pts (push_all s l)).
  Proof.
    apply Written_ind3.
    - intros Hn s pts Hq Hp. destruct pts as [|[pos t] [|? ?]]; try discriminate Hp. injection Hp as ->.
      exists pos. intros p. apply runs_one; [apply Hq| |apply quiet_flush, quiet_push, Hq].
      intros p0. unfold step, KW. cbn. apply Hnull. assumption.
    - intros b s pts Hq Hp. destruct pts as [|[pos t] [|? ?]]; try discriminate Hp. injection Hp as ->.
      exists pos. intros p. apply runs_one; [apply Hq|reflexivity|apply quiet_flush, quiet_push, Hq].
    - intros b s pts Hq Hp. destruct pts as [|[pos t] [|? ?]]; try discriminate Hp. injection Hp as ->.
      exists pos. intros p. apply runs_one; [apply Hq|reflexivity|apply quiet_flush, quiet_push, Hq].
    - intros b s pts Hq Hp. destruct pts as [|[pos t] [|? ?]]; try discriminate Hp. injection Hp as ->.
      exists pos. intros p. apply runs_one; [apply Hq|reflexivity|apply quiet_flush, quiet_push, Hq].
    - intros b s pts Hq Hp. destruct pts as [|[pos t] [|? ?]]; try discriminate Hp. injection Hp as ->.
      exists pos. intros p. apply runs_one; [apply Hq|reflexivity|apply quiet_flush, quiet_push, Hq].
    - intros b s pts Hq Hp. destruct pts as [|[pos t] [|? ?]]; try discriminate Hp. injection Hp as ->.
      exists pos. intros p. apply runs_one; [apply Hq|reflexivity|apply quiet_flush, quiet_push, Hq].
    - intros i g Hrefs s pts Hq Hp. destruct pts as [|[p1 t1] [|[p2 t2] [|[p3 t3] [|? ?]]]]; try discriminate Hp.
      injection Hp as -> -> ->. exists p3. intros p.
      assert (Q1 : quiet (push s (p1, OInt i))) by (apply quiet_push, Hq).
      assert (Q2 : quiet (push (push s (p1, OInt i)) (p2, OInt g))) by (apply quiet_push, Q1).
      apply (runs_trans p s [(p1, TInt i)] (push s (p1, OInt i)) [(p2, TInt g); (p3, KW "R")]).
      { apply runs_one; [apply Hq|reflexivity|apply quiet_flush, Q1]. }
      intros p'. apply (runs_trans p' _ [(p2, TInt g)] (push (push s (p1, OInt i)) (p2, OInt g)) [(p3, KW "R")]).
      { apply runs_one; [apply Q1|reflexivity|apply quiet_flush, Q2]. }
      intros p''. apply runs_one; [apply Q2| |apply quiet_flush, quiet_push, Hq].
      intros p0. unfold step, KW. cbn. rewrite (HR Hrefs). unfold do_ref. rewrite pop_two. reflexivity.
    - intros os ts HL IH s pts Hq Hp. destruct pts as [|[p1 t1] pts]; [discriminate|]. cbn [map snd] in Hp.
      injection Hp as -> Hp. apply map_eq_app in Hp as (l1 & l2 & -> & Hl1 & Hl2).
      destruct l2 as [|[p2 t2] [|? ?]]; try discriminate Hl2. injection Hl2 as ->.
      pose proof (quiet_start s p1 KArr Hq) as Q1. exists p1. intros p.
      change ((p1, KW "[") :: l1 ++ [(p2, KW "]")]) with ([(p1, KW "[")] ++ (l1 ++ [(p2, KW "]")])).
      eapply (runs_trans p s [(p1, KW "[")] (start_type s p1 KArr)).
      { apply runs_one; [apply Hq|reflexivity|apply quiet_flush, Q1]. }
      intros p'. destruct (IH (start_type s p1 KArr) l1 Q1 Hl1) as (l' & Hl' & Hr).
      eapply (runs_trans p' _ l1 (push_all (start_type s p1 KArr) l')); [apply Hr|].
      intros p''. apply runs_one; [apply Q1| |apply quiet_flush, quiet_push, Hq].
      intros p0. unfold step, KW.
      change (list_eqb (bs "]") (bs "[")) with false. change (list_eqb (bs "]") (bs "]")) with true. cbn iota.
      rewrite end_start, Hl'. reflexivity.
    - intros kvs ts Hd HE IH s pts Hq Hp. destruct pts as [|[p1 t1] pts]; [discriminate|]. cbn [map snd] in Hp.
      injection Hp as -> Hp. apply map_eq_app in Hp as (l1 & l2 & -> & Hl1 & Hl2).
      destruct l2 as [|[p2 t2] [|? ?]]; try discriminate Hl2. injection Hl2 as ->.
      pose proof (quiet_start s p1 KDict Hq) as Q1. exists p1. intros p.
      change ((p1, KW "<<") :: l1 ++ [(p2, KW ">>")]) with ([(p1, KW "<<")] ++ (l1 ++ [(p2, KW ">>")])).
      eapply (runs_trans p s [(p1, KW "<<")] (start_type s p1 KDict)).
      { apply runs_one; [apply Hq|reflexivity|apply quiet_flush, Q1]. }
      intros p'. destruct (IH (start_type s p1 KDict) l1 Q1 Hl1) as (l' & Hl' & Hr).
      eapply (runs_trans p' _ l1 (push_all (start_type s p1 KDict) l')); [apply Hr|].
      intros p''. apply runs_one; [apply Q1| |apply quiet_flush, quiet_push, Hq].
      intros p0. unfold step, KW.
      change (list_eqb (bs ">>") (bs "[")) with false. change (list_eqb (bs ">>") (bs "]")) with false.
      change (list_eqb (bs ">>") (bs "<<")) with false. change (list_eqb (bs ">>") (bs ">>")) with true. cbn iota.
      rewrite end_start, Hl', flatten_even, build_dict_lemma; [reflexivity|assumption|]. intros k _ k' v' [].
    - intros s pts Hq Hp. destruct pts; [|discriminate]. exists []. split; [reflexivity|]. intros p. rewrite push_all_nil. apply runs_nil.
    - intros o os t ts H1 IH1 H2 IH2 s pts Hq Hp. apply map_eq_app in Hp as (l1 & l2 & -> & Hl1 & Hl2).
      destruct (IH1 s l1 Hq Hl1) as (pos & R1).
      pose proof (quiet_push s (pos, o) Hq) as Q1.
      destruct (IH2 (push s (pos, o)) l2 Q1 Hl2) as (l & Hl & R2).
      exists ((pos, o) :: l). split; [cbn; rewrite Hl; reflexivity|]. intros p.
      eapply runs_trans; [apply R1|]. intros p'.
      replace (push_all s ((pos, o) :: l)) with (push_all (push s (pos, o)) l); [apply R2|].
      unfold push_all, push. cbn. rewrite <- app_assoc. reflexivity.
    - intros s pts Hq Hp. destruct pts; [|discriminate]. exists []. split; [reflexivity|]. intros p. rewrite push_all_nil. apply runs_nil.
    - intros k o kvs t ts H1 IH1 H2 IH2 s pts Hq Hp.
      destruct pts as [|[p1 t1] pts]; [discriminate|]. cbn [map snd] in Hp. injection Hp as -> Hp.
      apply map_eq_app in Hp as (l1 & l2 & -> & Hl1 & Hl2).
      pose proof (quiet_push s (p1, OName k) Hq) as Q0.
      destruct (IH1 (push s (p1, OName k)) l1 Q0 Hl1) as (pos & R1).
      pose proof (quiet_push _ (pos, o) Q0) as Q1.
      destruct (IH2 _ l2 Q1 Hl2) as (l & Hl & R2).
      exists ((p1, OName k) :: (pos, o) :: l). split; [cbn; rewrite Hl; reflexivity|]. intros p.
      change ((p1, TLit k) :: l1 ++ l2) with ([(p1, TLit k)] ++ l1 ++ l2).
      eapply (runs_trans p s [(p1, TLit k)] (push s (p1, OName k))).
      { apply runs_one; [apply Hq|reflexivity|apply quiet_flush, Q0]. }
      intros p'. eapply runs_trans; [apply R1|]. intros p''.
      replace (push_all s ((p1, OName k) :: (pos, o) :: l)) with (push_all (push (push s (p1, OName k)) (pos, o)) l); [apply R2|].
      unfold push_all, push. cbn. rewrite <- !app_assoc. reflexivity.
  Qed.
End feed.

(* ---- positions of the file ---- *)
Lemma seek_tokens e k : (0 < bufsiz e)%nat ->
  nonempty (chunks (seek e k)) /\ tokens (seek e k) = toks lex0 k (skipn (Z.to_nat k) (file e)).
Proof.
  intros Hb. destruct (read_chunks_spec (bufsiz e) (skipn (Z.to_nat k) (file e)) Hb) as [E N].
  split; [exact N|]. rewrite tokens_toks by exact N. cbn [seek open_at lx Lex_Model.pos buf chunks app]. rewrite E. reflexivity.
Qed.
Lemma skipn_before {A} (a b : list A) k : k = length a -> skipn k (a ++ b) = b.
Proof. intros ->. rewrite skipn_app, skipn_all, Nat.sub_diag. reflexivity. Qed.
Lemma seek_at e before rest k : (0 < bufsiz e)%nat -> file e = before ++ rest -> k = Z.of_nat (length before) ->
  nonempty (chunks (seek e k)) /\ tokens (seek e k) = toks lex0 k rest.
Proof.
  intros Hb Hf ->. destruct (seek_tokens e (Z.of_nat (length before)) Hb) as [N T]. split; [exact N|].
  rewrite T, Hf, Nat2Z.id, skipn_before by reflexivity. reflexivity.
Qed.

Lemma tok_eq_snd a b : Forall2 tok_eq a b -> map snd a = map snd b.
Proof. induction 1 as [|x y a b [H _] H2 IH]; [reflexivity|]. cbn. rewrite H, IH. reflexivity. Qed.

Lemma pdf_null e p s pos : pdf_keyword e p s pos (bs "null") = Ok (p, push s (pos, ONull)).
Proof. reflexivity. Qed.
Lemma pdf_R e p s pos : pdf_keyword e p s pos (bs "R") = do s1 <- do_ref s pos; Ok (p, s1).
Proof. reflexivity. Qed.

(* an object at the head of the tokens of p is pushed *)
Lemma pdf_runs e o ts : Written true true o ts -> forall s pts, results s = [] -> map snd pts = ts ->
  exists pos, forall p, runs nexttoken (fun p => nonempty (chunks p)) tokens (pdf_keyword e) (fun s => s) p s pts (push s (pos, o)).
Proof.
  intros HW s pts Hr Hp.
  destruct (written_runs nexttoken (fun p => nonempty (chunks p)) tokens nexttoken_tokens (pdf_keyword e) (fun s => s) true true (fun _ => pdf_null e) (fun _ => pdf_R e)) as (H & _ & _).
  apply (H o ts HW s pts); [split; [assumption|right; reflexivity]|assumption].
Qed.

Lemma step_endobj e p s pos : step (pdf_keyword e) p s pos (KW "endobj") =
  (let (l, s1) := pop s 4 in Ok (p, add_results s1 l)).
Proof. reflexivity. Qed.
Lemma step_open {P} (kw : P -> stk -> Z -> list Z -> res (P * stk)) p s pos :
  step kw p s pos (KW "[") = Ok (p, start_type s pos KArr).
Proof. reflexivity. Qed.
Lemma step_close {P} (kw : P -> stk -> Z -> list Z -> res (P * stk)) p s pos :
  step kw p s pos (KW "]") =
  Ok (p, match end_type s KArr with Some (pos0, objs, s') => push s' (pos0, OArr objs) | None => s end).
Proof. reflexivity. Qed.
Lemma step_dopen {P} (kw : P -> stk -> Z -> list Z -> res (P * stk)) p s pos :
  step kw p s pos (KW "<<") = Ok (p, start_type s pos KDict).
Proof. reflexivity. Qed.
Lemma step_dclose {P} (kw : P -> stk -> Z -> list Z -> res (P * stk)) p s pos :
  step kw p s pos (KW ">>") =
          match end_type s KDict with
          | Some (pos0, objs, s') =>
              if Nat.even (length objs)
              then do d <- build_dict true [] objs; Ok (p, push s' (pos0, ODict d))
              else Err PSSyntaxError
          | None => Ok (p, s)
          end.
Proof. reflexivity. Qed.

Lemma nextobject_eq {P} nt kw flush f (p : P) s : nextobject nt kw flush f p s =
  match results s with
  | r :: rs => Ok (r, p, mkStk (context s) (curtype s) (curstack s) rs)
  | [] =>
      match f with
      | O => Err OutOfFuel
      | S f =>
          match nt p with
          | (Err ex, _) => Err ex
          | (Ok (pos, t), p') =>
              do (p'', s') <- step kw p' s pos t;
              nextobject nt kw flush f p'' (match context s' with [] => flush s' | _ => s' end)
          end
      end
  end.
Proof. destruct f; reflexivity. Qed.

Lemma pdf_object_lemma e before text rest o ts x :
  (0 < bufsiz e)%nat -> file e = before ++ text ++ rest -> (forall r, rest <> 62 :: r) ->
  Written true true o (map snd ts) -> forall q,
  LayoutP x (Z.of_nat (length before)) (ts ++ [(q, KW "endobj")]) text rest ->
  exists n pos l, forall f, exists p, pdf_nextobject e (n + f) (seek e (Z.of_nat (length before))) stk0 = Ok ((pos, o), p, stk0) /\
     nonempty (chunks p) /\ mode_ l = MMain /\ tokens p = toks l (Z.of_nat (length (before ++ text))) rest.
Proof.
  intros Hb Hf Hr HW q HL.
  destruct (seek_at e before (text ++ rest) _ Hb Hf eq_refl) as [N T].
  destruct (layoutP_lemma _ _ _ _ _ HL Hr lex0 eq_refl) as [(ts' & l' & E1 & E2 & E3) _].
  rewrite E3 in T. apply Forall2_app_inv_r in E1 as (t1 & t2 & F1 & F2 & ->).
  inversion F2 as [|[q' k] ? ? ? [Hk _] F3]; subst. inversion F3; subst. cbn [snd] in Hk. subst k.
  unfold pre in T. rewrite <- app_assoc in T.
  destruct (pdf_runs e o _ HW stk0 t1 eq_refl (tok_eq_snd _ _ F1)) as (pos & HR).
  destruct (HR _ _ _ N T) as (n & p' & N' & T' & E'). cbn [app] in T'.
  destruct (nexttoken_tokens _ _ _ _ N' T') as (p2 & Hn2 & T2 & N2).
  exists (n + 1)%nat, pos, l'. intros f. exists p2. splits; [|assumption|assumption|].
  - unfold pdf_nextobject. rewrite <- Nat.add_assoc, E'. cbn [Nat.add nextobject]. rewrite Hn2, step_endobj. cbn.
    rewrite nextobject_eq. reflexivity.
  - rewrite T2, app_length, Nat2Z.inj_add. symmetry. apply surjective_pairing.
Qed.

(* ---- PDFStreamParser ---- *)
Lemma strm_R (p : parser) s pos : stream_keyword p s pos (bs "R") = do s1 <- do_ref s pos; Ok (p, s1).
Proof. reflexivity. Qed.

Lemma strm_one o ts : Written false true o ts -> (forall i, o <> ORef i) -> forall pts p ts2 e,
  map snd pts = ts -> nonempty (chunks p) -> tokens p = (pts ++ ts2, e) ->
  exists pos n p', nonempty (chunks p') /\ tokens p' = (ts2, e) /\
    forall f, strm_nextobject (n + f) p stk0 = Ok ((pos, o), p', stk0).
Proof.
  intros HW Ho pts p ts2 e Hp N T.
  destruct (written_runs nexttoken (fun p => nonempty (chunks p)) tokens nexttoken_tokens (@stream_keyword parser) flush_all false true ltac:(discriminate) (fun _ => strm_R)) as (_ & HL & HE).
  assert (Hatom : forall t, (forall k, t <> TKwd k) -> ts = [t] -> o = tok_obj t ->
     exists pos n p', nonempty (chunks p') /\ tokens p' = (ts2, e) /\
       forall f, strm_nextobject (n + f) p stk0 = Ok ((pos, o), p', stk0)).
  { intros t Ht -> ->. destruct pts as [|[q t'] [|? ?]]; try discriminate Hp. injection Hp as ->.
    destruct (nexttoken_tokens _ _ _ _ N T) as (p' & Hn & T' & N').
    exists q, 1%nat, p'. splits; [assumption|assumption|]. intros f. unfold strm_nextobject. cbn [Nat.add nextobject stk0 results].
    rewrite Hn. unfold step. destruct t; try (exfalso; eapply Ht; reflexivity); cbn; rewrite nextobject_eq; reflexivity. }
  inversion HW; subst; try discriminate;
    try (match goal with H : [?t] = _ |- _ => apply (Hatom t); [discriminate|congruence|reflexivity] end).
  - exfalso. eapply Ho; reflexivity.
  - destruct pts as [|[p1 t1] pts]; [discriminate|]. cbn [map snd] in *. 
    match goal with H : _ :: _ = _ :: map snd pts |- _ => symmetry in H; injection H as -> Hp' end.
    apply map_eq_app in Hp' as (l1 & l2 & -> & Hl1 & Hl2).
    destruct l2 as [|[p2 t2] [|? ?]]; try discriminate Hl2. injection Hl2 as ->.
    cbn [app] in T. destruct (nexttoken_tokens _ _ _ _ N T) as (p' & Hn & T' & N').
    assert (Q : quiet flush_all (start_type stk0 p1 KArr)) by (split; [reflexivity|left; discriminate]).
    destruct (HL _ _ H _ l1 Q Hl1) as (l & Hl & R). rewrite <- app_assoc in T'.
    destruct (R p' _ _ N' T') as (n & p3 & N3 & T3 & E3). cbn [app] in T3.
    destruct (nexttoken_tokens _ _ _ _ N3 T3) as (p4 & Hn4 & T4 & N4).
    exists p1, (S (n + 1))%nat, p4. splits; [assumption|assumption|]. intros f.
    unfold strm_nextobject. cbn [Nat.add]. rewrite nextobject_eq. cbn [stk0 results]. rewrite Hn, step_open. cbn [bind].
    rewrite (quiet_flush flush_all _ Q), <- Nat.add_assoc, E3, nextobject_eq.
    change (results (push_all (start_type stk0 p1 KArr) l)) with (@nil pobj). cbn [Nat.add]. rewrite Hn4, step_close, end_start. cbn [bind].
    rewrite nextobject_eq. cbn. rewrite Hl. reflexivity.
  - destruct pts as [|[p1 t1] pts]; [discriminate|]. cbn [map snd] in *. 
    match goal with H : _ :: _ = _ :: map snd pts |- _ => symmetry in H; injection H as -> Hp' end.
    apply map_eq_app in Hp' as (l1 & l2 & -> & Hl1 & Hl2).
    destruct l2 as [|[p2 t2] [|? ?]]; try discriminate Hl2. injection Hl2 as ->.
    cbn [app] in T. destruct (nexttoken_tokens _ _ _ _ N T) as (p' & Hn & T' & N').
    assert (Q : quiet flush_all (start_type stk0 p1 KDict)) by (split; [reflexivity|left; discriminate]).
    destruct (HE _ _ H0 _ l1 Q Hl1) as (l & Hl & R). rewrite <- app_assoc in T'.
    destruct (R p' _ _ N' T') as (n & p3 & N3 & T3 & E3). cbn [app] in T3.
    destruct (nexttoken_tokens _ _ _ _ N3 T3) as (p4 & Hn4 & T4 & N4).
    exists p1, (S (n + 1))%nat, p4. splits; [assumption|assumption|]. intros f.
    unfold strm_nextobject. cbn [Nat.add]. rewrite nextobject_eq. cbn [stk0 results]. rewrite Hn, step_dopen. cbn [bind].
    rewrite (quiet_flush flush_all _ Q), <- Nat.add_assoc, E3, nextobject_eq.
    change (results (push_all (start_type stk0 p1 KDict) l)) with (@nil pobj). cbn [Nat.add]. rewrite Hn4, step_dclose, end_start. cbn [bind].
    rewrite Hl, flatten_even, build_dict_lemma; [|assumption|intros k _ k' v' []]. cbn [bind]. rewrite nextobject_eq. reflexivity.
Qed.

Lemma strm_strays a : Forall stray a -> forall pts p ts2 e, map snd pts = a -> nonempty (chunks p) -> tokens p = (pts ++ ts2, e) ->
  exists p', nonempty (chunks p') /\ tokens p' = (ts2, e) /\
    forall f, strm_nextobject (length a + f) p stk0 = strm_nextobject f p' stk0.
Proof.
  induction 1 as [|t a Ht Ha IH]; intros pts p ts2 e Hp N T.
  - destruct pts; [|discriminate]. exists p. splits; [assumption|exact T|reflexivity].
  - destruct pts as [|[q t'] pts]; [discriminate|]. cbn [map snd] in Hp. injection Hp as -> Hp. cbn [app] in T.
    destruct (nexttoken_tokens _ _ _ _ N T) as (p1 & Hn & T1 & N1).
    destruct (IH _ _ _ _ Hp N1 T1) as (p' & N' & T' & E'). exists p'. splits; [assumption|assumption|].
    intros f. rewrite <- (E' f). cbn [length Nat.add]. unfold strm_nextobject at 1. rewrite nextobject_eq. cbn [stk0 results]. rewrite Hn.
    unfold strm_nextobject. destruct Ht as [ -> | -> ]; reflexivity.
Qed.

Lemma strm_all os : forall ts pts p e, WrittenM os ts -> Forall (fun o => forall i, o <> ORef i) os ->
  map snd pts = ts -> nonempty (chunks p) -> tokens p = (pts, e) ->
  exists n l, map snd l = os /\ forall f, all_objects nexttoken stream_keyword flush_all (n + f) p stk0 = (l, e).
Proof.
  induction os as [|o os IH]; intros ts pts p e HW Ho Hp N T; inversion HW; subst.
  - rewrite <- (app_nil_r pts) in T. destruct (strm_strays _ H pts p [] e eq_refl N T) as (p1 & N1 & T1 & E1).
    exists (S (S (length (map snd pts)))), []. split; [reflexivity|]. intros f. cbn [Nat.add all_objects].
    fold (strm_nextobject (S (length (map snd pts) + f)) p stk0).
    replace (S (length (map snd pts) + f)) with (length (map snd pts) + S f)%nat by lia. rewrite E1.
    assert (Hn : fst (nexttoken p1) = Err e).
    { unfold tokens in T1. remember (lex_fuel _) as k eqn:Ek. destruct k as [|k]; [unfold lex_fuel in Ek; lia|]. cbn [tokens_loop] in T1.
      destruct (nexttoken p1) as [[t|ex] p']; [destruct (tokens_loop k p'); discriminate|]. cbn. congruence. }
    unfold strm_nextobject. rewrite nextobject_eq. cbn [stk0 results].
    destruct (nexttoken p1) as [r p']. cbn in Hn. subst r. reflexivity.
  - match goal with H : _ ++ _ ++ _ = map snd pts |- _ => symmetry in H; apply map_eq_app in H as (l0 & l3 & -> & Hl0 & Hl3);
      apply map_eq_app in Hl3 as (l1 & l2 & -> & Hl1 & Hl2) end.
    inversion_clear Ho as [|? ? Ho1 Ho2].
    match goal with H : Forall stray a |- _ => destruct (strm_strays _ H _ _ _ _ Hl0 N T) as (p0 & N0 & T0 & E0) end.
    match goal with H : Written false true o _ |- _ => destruct (strm_one _ _ H Ho1 l1 p0 l2 e Hl1 N0 T0) as (pos & n1 & p' & N' & T' & E') end.
    destruct (IH _ l2 p' e ltac:(eassumption) Ho2 Hl2 N' T') as (n2 & l & Hl & E2).
    exists (S (length a + (n1 + n2)))%nat, ((pos, o) :: l). split; [cbn; congruence|]. intros f. cbn [Nat.add all_objects].
    rewrite <- !Nat.add_assoc. fold (strm_nextobject (length a + (n1 + (n2 + f))) p stk0). rewrite E0, E'.
    replace (length a + (n1 + (n2 + f)))%nat with (n2 + (length a + n1 + f))%nat by lia. rewrite E2. reflexivity.
Qed.
Lemma written_m os ts : WrittenL false true os ts -> WrittenM os ts.
Proof.
  revert ts. induction os as [|o os IH]; intros ts H; inversion H; subst; [constructor; constructor|].
  apply (WM_cons o os []); [constructor|assumption|apply IH; assumption].
Qed.
