(* C81 named destinations and name trees, C82 the outline, C83 text strings. *)
From Coq Require Import String.
From Verif Require Import Base Obj Stream_Model Stream_Spec Stream_Props Page_Model CMap_Model CMap_Spec CMap_Proofs Names_Model Names_Spec.
From Coq Require Import ZifyBool ZifyNat.
Open Scope Z_scope.

(* ---------- C83 ---------- *)
Lemma doc_char c u : DocChar c u -> nth (Z.to_nat c) pdfdoc_table 0 = u.
Proof.
  assert (Hr : forall f lo n, forallb f (zrange lo n) = true -> forall c, lo <= c < lo + Z.of_nat n -> f c = true).
  { intros f lo n H c' Hc. rewrite forallb_forall in H. apply H. unfold zrange. apply in_map_iff. exists (Z.to_nat (c' - lo)). split; [lia|apply in_seq; lia]. }
  intros H. destruct H as [c H|c H|c H H'|c u H].
  - cbn in H. destruct H as [<-|[<-|[<-|[]]]]; reflexivity.
  - pose proof (Hr (fun c => nth (Z.to_nat c) pdfdoc_table 0 =? c) 32 95%nat eq_refl c ltac:(lia)). cbv beta in H0. lia.
  - pose proof (Hr (fun c => (nth (Z.to_nat c) pdfdoc_table 0 =? c) || (c =? 173)) 161 95%nat eq_refl c ltac:(lia)). cbv beta in H0. lia.
  - assert (E : forallb (fun cu => nth (Z.to_nat (fst cu)) pdfdoc_table 0 =? snd cu)
      [(24, 0x2D8); (25, 0x2C7); (26, 0x2C6); (27, 0x2D9); (28, 0x2DD); (29, 0x2DB); (30, 0x2DA); (31, 0x2DC);
     (128, 0x2022); (129, 0x2020); (130, 0x2021); (131, 0x2026); (132, 0x2014); (133, 0x2013); (134, 0x192); (135, 0x2044);
     (136, 0x2039); (137, 0x203A); (138, 0x2212); (139, 0x2030); (140, 0x201E); (141, 0x201C); (142, 0x201D); (143, 0x2018);
     (144, 0x2019); (145, 0x201A); (146, 0x2122); (147, 0xFB01); (148, 0xFB02); (149, 0x141); (150, 0x152); (151, 0x160);
     (152, 0x178); (153, 0x17D); (154, 0x131); (155, 0x142); (156, 0x153); (157, 0x161); (158, 0x17E); (160, 0x20AC)] = true) by reflexivity.
    rewrite forallb_forall in E. specialize (E _ H). cbn [fst snd] in E. lia.
Qed.
(* every text string is decoded to the text it stands for *)
Theorem C83_text s t : TextString s t -> decode_text s = t.
Proof.
  intros [t' H|s' t' H Hn]; [cbn [decode_text]; apply utf16_text; assumption|].
  assert (E : map (fun c => nth (Z.to_nat c) pdfdoc_table 0) s' = t').
  { clear Hn. induction H as [|c u s1 t1 Hc H IH]; [reflexivity|]. cbn [map]. rewrite IH, (doc_char _ _ Hc). reflexivity. }
  unfold decode_text. destruct s' as [|a [|b r]]; try exact E.
  - destruct (Z.eq_dec a 254) as [->|Ha]; [exact E|]. destruct a as [|p|p]; try exact E. repeat (destruct p as [p|p|]; try exact E); congruence.
  - destruct (Z.eq_dec a 254) as [->|Ha].
    + destruct (Z.eq_dec b 255) as [->|Hb]; [destruct (Hn r); reflexivity|].
      destruct b as [|p|p]; try exact E. repeat (destruct p as [p|p|]; try exact E); congruence.
    + destruct a as [|p|p]; try exact E. repeat (destruct p as [p|p|]; try exact E); congruence.
Qed.
Theorem C83_every_text t : Forall scalar t -> exists s, TextString s t /\ decode_text s = t.
Proof. intros H. exists (254 :: 255 :: utf16_of t). split; [|apply C83_text]; apply TS_utf16, H. Qed.
Example C83_case : decode_text [254; 255; 0; 65; 216; 61; 222; 0] = [65; 128512] /\ TextString [65; 160; 132] [65; 0x20AC; 0x2014] /\ decode_text [65; 160; 132] = [65; 0x20AC; 0x2014].
Proof.
  split; [reflexivity|]. split; [|reflexivity]. apply TS_doc; [|discriminate].
  constructor; [apply DC_ascii; lia|]. constructor; [apply DC_other; cbn; tauto|]. constructor; [apply DC_other; cbn; tauto|]. constructor.
Qed.

(* ---------- order ---------- *)
Lemma ltb_before a : forall b, bytes_ltb a b = true <-> Before a b.
Proof.
  induction a as [|x a IH]; intros [|y b]; cbn [bytes_ltb].
  - split; intros H; [discriminate|inversion H].
  - split; intros H; [constructor|reflexivity].
  - split; intros H; [discriminate|inversion H].
  - split; intros H.
    + apply orb_prop in H as [H|H]; [apply B_less; lia|]. apply andb_prop in H as [H1 H2]. apply Z.eqb_eq in H1. subst y. apply B_eq, IH, H2.
    + inversion H as [|? ? ? ? Hl|? ? ? Hl]; subst; [apply orb_true_iff; left; lia|]. rewrite Z.eqb_refl. cbn [andb]. apply orb_true_iff. right. apply IH. assumption.
Qed.
Lemma before_irrefl a : ~ Before a a.
Proof. induction a as [|x a IH]; intros H; inversion H; subst; [lia|auto]. Qed.
Lemma before_trans a b c : Before a b -> Before b c -> Before a c.
Proof.
  intros H. revert c. induction H as [y b|x y a b Hxy|x a b H IH]; intros c H2; inversion H2; subst.
  - constructor.
  - constructor.
  - apply B_less. lia.
  - apply B_less. lia.
  - apply B_less. lia.
  - apply B_eq. apply IH. assumption.
Qed.
Lemma sorted_pairs l : Sorted l -> ForallOrdPairs Before l.
Proof.
  intros H. induction H as [|k|k k' l Hk H IH]; [constructor|repeat constructor|]. constructor; [|exact IH].
  inversion_clear IH as [|? ? HF HP]. constructor; [exact Hk|]. eapply Forall_impl; [|exact HF]. intros x Hx. eapply before_trans; eassumption.
Qed.
Lemma fop_app {A} (R : A -> A -> Prop) l r : ForallOrdPairs R (l ++ r) -> ForallOrdPairs R l /\ ForallOrdPairs R r /\ forall x y, In x l -> In y r -> R x y.
Proof.
  induction l as [|a l IH]; cbn [app]; intros H; [split; [constructor|split; [exact H|intros x y []]]|].
  inversion_clear H as [|? ? HF HP]. destruct (IH HP) as (A1 & A2 & A3). apply Forall_app in HF as [F1 F2].
  split; [constructor; assumption|]. split; [exact A2|]. intros x y [<-|Hx] Hy; [|apply A3; assumption]. rewrite Forall_forall in F2. apply F2, Hy.
Qed.
Lemma fop_first l k x : ForallOrdPairs Before l -> hd_error l = Some k -> In x l -> x = k \/ Before k x.
Proof. intros H Hh Hx. destruct H as [|a l HF HP]; [contradiction|]. cbn in Hh. injection Hh as ->. destruct Hx as [->|Hx]; [left; reflexivity|right]. rewrite Forall_forall in HF. apply HF, Hx. Qed.
Lemma fop_last l k x : ForallOrdPairs Before l -> hd_error (rev l) = Some k -> In x l -> x = k \/ Before x k.
Proof.
  intros H Hh Hx. destruct (rev l) as [|a r] eqn:E; [discriminate|]. cbn in Hh. injection Hh as ->.
  assert (El : l = rev r ++ [k]) by (rewrite <- (rev_involutive l), E; reflexivity). subst l.
  apply fop_app in H as (_ & _ & H). apply in_app_or in Hx as [Hx|[->|[]]]; [right; apply H; [assumption|left; reflexivity]|left; reflexivity].
Qed.
Lemma fop_nodup l : ForallOrdPairs Before l -> NoDup l.
Proof. intros H. induction H as [|a l HF HP IH]; constructor; [|exact IH]. intros Hi. rewrite Forall_forall in HF. exact (before_irrefl _ (HF _ Hi)). Qed.

(* ---------- the entry with a key ---------- *)
Fixpoint assoc (es : list entry) (k : list Z) : option obj :=
  match es with [] => None | (k', v) :: r => if list_eqb k' k then Some v else assoc r k end.
Lemma assoc_in es k v : assoc es k = Some v -> In (k, v) es.
Proof. induction es as [|[k' w] es IH]; cbn [assoc]; intros H; [discriminate|]. destruct (list_eqb k' k) eqn:E; [apply list_eqb_eq in E; subst; left; congruence|right; apply IH, H]. Qed.
Lemma assoc_none es k : ~ In k (keys es) -> assoc es k = None.
Proof. intros H. destruct (assoc es k) as [v|] eqn:E; [|reflexivity]. destruct H. apply assoc_in in E. apply (in_map fst) in E. exact E. Qed.
Lemma in_assoc es k v : NoDup (keys es) -> In (k, v) es -> assoc es k = Some v.
Proof.
  induction es as [|[k' w] es IH]; cbn [keys map fst assoc]; intros HN HI; [contradiction|]. destruct HI as [H|H].
  - injection H as -> ->. rewrite list_eqb_refl. reflexivity.
  - inversion_clear HN as [|? ? H1 H2]. destruct (list_eqb k' k) eqn:E; [|apply IH; assumption].
    apply list_eqb_eq in E. subst k'. destruct H1. apply (in_map fst) in H. exact H.
Qed.
Lemma assoc_app a b k : assoc (a ++ b) k = match assoc a k with Some v => Some v | None => assoc b k end.
Proof. induction a as [|[k' w] a IH]; [reflexivity|]. cbn [app assoc]. destruct (list_eqb k' k); [reflexivity|exact IH]. Qed.
Lemma key_eqb_str a b : key_eqb (OStr a) (OStr b) = list_eqb a b. Proof. reflexivity. Qed.
Lemma str_eq a b : key_eqb (OStr a) (OStr b) = true -> a = b. Proof. apply list_eqb_eq. Qed.
Lemma dict_of_get es : forall d, NoDup (keys es) -> exists m, dict_of (flat_map (fun e => [OStr (fst e); snd e]) es) d = Ok m /\
  forall k, dict_get m (OStr k) = match assoc es k with Some v => Some v | None => dict_get d (OStr k) end.
Proof.
  induction es as [|[k0 v0] es IH]; intros d HN; [exists d; split; reflexivity|]. cbn [flat_map app fst snd dict_of hashable].
  inversion_clear HN as [|? ? H1 H2]. destruct (IH (dict_set d (OStr k0) v0) H2) as (m & E & G). exists m. split; [exact E|].
  intros k. rewrite G. cbn [assoc]. destruct (list_eqb k0 k) eqn:Ek.
  - apply list_eqb_eq in Ek. subst k0. rewrite (assoc_none es k H1). rewrite dict_get_set_same; [reflexivity|]. cbn. apply list_eqb_refl.
  - destruct (assoc es k); [reflexivity|]. apply dict_get_set_other. cbn. exact Ek.
Qed.

Section doc.
  Context (getobj : Z -> option obj).
  Lemma leads_resolved o v : Leads getobj ONull o v -> exists n, forall depth, (n <= depth)%nat -> resolved getobj depth o = Ok v.
  Proof.
    intros H. apply C59_resolve1 in H as [n H]. exists n. intros depth Hd. unfold resolved.
    replace depth with (n + (depth - n))%nat by lia. rewrite H. reflexivity.
  Qed.
  Lemma leads_list o l : Leads getobj ONull o (OArr l) -> exists n, forall depth, (n <= depth)%nat -> list_value getobj depth o = Ok l.
  Proof. intros H. destruct (leads_resolved _ _ H) as (n & E). exists n. intros depth Hd. unfold list_value. rewrite E by assumption. reflexivity. Qed.
  Lemma leads_dict o d : Leads getobj ONull o (ODict d) -> exists n, forall depth, (n <= depth)%nat -> dict_value getobj depth o = Ok d.
  Proof. intros H. destruct (leads_resolved _ _ H) as (n & E). exists n. intros depth Hd. unfold dict_value. rewrite E by assumption. reflexivity. Qed.

  Definition outside (depth : nat) (key : obj) (d : dict) : res bool :=
    match dget d "Limits" with
    | None => Ok false
    | Some o => do l <- list_value getobj depth o;
        match l with
        | [k1; k2] => do a <- py_lt key k1; if a then Ok true else py_lt k2 key
        | _ => Err ValueError
        end
    end.
  (* what looking in a node gives, for a key within its limits *)
  Definition Found (es : list entry) (k : list Z) (r : res obj) : Prop :=
    match assoc es k with
    | Some v => if truthy v then r = Ok v else r = Ok v \/ r = Err KeyError
    | None => r = Err KeyError
    end.
  Definition FoundK (es : list entry) (k : list Z) (r : res obj) : Prop :=
    r = match assoc es k with Some v => if truthy v then Ok v else Err KeyError | None => Err KeyError end.

  Lemma content_lemmas :
    (forall d es, Content getobj d es -> Sorted (keys es) -> forall k, exists n, forall depth fuel, (n <= depth)%nat -> (n <= fuel)%nat ->
       outside depth (OStr k) d = Ok false -> Found es k (lookup_tree getobj depth fuel (OStr k) d)) /\
    (forall kids es, Nodes getobj kids es -> Sorted (keys es) -> forall k, exists n, forall depth fuel, (n <= depth)%nat -> (n <= fuel)%nat ->
       FoundK es k (try_kids (fun c => do dc <- dict_value getobj depth c; lookup_tree getobj depth fuel (OStr k) dc) kids)).
  Proof.
    apply (Content_Nodes getobj
      (fun d es _ => Sorted (keys es) -> forall k, exists n, forall depth fuel, (n <= depth)%nat -> (n <= fuel)%nat ->
         outside depth (OStr k) d = Ok false -> Found es k (lookup_tree getobj depth fuel (OStr k) d))
      (fun kids es _ => Sorted (keys es) -> forall k, exists n, forall depth fuel, (n <= depth)%nat -> (n <= fuel)%nat ->
         FoundK es k (try_kids (fun c => do dc <- dict_value getobj depth c; lookup_tree getobj depth fuel (OStr k) dc) kids))).
    - intros d es (o & Ho & HL) HS k. destruct (leads_list _ _ HL) as (n & E). exists (S n). intros depth fuel Hd Hf HO.
      destruct fuel as [|f]; [lia|]. cbn [lookup_tree]. fold (outside depth (OStr k) d). rewrite HO. cbn [bind]. rewrite Ho, E by lia. cbn [bind].
      destruct (dict_of_get es [] (fop_nodup _ (sorted_pairs _ HS))) as (m & Em & G). rewrite Em. cbn [bind]. rewrite G. unfold Found. cbn [dict_get].
      destruct (assoc es k) as [v|]; [destruct (truthy v); auto|reflexivity].
    - intros d kids es Hn (o & Ho & HL) HN IH HS k. destruct (IH HS k) as (n & HI). destruct (leads_list _ _ HL) as (m & E).
      exists (S (n + m)). intros depth fuel Hd Hf HO. destruct fuel as [|f]; [lia|]. cbn [lookup_tree]. fold (outside depth (OStr k) d). rewrite HO. cbn [bind].
      rewrite Hn, Ho, E by lia. cbn [bind]. specialize (HI depth f ltac:(lia) ltac:(lia)). unfold FoundK in HI. rewrite HI. unfold Found.
      destruct (assoc es k) as [v|]; [destruct (truthy v); auto|reflexivity].
    - intros HS k. exists O. intros. reflexivity.
    - intros o d k1 k2 es kids r HL (ol & Hol & HLl) H1 H2 HC IHC HN IHN HS k.
      unfold keys in HS. rewrite map_app in HS. fold (keys es) in HS. fold (keys r) in HS. pose proof (sorted_pairs _ HS) as HP. apply fop_app in HP as (P1 & P2 & P3).
      assert (S1 : Sorted (keys es) /\ Sorted (keys r)).
      { clear -HS. remember (keys es) as a. remember (keys r) as b. clear Heqa Heqb. induction a as [|x a IH]; [split; [constructor|exact HS]|].
        cbn [app] in HS. destruct a as [|y a]; cbn [app] in *.
        - split; [constructor|]. inversion HS; subst; [constructor|assumption].
        - inversion HS; subst. destruct (IH ltac:(assumption)). split; [constructor; assumption|assumption]. }
      destruct S1 as [S1 S2]. destruct (IHC S1 k) as (n1 & I1). destruct (IHN S2 k) as (n2 & I2). destruct (leads_dict _ _ HL) as (n3 & E3). destruct (leads_list _ _ HLl) as (n4 & E4).
      exists (S (n1 + n2 + n3 + n4)). intros depth fuel Hd Hf. cbn [try_kids]. rewrite E3 by lia. cbn [bind].
      specialize (I2 depth fuel ltac:(lia) ltac:(lia)). unfold FoundK in I2 |- *. rewrite assoc_app.
      assert (HO : outside depth (OStr k) d = Ok (bytes_ltb k k1 || bytes_ltb k2 k)).
      { unfold outside. rewrite Hol, E4 by lia. cbn [bind py_lt]. destruct (bytes_ltb k k1); reflexivity. }
      assert (Hk1 : In k1 (keys es)) by (destruct (keys es); [discriminate|cbn in H1; left; congruence]).
      assert (Hk2 : In k2 (keys es)) by (apply in_rev; destruct (rev (keys es)); [discriminate|cbn in H2; left; congruence]).
      destruct (bytes_ltb k k1 || bytes_ltb k2 k) eqn:Eo.
      + assert (Hnull : lookup_tree getobj depth fuel (OStr k) d = Ok ONull).
        { destruct fuel as [|f]; [lia|]. cbn [lookup_tree]. fold (outside depth (OStr k) d). rewrite HO. reflexivity. }
        rewrite Hnull. cbn [bind truthy]. rewrite I2.
        assert (Ha : assoc es k = None).
        { apply assoc_none. intros Hi. apply orb_prop in Eo as [Eo|Eo]; apply ltb_before in Eo.
          - destruct (fop_first _ _ _ P1 H1 Hi) as [->|Hb]; [exact (before_irrefl _ Eo)|exact (before_irrefl _ (before_trans _ _ _ Eo Hb))].
          - destruct (fop_last _ _ _ P1 H2 Hi) as [->|Hb]; [exact (before_irrefl _ Eo)|exact (before_irrefl _ (before_trans _ _ _ Eo Hb))]. }
        rewrite Ha. reflexivity.
      + specialize (I1 depth fuel ltac:(lia) ltac:(lia) HO). unfold Found in I1.
        assert (Hr : assoc r k = None).
        { apply assoc_none. intros Hi. assert (Hb : Before k2 k) by (apply P3; assumption). apply ltb_before in Hb. rewrite Hb, orb_true_r in Eo. discriminate. }
        rewrite Hr in *. destruct (assoc es k) as [v|].
        * destruct (truthy v) eqn:Ev; [rewrite I1; cbn [bind]; rewrite Ev; reflexivity|].
          destruct I1 as [I1|I1]; rewrite I1; cbn [bind]; [rewrite Ev; exact I2|reflexivity].
        * rewrite I1. reflexivity.
  Qed.

  Lemma tree_lemma catalog cat es k : Category getobj catalog cat es -> exists n, forall depth fuel, (n <= depth)%nat -> (n <= fuel)%nat ->
    Found es k (lookup_name getobj depth catalog fuel cat (OStr k)).
  Proof.
    intros (names & root & (o & Ho & HL) & Hr & d & HLd & HLim & HC & HS).
    destruct (proj1 content_lemmas d es HC HS k) as (n1 & I). destruct (leads_dict _ _ HL) as (n2 & E2). destruct (leads_dict _ _ HLd) as (n3 & E3).
    exists (n1 + n2 + n3)%nat. intros depth fuel Hd Hf. unfold lookup_name. rewrite Ho, E2 by lia. cbn [bind]. rewrite Hr, E3 by lia. cbn [bind].
    apply I; [lia|lia|]. unfold outside. rewrite HLim. reflexivity.
  Qed.

  (* ---------- C81 ---------- *)
  (* a name of a name tree is found, and gives the object stored with it *)
  Theorem C81_found_partial catalog cat es k v : Category getobj catalog cat es -> In (k, v) es -> truthy v = true ->
    exists n, forall depth fuel, (n <= depth)%nat -> (n <= fuel)%nat -> lookup_name getobj depth catalog fuel cat (OStr k) = Ok v.
  Proof.
    intros HC HI Hv. destruct (tree_lemma catalog cat es k HC) as (n & H). exists n. intros depth fuel Hd Hf. specialize (H depth fuel Hd Hf). unfold Found in H.
    destruct HC as (names & root & _ & _ & d & _ & _ & _ & HS). rewrite (in_assoc es k v (fop_nodup _ (sorted_pairs _ HS)) HI), Hv in H. exact H.
  Qed.
  (* any other name is a KeyError *)
  Theorem C81_absent catalog cat es k : Category getobj catalog cat es -> ~ In k (keys es) ->
    exists n, forall depth fuel, (n <= depth)%nat -> (n <= fuel)%nat -> lookup_name getobj depth catalog fuel cat (OStr k) = Err KeyError.
  Proof.
    intros HC HI. destruct (tree_lemma catalog cat es k HC) as (n & H). exists n. intros depth fuel Hd Hf. specialize (H depth fuel Hd Hf). unfold Found in H.
    rewrite (assoc_none es k HI) in H. exact H.
  Qed.
  (* Refuted: an object that is false in Python (0, an empty string or array, null) is not found in a tree with kids *)
  Theorem C81_false_value_refuted catalog cat names root d kids es k v : LeadsTo getobj catalog "Names" (ODict names) -> dget names cat = Some root ->
    Leads getobj ONull root (ODict d) -> dget d "Limits" = None -> dget d "Names" = None -> LeadsTo getobj d "Kids" (OArr kids) -> Nodes getobj kids es ->
    Sorted (keys es) -> In (k, v) es -> truthy v = false ->
    exists n, forall depth fuel, (n <= depth)%nat -> (n <= fuel)%nat -> lookup_name getobj depth catalog fuel cat (OStr k) = Err KeyError.
  Proof.
    intros (o & Ho & HL) Hr HLd HLim HNm (ok & Hok & HLk) HN HS HI Hv.
    destruct (proj2 content_lemmas kids es HN HS k) as (n1 & I). destruct (leads_dict _ _ HL) as (n2 & E2). destruct (leads_dict _ _ HLd) as (n3 & E3). destruct (leads_list _ _ HLk) as (n4 & E4).
    exists (S (n1 + n2 + n3 + n4)). intros depth fuel Hd Hf. unfold lookup_name. rewrite Ho, E2 by lia. cbn [bind]. rewrite Hr, E3 by lia. cbn [bind].
    destruct fuel as [|f]; [lia|]. cbn [lookup_tree]. rewrite HLim. cbn [bind]. rewrite HNm, Hok, E4 by lia. cbn [bind].
    specialize (I depth f ltac:(lia) ltac:(lia)). unfold FoundK in I. rewrite I, (in_assoc es k v (fop_nodup _ (sorted_pairs _ HS)) HI), Hv. reflexivity.
  Qed.
  (* get_dest: a destination of the name tree Dests; one of the dictionary Dests, by its name; and none *)
  Theorem C81_dest catalog es k v : Category getobj catalog "Dests" es -> In (k, v) es -> truthy v = true ->
    exists n, forall depth fuel, (n <= depth)%nat -> (n <= fuel)%nat -> get_dest getobj depth catalog fuel (OStr k) = Ok v.
  Proof.
    intros HC HI Hv. destruct (C81_found_partial _ _ _ _ _ HC HI Hv) as (n & H). exists n. intros depth fuel Hd Hf. unfold get_dest. rewrite H by assumption. reflexivity.
  Qed.
  Theorem C81_old_dest catalog dests name v : dget catalog "Names" = None -> LeadsTo getobj catalog "Dests" (ODict dests) -> dict_get dests (OName name) = Some v ->
    exists n, forall depth fuel, (n <= depth)%nat -> get_dest getobj depth catalog fuel (OName name) = Ok v.
  Proof.
    intros HN (o & Ho & HL) Hv. destruct (leads_dict _ _ HL) as (n & E). exists n. intros depth fuel Hd. unfold get_dest, lookup_name. rewrite HN, Ho, E by assumption.
    cbn [bind]. rewrite Hv. reflexivity.
  Qed.
  Theorem C81_dest_absent catalog k : dget catalog "Dests" = None ->
    (dget catalog "Names" = None \/ exists es, Category getobj catalog "Dests" es /\ ~ In k (keys es)) ->
    exists n, forall depth fuel, (n <= depth)%nat -> (n <= fuel)%nat -> get_dest getobj depth catalog fuel (OStr k) = Err PDFDestinationNotFound.
  Proof.
    intros HD [HN|(es & HC & HI)].
    - exists O. intros depth fuel _ _. unfold get_dest, lookup_name. rewrite HN, HD. reflexivity.
    - destruct (C81_absent _ _ _ _ HC HI) as (n & H). exists n. intros depth fuel Hd Hf. unfold get_dest. rewrite H, HD by assumption. reflexivity.
  Qed.
End doc.

(* a document with a name tree of two leaves, and an old dictionary of destinations *)
Definition ndoc (i : Z) : option obj :=
  match i with
  | 1 => Some (ODict [(ON "Kids", OArr [ORef 2; ORef 3])])
  | 2 => Some (ODict [(ON "Limits", OArr [OStr (bs "a"); OStr (bs "b")]); (ON "Names", OArr [OStr (bs "a"); OInt 5; OStr (bs "b"); OInt 0])])
  | 3 => Some (ODict [(ON "Limits", OArr [OStr (bs "c"); OStr (bs "c")]); (ON "Names", OArr [OStr (bs "c"); ORef 9])])
  | _ => None
  end.
Definition ncat : dict := [(ON "Names", ODict [(ON "Dests", ORef 1)]); (ON "Dests", ODict [(ON "old", OInt 7)])].
Definition nentries : list entry := [(bs "a", OInt 5); (bs "b", OInt 0); (bs "c", ORef 9)].
Lemma ndoc_nodes : Nodes ndoc [ORef 2; ORef 3] nentries.
Proof.
  assert (Hs : forall d k l, dget d k = Some (OArr l) -> LeadsTo ndoc d k (OArr l)) by (intros d k l H; exists (OArr l); split; [exact H|apply Leads_stop; discriminate]).
  eapply (No_cons ndoc (ORef 2) _ (bs "a") (bs "b") [(bs "a", OInt 5); (bs "b", OInt 0)] [ORef 3] [(bs "c", ORef 9)]);
    [eapply Leads_ref; [reflexivity|apply Leads_stop; discriminate]|apply Hs; reflexivity|reflexivity|reflexivity|apply Co_names, Hs; reflexivity|].
  eapply (No_cons ndoc (ORef 3) _ (bs "c") (bs "c") [(bs "c", ORef 9)] [] []);
    [eapply Leads_ref; [reflexivity|apply Leads_stop; discriminate]|apply Hs; reflexivity|reflexivity|reflexivity|apply Co_names, Hs; reflexivity|constructor].
Qed.
Lemma ndoc_sorted : Sorted (keys nentries).
Proof. apply So_cons; [apply ltb_before; reflexivity|]. apply So_cons; [apply ltb_before; reflexivity|]. constructor. Qed.
Lemma C81_case_hyps : Category ndoc ncat "Dests" nentries.
Proof.
  exists [(ON "Dests", ORef 1)], (ORef 1). split; [eexists; split; [reflexivity|apply Leads_stop; discriminate]|]. split; [reflexivity|].
  eexists. split; [eapply Leads_ref; [reflexivity|apply Leads_stop; discriminate]|]. split; [reflexivity|]. split; [|exact ndoc_sorted].
  eapply Co_kids; [reflexivity|eexists; split; [reflexivity|apply Leads_stop; discriminate]|exact ndoc_nodes].
Qed.
Example C81_case : get_dest ndoc 5 ncat 5 (OStr (bs "a")) = Ok (OInt 5) /\ get_dest ndoc 5 ncat 5 (OStr (bs "c")) = Ok (ORef 9) /\
  lookup_name ndoc 5 ncat 5 "Dests" (OStr (bs "bb")) = Err KeyError /\ lookup_name ndoc 5 ncat 5 "Dests" (OStr (bs "b")) = Err KeyError.
Proof. vm_compute. auto. Qed.
(* Refuted: with a name tree present, a destination of the old dictionary Dests cannot be looked up by its name: TypeError *)
Theorem C81_mixed_refuted : get_dest ndoc 5 ncat 5 (OName (bs "old")) = Err TypeError.
Proof. vm_compute. reflexivity. Qed.
(* Refuted: if the root itself has Limits, a name outside of them gives None instead of an error *)
Theorem C81_root_limits_refuted : get_dest (fun _ => None) 5
  [(ON "Names", ODict [(ON "Dests", ODict [(ON "Limits", OArr [OStr (bs "a"); OStr (bs "b")]); (ON "Names", OArr [OStr (bs "a"); OInt 5; OStr (bs "b"); OInt 6])])])] 5 (OStr (bs "z")) = Ok ONull.
Proof. vm_compute. reflexivity. Qed.
(* Refuted: limits given as references cannot be compared *)
Theorem C81_indirect_limits_refuted : get_dest (fun i => if i =? 4 then Some (OStr (bs "a")) else None) 5
  [(ON "Names", ODict [(ON "Dests", ODict [(ON "Kids", OArr [ODict [(ON "Limits", OArr [ORef 4; ORef 4]); (ON "Names", OArr [OStr (bs "a"); OInt 5])]])])])] 5 (OStr (bs "a")) = Err TypeError.
Proof. vm_compute. reflexivity. Qed.

(* ---------- C82 ---------- *)
Definition tuple (e : oentry) := (oe_level e, oe_title e, oe_dest e, oe_action e, oe_se e).
Scheme Items_mut := Induction for Items Sort Prop with Below_mut := Induction for Below Sort Prop.
Combined Scheme Items_Below from Items_mut, Below_mut.
(* what a node with these entries yields, apart from its children and its successors *)
Definition own (getobj : Z -> option obj) (depth : nat) (d : dict) (level : Z) : gen oentry :=
  match dget d "Title" with
  | None => gnil
  | Some t =>
      match dget d "A", dget d "Dest" with
      | None, None => gnil
      | a, dst => match title_of getobj depth t with Ok s => ([mkOe level s dst a (dget d "SE")], None) | Err ex => gfail ex end
      end
  end.
Definition kids_of (getobj : Z -> option obj) (depth fuel : nat) (d : dict) (level : Z) : gen oentry :=
  match dget d "First", dget d "Last" with Some x, Some _ => search_outline getobj depth fuel x level | _, _ => gnil end.
Lemma search_outline_S getobj depth f o level d : dict_value getobj depth o = Ok d ->
  search_outline getobj depth (S f) o level =
  gapp (own getobj depth d level) (gapp (kids_of getobj depth f d (level + 1))
    (match dget d "Next" with Some x => search_outline getobj depth f x level | None => gnil end)).
Proof. intros E. cbn [search_outline]. rewrite E. reflexivity. Qed.
Definition Yields (g : gen oentry) (l : list (Z * list Z * option obj * option obj * option obj)) : Prop := map tuple (fst g) = l /\ snd g = None.
Lemma yields_app a b la lb : Yields a la -> Yields b lb -> Yields (gapp a b) (la ++ lb).
Proof. intros [A1 A2] [B1 B2]. destruct a as [a ea], b as [b eb]. cbn [fst snd] in *. subst. unfold Yields, gapp. cbn [fst snd]. rewrite map_app. split; reflexivity. Qed.
Lemma listed_kids level title dest action se children : listed level (Item title dest action se children) =
  match title with Some t => match dest, action with None, None => [] | _, _ => [(level, t, dest, action, se)] end | None => [] end ++ all_listed (level + 1) children.
Proof.
  cbn [listed]. f_equal.
Qed.
Lemma outline_lemmas getobj :
  (forall o l, Items getobj o l -> exists n, forall depth fuel level, (n <= depth)%nat -> (n <= fuel)%nat -> Yields (search_outline getobj depth fuel o level) (all_listed level l)) /\
  (forall d l, Below getobj d l -> exists n, forall depth fuel level, (n <= depth)%nat -> (n <= fuel)%nat -> Yields (kids_of getobj depth fuel d level) (all_listed level l)).
Proof.
  apply (Items_Below getobj
    (fun o l _ => exists n, forall depth fuel level, (n <= depth)%nat -> (n <= fuel)%nat -> Yields (search_outline getobj depth fuel o level) (all_listed level l))
    (fun d l _ => exists n, forall depth fuel level, (n <= depth)%nat -> (n <= fuel)%nat -> Yields (kids_of getobj depth fuel d level) (all_listed level l))).
  - intros o d title dest action se children rest HL HT HD HA HSE HB (nb & IB) Hnx HN IN.
    destruct (leads_dict _ _ _ HL) as (n1 & E1).
    assert (HO : exists n, forall depth level, (n <= depth)%nat -> Yields (own getobj depth d level)
      (match title with Some t => match dest, action with None, None => [] | _, _ => [(level, t, dest, action, se)] end | None => [] end)).
    { destruct title as [t|].
      - destruct HT as (s & (os & Hos & HLs) & HTs). destruct (leads_resolved _ _ _ HLs) as (n & E). exists n. intros depth level Hd. unfold own.
        rewrite Hos, HA, HD. unfold title_of. rewrite E by assumption. cbn [bind]. rewrite (C83_text _ _ HTs), HSE.
        destruct action, dest; split; reflexivity.
      - exists O. intros depth level _. unfold own. rewrite HT. split; reflexivity. }
    destruct HO as (no & HO).
    assert (HX : exists n, forall depth fuel level, (n <= depth)%nat -> (n <= fuel)%nat ->
      Yields (match dget d "Next" with Some x => search_outline getobj depth fuel x level | None => gnil end) (all_listed level rest)).
    { destruct (dget d "Next") as [x|] eqn:Ex.
      - exact (IN x eq_refl).
      - subst rest. exists O. intros. split; reflexivity. }
    destruct HX as (nx & HX).
    exists (S (nb + n1 + no + nx)). intros depth fuel level Hd Hf. destruct fuel as [|f]; [lia|].
    rewrite (search_outline_S _ _ _ _ _ d (E1 depth ltac:(lia))).
    cbn [all_listed flat_map]. rewrite listed_kids. rewrite <- app_assoc.
    apply yields_app; [apply HO; lia|]. apply yields_app; [apply IB; lia|]. apply HX; lia.
  - intros d Hf. exists O. intros. unfold kids_of. rewrite Hf. split; reflexivity.
  - intros d x y l Hx Hy HI (n & IH). exists n. intros depth fuel level Hd Hf. unfold kids_of. rewrite Hx, Hy. apply IH; assumption.
Qed.
(* the outline is listed in order, parents before children, each item with its title, level and target *)
Theorem C82_outline getobj catalog l : Outline getobj catalog l ->
  exists n, forall depth fuel, (n <= depth)%nat -> (n <= fuel)%nat ->
    map tuple (fst (get_outlines getobj depth catalog fuel)) = all_listed 1 l /\ snd (get_outlines getobj depth catalog fuel) = None.
Proof.
  intros (d & (o & Ho & HL) & HT & HN & HB). destruct (leads_dict _ _ _ HL) as (n1 & E1). destruct (proj2 (outline_lemmas getobj) d l HB) as (n2 & H2).
  exists (S (n1 + n2)). intros depth fuel Hd Hf. unfold get_outlines. rewrite Ho. destruct fuel as [|f]; [lia|].
  rewrite (search_outline_S _ _ _ _ _ d (E1 depth ltac:(lia))). rewrite HN. unfold own. rewrite HT.
  assert (HY : Yields (gapp gnil (gapp (kids_of getobj depth f d (0 + 1)) gnil)) ([] ++ all_listed 1 l ++ [])).
  { apply yields_app; [split; reflexivity|]. apply yields_app; [apply H2; lia|split; reflexivity]. }
  rewrite app_nil_r in HY. exact HY.
Qed.
Theorem C82_no_outline getobj depth catalog fuel : dget catalog "Outlines" = None -> get_outlines getobj depth catalog fuel = ([], Some PDFNoOutlines).
Proof. intros H. unfold get_outlines. rewrite H. reflexivity. Qed.
(* Refuted: an outline whose items are linked in a ring is listed for ever: however long one waits, it has not ended *)
Definition ring (i : Z) : option obj := if i =? 1 then Some (ODict [(ON "Title", OStr (bs "A")); (ON "Dest", ON "x"); (ON "Next", ORef 1)]) else None.
Lemma ring_yields f : forall level, search_outline ring 5 f (ORef 1) level = (repeat (mkOe level (bs "A") (Some (ON "x")) None None) f, Some OutOfFuel).
Proof.
  induction f as [|f IH]; intros level; [reflexivity|].
  rewrite (search_outline_S ring 5 f (ORef 1) level [(ON "Title", OStr (bs "A")); (ON "Dest", ON "x"); (ON "Next", ORef 1)] eq_refl).
  change (dget [(ON "Title", OStr (bs "A")); (ON "Dest", ON "x"); (ON "Next", ORef 1)] "Next") with (Some (ORef 1)). cbv iota beta. rewrite IH. reflexivity.
Qed.
Theorem C82_ring_refuted f : snd (get_outlines ring 5 [(ON "Outlines", ODict [(ON "First", ORef 1); (ON "Last", ORef 1)])] (S f)) = Some OutOfFuel /\
  length (fst (get_outlines ring 5 [(ON "Outlines", ODict [(ON "First", ORef 1); (ON "Last", ORef 1)])] (S f))) = f.
Proof.
  unfold get_outlines. change (dget [(ON "Outlines", ODict [(ON "First", ORef 1); (ON "Last", ORef 1)])] "Outlines") with (Some (ODict [(ON "First", ORef 1); (ON "Last", ORef 1)])).
  cbv iota beta. rewrite (search_outline_S ring 5 f (ODict [(ON "First", ORef 1); (ON "Last", ORef 1)]) 0 [(ON "First", ORef 1); (ON "Last", ORef 1)] eq_refl).
  unfold kids_of. change (dget [(ON "First", ORef 1); (ON "Last", ORef 1)] "First") with (Some (ORef 1)).
  change (dget [(ON "First", ORef 1); (ON "Last", ORef 1)] "Last") with (Some (ORef 1)). cbv iota beta. rewrite ring_yields.
  change (own ring 5 [(ON "First", ORef 1); (ON "Last", ORef 1)] 0) with (@gnil oentry). unfold gapp, gnil. cbn [fst snd app]. split; [reflexivity|]. apply repeat_length.
Qed.
(* Refuted: a title that is no string ends the listing with a TypeError, and what follows is lost *)
Theorem C82_title_refuted : get_outlines (fun _ => None) 5 [(ON "Outlines", ODict [(ON "First", ODict [(ON "Title", OInt 1); (ON "Dest", ON "x");
    (ON "Next", ODict [(ON "Title", OStr (bs "B")); (ON "Dest", ON "y")])]); (ON "Last", ONull)])] 5 = ([], Some TypeError).
Proof. vm_compute. reflexivity. Qed.
(* an outline with two items, the first with two children, one of them without a destination *)
Definition odoc (i : Z) : option obj :=
  match i with
  | 1 => Some (ODict [(ON "Title", OStr (bs "One")); (ON "Dest", ON "a"); (ON "First", ORef 2); (ON "Last", ORef 3); (ON "Next", ORef 4)])
  | 2 => Some (ODict [(ON "Title", OStr [254; 255; 3; 177]); (ON "A", ON "b"); (ON "Next", ORef 3)])
  | 3 => Some (ODict [(ON "Title", OStr (bs "plain"))])
  | 4 => Some (ODict [(ON "Title", OStr (bs "Two")); (ON "Dest", ON "c"); (ON "SE", ON "s")])
  | _ => None
  end.
Definition ocat : dict := [(ON "Outlines", ODict [(ON "First", ORef 1); (ON "Last", ORef 4)])].
Definition oitems : list item :=
  [Item (Some (bs "One")) (Some (ON "a")) None None [Item (Some [945]) None (Some (ON "b")) None []; Item (Some (bs "plain")) None None None []];
   Item (Some (bs "Two")) (Some (ON "c")) None (Some (ON "s")) []].
Lemma doc_ascii s : forallb (fun c => (32 <=? c) && (c <=? 126)) s = true -> TextString s s.
Proof.
  intros H. apply TS_doc; [induction s as [|c s IH]; constructor; cbn in H; apply andb_prop in H as [H1 H2]; [apply DC_ascii; lia|apply IH, H2]|].
  intros r ->. cbn in H. discriminate.
Qed.
Lemma C82_case_hyps : Outline odoc ocat oitems.
Proof.
  eexists. split; [eexists; split; [reflexivity|apply Leads_stop; discriminate]|]. split; [reflexivity|]. split; [reflexivity|].
  assert (Hr : forall i d, odoc i = Some (ODict d) -> Leads odoc ONull (ORef i) (ODict d)) by (intros i d H; eapply Leads_ref; [exact H|apply Leads_stop; discriminate]).
  assert (Ht : forall d s, dget d "Title" = Some (OStr s) -> LeadsTo odoc d "Title" (OStr s)) by (intros d s H; eexists; split; [exact H|apply Leads_stop; discriminate]).
  assert (H3 : Items odoc (ORef 3) [Item (Some (bs "plain")) None None None []]).
  { eapply It; [apply Hr; reflexivity|exists (bs "plain"); split; [apply Ht; reflexivity|apply doc_ascii; reflexivity]|reflexivity|reflexivity|reflexivity|apply Be_none; reflexivity|reflexivity|]. intros x E. vm_compute in E. discriminate. }
  assert (H2 : Items odoc (ORef 2) [Item (Some [945]) None (Some (ON "b")) None []; Item (Some (bs "plain")) None None None []]).
  { eapply It; [apply Hr; reflexivity|exists [254; 255; 3; 177]; split; [apply Ht; reflexivity|apply (TS_utf16 [945]); repeat constructor; cbn; lia]|reflexivity|reflexivity|reflexivity|apply Be_none; reflexivity|exact Logic.I|].
    intros x E. vm_compute in E. injection E as <-. exact H3. }
  assert (H4 : Items odoc (ORef 4) [Item (Some (bs "Two")) (Some (ON "c")) None (Some (ON "s")) []]).
  { eapply It; [apply Hr; reflexivity|exists (bs "Two"); split; [apply Ht; reflexivity|apply doc_ascii; reflexivity]|reflexivity|reflexivity|reflexivity|apply Be_none; reflexivity|reflexivity|]. intros x E. vm_compute in E. discriminate. }
  eapply Be_some; [reflexivity|reflexivity|].
  eapply It; [apply Hr; reflexivity|exists (bs "One"); split; [apply Ht; reflexivity|apply doc_ascii; reflexivity]|reflexivity|reflexivity|reflexivity|eapply Be_some; [reflexivity|reflexivity|exact H2]|exact Logic.I|].
  intros x E. vm_compute in E. injection E as <-. exact H4.
Qed.
Example C82_case : map tuple (fst (get_outlines odoc 5 ocat 5)) =
  [(1, bs "One", Some (ON "a"), None, None); (2, [945], None, Some (ON "b"), None); (1, bs "Two", Some (ON "c"), None, Some (ON "s"))].
Proof. vm_compute. reflexivity. Qed.
