(* What the YAML writer writes can be read again. *)
From Coq Require Import String.
From Verif Require Import Base Obj Yaml_Model Yaml_Spec.
From Coq Require Import ZifyBool ZifyNat.
Open Scope Z_scope.
Import ListNotations.

(* ---------- the inner fixpoint ---------- *)
Lemma ytext_eq array inarr level keys c : ytext array inarr level keys c =
  let keys' key := if existsb (list_eqb key) keys then keys else key :: keys in
  if array then
    let lead := match keys with [] => spaces level | _ => 10 :: spaces level end in
    match c with
    | YWrite _ v => (lead ++ bs "- " ++ v, false, [] :: keys)
    | YObject _ l => let (t, b) := ybody false true (S level) [] l in (lead ++ bs "- " ++ t, b, [] :: keys)
    | YArray _ _ | YRaise => ([], true, keys)
    end
  else
    match c with
    | YWrite k v =>
        if existsb (list_eqb k) keys then ([], false, keys)
        else match keys with
             | [] => ((if inarr then [] else spaces level) ++ k ++ bs ": " ++ v, false, [k])
             | _ => (10 :: spaces level ++ k ++ bs ": " ++ v, false, k :: keys)
             end
    | YObject k l =>
        let lead := match keys' k with [_] => [] | _ => 10 :: spaces level end in
        let (t, b) := ybody false false (S level) [] l in (lead ++ k ++ bs ":" ++ 10 :: t, b, keys' k)
    | YArray k l =>
        let lead := match keys' k with [_] => spaces level | _ => 10 :: spaces level end in
        let (t, b) := ybody true false (S level) [] l in (lead ++ k ++ bs ":" ++ 10 :: t, b, keys' k)
    | YRaise => ([], true, keys)
    end.
Proof.
  assert (H : forall a i lv l ks, (fix go (keys : list (list Z)) (l : list ycall) : list Z * bool :=
       match l with
       | [] => ([], false)
       | c :: r => match ytext a i lv keys c with
                   | (t, true, _) => (t, true)
                   | (t, false, keys') => let (t', b) := go keys' r in (t ++ t', b)
                   end
       end) ks l = ybody a i lv ks l).
  { intros a i lv. induction l as [|c0 r IH]; intros ks; [reflexivity|]. cbn [ybody]. destruct (ytext a i lv ks c0) as [[t [|]] ks']; [reflexivity|]. now rewrite IH. }
  destruct array, c; cbn [ytext]; rewrite ?H; reflexivity.
Qed.
Lemma ybody_cons array inarr level keys c r : ybody array inarr level keys (c :: r) =
  match ytext array inarr level keys c with
  | (t, true, _) => (t, true)
  | (t, false, keys') => let (t', b) := ybody array inarr level keys' r in (t ++ t', b)
  end.
Proof. reflexivity. Qed.

(* ---------- lines ---------- *)
Definition unbroken (x : list Z) : Prop := Forall (fun c => c <> 10 /\ c <> 13) x.
Lemma unbroken_b x : forallb (fun c => negb (c =? 10) && negb (c =? 13)) x = true -> unbroken x.
Proof. intros H. apply Forall_forall. intros c Hc. rewrite forallb_forall in H. apply H in Hc. lia. Qed.
Definition Ends (x : list Z) : Prop := exists y e, x = y ++ [e] /\ e <> 32.
Definition Clean (c : list Z) : Prop := (exists d r, c = d :: r /\ d <> 32 /\ d <> 35) /\ Ends c /\ unbroken c.
Lemma ends_app a x : Ends x -> Ends (a ++ x).
Proof. intros (y & e & -> & H). exists (a ++ y), e. now rewrite app_assoc. Qed.
Lemma rtrim_ends x : Ends x -> rtrim x = x.
Proof.
  intros (y & e & -> & H). unfold rtrim. rewrite rev_app_distr. cbn [rev app ltrim]. destruct (Z.eqb_spec e 32); [contradiction|].
  cbn [rev]. now rewrite rev_involutive.
Qed.
Lemma ltrim_spaces n x : ltrim (repeat 32 n ++ x) = ltrim x.
Proof. induction n; [reflexivity|exact IHn]. Qed.
Lemma ltrim_clean d r : d <> 32 -> ltrim (d :: r) = d :: r.
Proof. intros H. cbn. destruct (Z.eqb_spec d 32); [contradiction|reflexivity]. Qed.
Lemma line_clean n c : Clean c -> line_of (repeat 32 n ++ c) = [(n, c)].
Proof.
  intros ((d & r & Ec & H1 & H2) & He & _). unfold line_of. rewrite (rtrim_ends _ (ends_app _ _ He)), ltrim_spaces. subst c. rewrite ltrim_clean by exact H1.
  destruct (Z.eqb_spec d 35); [contradiction|]. rewrite app_length, repeat_length. do 2 f_equal. lia.
Qed.
Lemma line_dash n : line_of (repeat 32 n ++ bs "- ") = [(n, [45])].
Proof.
  unfold line_of. assert (E : rtrim (repeat 32 n ++ bs "- ") = repeat 32 n ++ [45]).
  { unfold rtrim. rewrite rev_app_distr. change (rev (bs "- ")) with [32; 45]. cbn [app ltrim Z.eqb Pos.eqb]. cbn [rev]. now rewrite rev_involutive. }
  rewrite E, ltrim_spaces. cbn [ltrim Z.eqb Pos.eqb]. rewrite app_length, repeat_length. cbn [length]. do 2 f_equal. lia.
Qed.
Lemma split_one x : unbroken x -> split_lines x = [x].
Proof.
  induction 1 as [|c r (H1 & H2) _ IH]; [reflexivity|]. cbn [split_lines]. destruct (Z.eqb_spec c 10); [contradiction|]. destruct (Z.eqb_spec c 13); [contradiction|]. cbn [orb]. now rewrite IH.
Qed.
Lemma split_app x y : unbroken x -> split_lines (x ++ 10 :: y) = x :: split_lines y.
Proof.
  induction 1 as [|c r (H1 & H2) _ IH]; [reflexivity|]. cbn [app split_lines]. destruct (Z.eqb_spec c 10); [contradiction|]. destruct (Z.eqb_spec c 13); [contradiction|]. cbn [orb]. now rewrite IH.
Qed.
(* a text made of lines *)
Definition raw (R : list (list Z)) : list Z := flat_map (cons 10) R.
Lemma raw_app R S : raw (R ++ S) = raw R ++ raw S.
Proof. apply flat_map_app. Qed.
Lemma raw_lines R t : Forall unbroken R -> R <> [] -> 10 :: t = raw R -> text_lines t = flat_map line_of R.
Proof.
  intros H Hn E. destruct R as [|x R]; [contradiction|]. clear Hn. unfold raw in E. cbn [flat_map app] in E. injection E as ->. unfold text_lines.
  revert x H. induction R as [|y R IH]; intros x H; inversion H; subst.
  - cbn [flat_map app]. rewrite app_nil_r, split_one by assumption. cbn [flat_map]. reflexivity.
  - cbn [flat_map app]. rewrite split_app by assumption. cbn [flat_map]. f_equal. apply (IH y). assumption.
Qed.

(* ---------- keys and values ---------- *)
Lemma plain_parts x : plainb x = true -> (exists d r, x = d :: r /\ d <> 32 /\ d <> 35) /\ Ends x /\ key_split x = None /\ unbroken x /\ opens x = false /\ (forall y, dash (x ++ 58 :: y) = false) /\ dash x = false.
Proof.
  unfold plainb. intros H. destruct x as [|d r]; [discriminate|]. set (x := d :: r) in *. apply andb_prop in H. destruct H as (H & Hp). apply andb_prop in H. destruct H as (H & _).
  apply andb_prop in H. destruct H as (H & Hk). apply andb_prop in H. destruct H as (H & Hl). apply andb_prop in H. destruct H as (Hi & H32).
  splits.
  - exists d, r. splits; [reflexivity|intros ->; discriminate|]. intros ->. cbn in Hi. discriminate.
  - destruct (rev x) as [|e y] eqn:E. { apply (f_equal (@length Z)) in E. rewrite rev_length in E. discriminate. }
    exists (rev y), e. split; [rewrite <- (rev_involutive x), E; reflexivity|]. intros ->. discriminate.
  - destruct (key_split x); [discriminate|reflexivity].
  - unfold unbroken. apply Forall_forall. intros c Hc. rewrite forallb_forall in Hp. apply Hp in Hc. unfold printable in Hc. lia.
  - unfold opens, x. destruct (Z.eqb_spec d 91) as [->|]; [discriminate|]. destruct (Z.eqb_spec d 123) as [->|]; [discriminate|]. destruct (Z.eqb_spec d 39) as [->|]; [discriminate|reflexivity].
  - intros y. unfold dash, x. cbn [app]. destruct (Z.eqb_spec d 45) as [->|]; [|reflexivity]. destruct r as [|e r]; cbn in Hi; [discriminate|]. cbn. destruct (e =? 32); [discriminate|reflexivity].
  - unfold dash, x. destruct (Z.eqb_spec d 45) as [->|]; [|reflexivity]. destruct r as [|e r]; cbn in Hi; [discriminate|]. cbn. destruct (e =? 32); [discriminate|reflexivity].
Qed.
Lemma key_split_app k y : key_split k = None -> (y = [] \/ exists z, y = 32 :: z) -> key_split (k ++ 58 :: y) = Some (k, y).
Proof.
  intros Hk Hy. induction k as [|c r IH].
  - cbn [app key_split]. rewrite Z.eqb_refl. destruct Hy as [->|(z & ->)]; reflexivity.
  - cbn [key_split] in Hk. cbn [app key_split].
    destruct r as [|d r].
    + cbn [app]. rewrite andb_true_r in Hk. destruct (c =? 58) eqn:Ec; [discriminate|]. cbn [andb]. cbn [app] in IH. rewrite IH by reflexivity. reflexivity.
    + cbn [app]. destruct ((c =? 58) && (d =? 32)); [discriminate|]. change ((d :: r) ++ 58 :: y) with (d :: r ++ 58 :: y) in IH. rewrite IH; [reflexivity|].
      destruct (key_split (d :: r)) as [[]|]; [discriminate|reflexivity].
Qed.
Lemma unbroken_app x y : unbroken x -> unbroken y -> unbroken (x ++ y).
Proof. intros. now apply Forall_app. Qed.
Lemma unbroken_spaces n : unbroken (repeat 32 n).
Proof. induction n; constructor; [lia|exact IHn]. Qed.
(* a text that a key may have for its value *)
Definition Value (v : list Z) (x : yaml) : Prop := (exists n, forall k, (n <= k)%nat -> inline k v = Some x) /\ unbroken v /\ Ends v.
Lemma value_first v x : Value v x -> exists d r, v = d :: r /\ d <> 32 /\ d <> 35 /\ dash v = false /\ (negb (opens v) && match key_split v with Some _ => true | None => false end) = false.
Proof.
  intros ((n & H) & _ & _). specialize (H n ltac:(lia)). unfold inline in H. destruct (opens v) eqn:Eo.
  - destruct v as [|d r]; [discriminate|]. exists d, r. unfold opens in Eo. splits; [reflexivity|lia|lia| |reflexivity]. unfold dash. destruct (Z.eqb_spec d 45); [lia|reflexivity].
  - destruct (plainb v) eqn:Ep; [|discriminate]. destruct (plain_parts _ Ep) as ((d & r & -> & H1 & H2) & _ & K & _ & _ & _ & D). exists d, r. rewrite K. splits; auto.
Qed.
Lemma value_plain v : plainb v = true -> Value v (YStr v).
Proof.
  intros H. destruct (plain_parts _ H) as (_ & He & _ & Hu & Ho & _). split; [|split; assumption]. exists 0%nat. intros k _. unfold inline. now rewrite Ho, H.
Qed.
Lemma clean_key k : plainb k = true -> Clean (k ++ bs ":").
Proof.
  intros H. destruct (plain_parts _ H) as ((d & r & E & H1 & H2) & He & Hk & Hu & Ho & Hd & _). unfold Clean. splits.
  - exists d, (r ++ bs ":"). subst. auto.
  - exists k, 58. split; [reflexivity|lia].
  - apply unbroken_app; [exact Hu|]. now apply unbroken_b.
Qed.
Lemma clean_write k v x : plainb k = true -> Value v x -> Clean (k ++ bs ": " ++ v).
Proof.
  intros H (_ & Hv & Hv2). destruct (plain_parts _ H) as ((d & r & E & H1 & H2) & He & Hk & Hu & Ho & Hd & _). unfold Clean. splits.
  - exists d, (r ++ bs ": " ++ v). subst. auto.
  - apply ends_app, ends_app, Hv2.
  - apply unbroken_app; [exact Hu|]. apply unbroken_app; [now apply unbroken_b|exact Hv].
Qed.

(* ---------- what the calls stand for ---------- *)
Definition node (m : list (list Z * yaml)) : yaml := match m with [] => YNull | _ => YMap m end.
Definition seq (l : list yaml) : yaml := match l with [] => YNull | _ => YSeq l end.
(* a nested object or array may not come first everywhere *)
Definition begins (inarr : bool) (l : list ycall) : Prop :=
  match l with YObject _ _ :: _ => inarr = true | YArray _ _ :: _ => inarr = false | _ => True end.
Inductive Obj : list (list Z) -> list ycall -> list (list Z * yaml) -> bool -> Prop :=
| Ob_nil seen : Obj seen [] [] false
| Ob_raise seen r : Obj seen (YRaise :: r) [] true
| Ob_again seen k v r m b : In k seen -> Obj seen r m b -> Obj seen (YWrite k v :: r) m b
| Ob_write seen k v x r m b : ~ In k seen -> plainb k = true -> Value v x -> Obj (k :: seen) r m b -> Obj seen (YWrite k v :: r) ((k, x) :: m) b
| Ob_object seen k l m1 r m b : ~ In k seen -> plainb k = true -> begins false l -> Obj [] l m1 false -> Obj (k :: seen) r m b -> Obj seen (YObject k l :: r) ((k, node m1) :: m) b
| Ob_object_raise seen k l m1 r : ~ In k seen -> plainb k = true -> begins false l -> Obj [] l m1 true -> Obj seen (YObject k l :: r) [(k, node m1)] true
| Ob_array seen k l vs r m b : ~ In k seen -> plainb k = true -> Arr l vs false -> Obj (k :: seen) r m b -> Obj seen (YArray k l :: r) ((k, seq vs) :: m) b
| Ob_array_raise seen k l vs r : ~ In k seen -> plainb k = true -> Arr l vs true -> Obj seen (YArray k l :: r) [(k, seq vs)] true
with Arr : list ycall -> list yaml -> bool -> Prop :=
| Ar_nil : Arr [] [] false
| Ar_raise r : Arr (YRaise :: r) [] true
| Ar_write k v x r vs b : Value v x -> Arr r vs b -> Arr (YWrite k v :: r) (x :: vs) b
| Ar_object k l m r vs b : begins true l -> Obj [] l m false -> Arr r vs b -> Arr (YObject k l :: r) (node m :: vs) b
| Ar_object_raise k l m r : begins true l -> Obj [] l m true -> Arr (YObject k l :: r) [node m] true.
Scheme Obj_mind := Minimality for Obj Sort Prop with Arr_mind := Minimality for Arr Sort Prop.

(* ---------- reading ---------- *)
Definition Stop (m : nat) (rest : list yline) : Prop := match rest with [] => True | (m', _) :: _ => (m' < m)%nat end.
Definition ReadE (m : nat) (seen : list (list Z)) (L : list yline) (kvs : list (list Z * yaml)) : Prop :=
  forall rest, Stop m rest -> exists n, forall k, (n <= k)%nat -> entries k m seen (L ++ rest) = Some (kvs, rest).
Definition ReadI (m : nat) (L : list yline) (vs : list yaml) : Prop :=
  forall rest, Stop m rest -> exists n, forall k, (n <= k)%nat -> items k m (L ++ rest) = Some (vs, rest).
Lemma existsb_in k seen : existsb (list_eqb k) seen = true <-> In k seen.
Proof.
  rewrite existsb_exists. split.
  - intros (x & H & E). apply list_eqb_eq in E. now subst.
  - intros H. exists k. split; [exact H|]. now apply list_eqb_eq.
Qed.
Lemma existsb_out k seen : ~ In k seen -> existsb (list_eqb k) seen = false.
Proof. intros H. destruct (existsb (list_eqb k) seen) eqn:E; [|reflexivity]. apply existsb_in in E. contradiction. Qed.
Lemma entries_stop m seen : ReadE m seen [] [].
Proof.
  intros rest Hs. exists 1%nat. intros [|k] Hk; [lia|]. cbn [app entries]. destruct rest as [|[m' c] r]; [reflexivity|]. cbn in Hs. destruct (Nat.ltb_spec m' m); [reflexivity|lia].
Qed.
Lemma items_stop m : ReadI m [] [].
Proof.
  intros rest Hs. exists 1%nat. intros [|k] Hk; [lia|]. cbn [app items]. destruct rest as [|[m' c] r]; [reflexivity|]. cbn in Hs. destruct (Nat.ltb_spec m' m); [reflexivity|lia].
Qed.
(* the lines that follow in the same mapping *)
Definition Follows (m : nat) (L : list yline) : Prop := match L with [] => True | (m', c) :: _ => m' = m /\ dash c = false end.
Lemma entry_value m seen key v x L kvs : ~ In key seen -> plainb key = true -> Value v x -> ReadE m (key :: seen) L kvs -> ReadE m seen ((m, key ++ bs ": " ++ v) :: L) ((key, x) :: kvs).
Proof.
  intros Hn Hp Hv HL rest Hs. destruct (HL rest Hs) as (n1 & H1). pose proof Hv as ((n2 & H2) & _ & _). exists (S (n1 + n2)). intros [|k] Hk; [lia|]. cbn [app entries].
  rewrite Nat.ltb_irrefl. destruct (plain_parts _ Hp) as (_ & _ & Hks & _ & _ & Hd & _). change (bs ": ") with (58 :: [32]). cbn [app]. rewrite Hd.
  rewrite (key_split_app key (32 :: v) Hks) by (right; eauto). rewrite Hp, (existsb_out _ _ Hn). cbn [negb andb].
  destruct (value_first _ _ Hv) as (d & r & -> & D1 & _). change (ltrim (32 :: d :: r)) with (ltrim (d :: r)). rewrite ltrim_clean by exact D1. rewrite H2 by lia. rewrite H1 by lia. reflexivity.
Qed.
Lemma entry_null m seen key L kvs : ~ In key seen -> plainb key = true -> Follows m L -> ReadE m (key :: seen) L kvs -> ReadE m seen ((m, key ++ bs ":") :: L) ((key, YNull) :: kvs).
Proof.
  intros Hn Hp HF HL rest Hs. destruct (HL rest Hs) as (n1 & H1). exists (S n1). intros [|k] Hk; [lia|]. cbn [app entries].
  rewrite Nat.ltb_irrefl. destruct (plain_parts _ Hp) as (_ & _ & Hks & _ & _ & Hd & _). change (bs ":") with (58 :: []). rewrite Hd.
  rewrite (key_split_app key [] Hks) by now left. rewrite Hp, (existsb_out _ _ Hn). cbn [negb andb ltrim].
  assert (E : match L ++ rest with (m', c') :: _ => if (m <? m')%nat || ((m' =? m)%nat && dash c') then block k (L ++ rest) else Some (YNull, L ++ rest) | [] => Some (YNull, L ++ rest) end = Some (YNull, L ++ rest)).
  { destruct L as [|[m' c'] L]; cbn [app].
    - destruct rest as [|[m' c'] r]; [reflexivity|]. cbn in Hs. replace (m <? m')%nat with false by lia. replace (m' =? m)%nat with false by lia. reflexivity.
    - destruct HF as (-> & ->). rewrite Nat.ltb_irrefl, andb_false_r. reflexivity. }
  cbn [app] in E. rewrite E. rewrite H1 by lia. reflexivity.
Qed.
Lemma entry_block m seen key m1 c1 L1 x L kvs : ~ In key seen -> plainb key = true -> (m < m1)%nat -> Follows m L ->
  (forall rest, Stop m1 rest -> exists n, forall k, (n <= k)%nat -> block k (((m1, c1) :: L1) ++ rest) = Some (x, rest)) ->
  ReadE m (key :: seen) L kvs -> ReadE m seen ((m, key ++ bs ":") :: ((m1, c1) :: L1) ++ L) ((key, x) :: kvs).
Proof.
  intros Hn Hp Hm HF HB HL rest Hs. destruct (HL rest Hs) as (n1 & H1). destruct (HB (L ++ rest)) as (n2 & H2).
  { destruct L as [|[m' c'] L]; cbn [app]; [destruct rest as [|[m' c'] r]; cbn in *; lia|]. cbn in *. lia. }
  exists (S (n1 + n2)). intros [|k] Hk; [lia|]. cbn [app entries].
  rewrite Nat.ltb_irrefl. destruct (plain_parts _ Hp) as (_ & _ & Hks & _ & _ & Hd & _). change (bs ":") with (58 :: []). rewrite Hd.
  rewrite (key_split_app key [] Hks) by now left. rewrite Hp, (existsb_out _ _ Hn). cbn [negb andb ltrim].
  replace (m <? m1)%nat with true by lia. cbn [orb]. rewrite <- app_assoc. cbn [app] in H2. rewrite H2 by lia. rewrite H1 by lia. reflexivity.
Qed.
Lemma item_value m v x L vs : Value v x -> ReadI m L vs -> ReadI m ((m, bs "- " ++ v) :: L) (x :: vs).
Proof.
  intros Hv HL rest Hs. destruct (HL rest Hs) as (n1 & H1). pose proof Hv as ((n2 & H2) & _ & _). exists (S (n1 + n2)). intros [|k] Hk; [lia|]. cbn [app items].
  rewrite Nat.ltb_irrefl. change (bs "- ") with [45; 32]. cbn [app tl]. change (dash (45 :: 32 :: v)) with true. cbv iota.
  destruct (value_first _ _ Hv) as (d & r & E & D1 & _ & D2 & D3). change (ltrim (32 :: v)) with (ltrim v).
  assert (EL : ltrim v = v) by (rewrite E; now apply ltrim_clean). rewrite EL. rewrite D2, D3. cbn [orb]. rewrite H2 by lia. rewrite E. rewrite H1 by lia. reflexivity.
Qed.
Lemma item_null m L vs : (match L with [] => True | (m', _) :: _ => m' = m end) -> ReadI m L vs -> ReadI m ((m, [45]) :: L) (YNull :: vs).
Proof.
  intros HF HL rest Hs. destruct (HL rest Hs) as (n1 & H1). exists (S n1). intros [|k] Hk; [lia|]. cbn [app items].
  rewrite Nat.ltb_irrefl. cbn [dash Z.eqb Pos.eqb andb tl ltrim].
  assert (E : match L ++ rest with (m', _) :: _ => if (m <? m')%nat then block k (L ++ rest) else Some (YNull, L ++ rest) | [] => Some (YNull, L ++ rest) end = Some (YNull, L ++ rest)).
  { destruct L as [|[m' c'] L]; cbn [app]; [destruct rest as [|[m' c'] r]; [reflexivity|]; cbn in Hs; now replace (m <? m')%nat with false by lia|]. rewrite HF. now rewrite Nat.ltb_irrefl. }
  rewrite E. rewrite H1 by lia. reflexivity.
Qed.
Lemma item_block m c0 L1 x L vs : (exists d r, c0 = d :: r /\ d <> 32) -> (exists kv, key_split c0 = Some kv) -> opens c0 = false -> (match L with [] => True | (m', _) :: _ => m' = m end) ->
  (forall rest, Stop (m + 2) rest -> exists n, forall k, (n <= k)%nat -> block k ((((m + 2)%nat, c0) :: L1) ++ rest) = Some (x, rest)) ->
  ReadI m L vs -> ReadI m ((m, bs "- " ++ c0) :: L1 ++ L) (x :: vs).
Proof.
  intros (d & r & E & Hd) (kv & Hk) Ho HF HB HL rest Hs. destruct (HL rest Hs) as (n1 & H1). destruct (HB (L ++ rest)) as (n2 & H2).
  { destruct L as [|[m' c'] L]; cbn [app]; [destruct rest as [|[m' c'] r']; cbn in *; lia|]. cbn in *. lia. }
  exists (S (n1 + n2)). intros [|k] Hk'; [lia|]. cbn [app items].
  rewrite Nat.ltb_irrefl. change (bs "- ") with [45; 32]. cbn [app tl]. change (dash (45 :: 32 :: c0)) with true. cbv iota.
  change (ltrim (32 :: c0)) with (ltrim c0). assert (EL : ltrim c0 = c0) by (rewrite E; now apply ltrim_clean). rewrite EL. rewrite Hk, Ho. cbn [negb andb]. rewrite orb_true_r.
  replace (m + (length (45%Z :: 32%Z :: c0) - length c0))%nat with (m + 2)%nat by (cbn [length]; lia). rewrite <- app_assoc. cbn [app] in H2.
  replace (match c0 with [] => match L1 ++ L ++ rest with [] => Some (YNull, L1 ++ L ++ rest) | (m', _) :: _ => if (m <? m')%nat then block k (L1 ++ L ++ rest) else Some (YNull, L1 ++ L ++ rest) end
    | _ :: _ => block k (((m + 2)%nat, c0) :: L1 ++ L ++ rest) end) with (block k (((m + 2)%nat, c0) :: L1 ++ L ++ rest)) by (now rewrite E).
  rewrite H2 by lia. rewrite H1 by lia. reflexivity.
Qed.
Lemma block_map m c L kvs : dash c = false -> ReadE m [] ((m, c) :: L) kvs -> forall rest, Stop m rest -> exists n, forall k, (n <= k)%nat -> block k (((m, c) :: L) ++ rest) = Some (YMap kvs, rest).
Proof. intros Hd H rest Hs. destruct (H rest Hs) as (n & Hn). exists (S n). intros [|k] Hk; [lia|]. cbn [app block]. rewrite Hd. cbn [app] in Hn. rewrite Hn by lia. reflexivity. Qed.
Lemma block_seq m c L vs : dash c = true -> ReadI m ((m, c) :: L) vs -> forall rest, Stop m rest -> exists n, forall k, (n <= k)%nat -> block k (((m, c) :: L) ++ rest) = Some (YSeq vs, rest).
Proof. intros Hd H rest Hs. destruct (H rest Hs) as (n & Hn). exists (S n). intros [|k] Hk; [lia|]. cbn [app block]. rewrite Hd. cbn [app] in Hn. rewrite Hn by lia. reflexivity. Qed.

(* ---------- the writer ---------- *)
Definition lead (seen : list (list Z)) (inarr : bool) (level : nat) : list Z := match seen with [] => 10 :: (if inarr then spaces level else []) | _ => [] end.
(* the lines of an object: the first is an entry *)
Definition OLines (level : nat) (seen : list (list Z)) (R : list (list Z)) (m : list (list Z * yaml)) : Prop :=
  Forall unbroken R /\ ReadE (2 * level) seen (flat_map line_of R) m /\
  match R with
  | [] => m = []
  | x :: _ => m <> [] /\ exists c0, x = spaces level ++ c0 /\ Clean c0 /\ dash c0 = false /\ opens c0 = false /\ exists kv, key_split c0 = Some kv
  end.
Definition PO (seen : list (list Z)) (l : list ycall) (m : list (list Z * yaml)) (b : bool) : Prop :=
  forall level inarr, (seen = [] -> level = 0%nat \/ begins inarr l) ->
    exists t R, ybody false inarr level seen l = (t, b) /\ OLines level seen R m /\ (R = [] -> t = []) /\ (R <> [] -> lead seen inarr level ++ t = raw R).
Definition ALines (level : nat) (R : list (list Z)) (vs : list yaml) : Prop :=
  Forall unbroken R /\ ReadI (2 * level) (flat_map line_of R) vs /\
  match R with
  | [] => vs = []
  | x :: _ => vs <> [] /\ exists c, line_of x = [((2 * level)%nat, c)] /\ dash c = true
  end.
Definition PA (l : list ycall) (vs : list yaml) (b : bool) : Prop :=
  forall level keys, exists t R, ybody true false level keys l = (t, b) /\ ALines level R vs /\ (R = [] -> t = []) /\
    (R <> [] -> match keys with [] => [10] | _ => [] end ++ t = raw R).

Lemma olines_follow level seen R m : OLines level seen R m -> Follows (2 * level) (flat_map line_of R).
Proof.
  intros (_ & _ & H). destruct R as [|x R]; [exact I|]. destruct H as (_ & c0 & -> & Hc & Hd & _). unfold spaces. cbn [flat_map]. rewrite line_clean by exact Hc. cbn. auto.
Qed.
Lemma alines_follow level R vs : ALines level R vs -> match flat_map line_of R with [] => True | (m', _) :: _ => m' = (2 * level)%nat end.
Proof. intros (_ & _ & H). destruct R as [|x R]; [exact I|]. destruct H as (_ & c & E & _). cbn [flat_map]. rewrite E. reflexivity. Qed.
(* the rest of an object after a first entry *)
Lemma join_rest seen k inarr level r m b : PO (k :: seen) r m b -> exists t R, ybody false inarr level (k :: seen) r = (t, b) /\ OLines level (k :: seen) R m /\ t = raw R.
Proof.
  intros H. destruct (H level inarr) as (t & R & E & HO & H1 & H2); [discriminate|]. exists t, R. splits; auto.
  destruct R as [|x R]; [rewrite H1 by reflexivity; reflexivity|]. apply H2. discriminate.
Qed.
(* a first line, and more *)
Lemma first_line level seen c0 R' m : Clean c0 -> dash c0 = false -> opens c0 = false -> (exists kv, key_split c0 = Some kv) -> m <> [] -> Forall unbroken R' ->
  ReadE (2 * level) seen (((2 * level)%nat, c0) :: flat_map line_of R') m -> OLines level seen ((spaces level ++ c0) :: R') m.
Proof.
  intros Hc Hd Ho Hk Hm HR HE. unfold OLines. splits.
  - constructor; [|exact HR]. apply unbroken_app; [apply unbroken_spaces|apply Hc].
  - cbn [flat_map]. unfold spaces. rewrite line_clean by exact Hc. exact HE.
  - exact Hm.
  - exists c0. splits; auto.
Qed.
Lemma opens_app k y : plainb k = true -> opens (k ++ y) = false.
Proof. intros H. destruct (plain_parts _ H) as ((d & r & -> & _) & _ & _ & _ & Ho & _). exact Ho. Qed.
Lemma key_clean k : plainb k = true -> Clean (k ++ bs ":") /\ dash (k ++ bs ":") = false /\ opens (k ++ bs ":") = false /\ exists kv, key_split (k ++ bs ":") = Some kv.
Proof.
  intros H. destruct (plain_parts _ H) as (_ & _ & Hk & _ & _ & Hd & _). splits; [apply clean_key, H|apply Hd|apply opens_app, H|]. exists (k, []). apply key_split_app; auto.
Qed.
(* the block under a key *)
Lemma under_key level k seen l m1 b1 : PO [] l m1 b1 -> begins false l ->
  ~ In k seen -> plainb k = true -> exists t R, ybody false false (S level) [] l = (t, b1) /\ Forall unbroken R /\ 10 :: t = raw R /\
  forall L kvs, Follows (2 * level) L -> ReadE (2 * level) (k :: seen) L kvs -> ReadE (2 * level) seen (((2 * level)%nat, k ++ bs ":") :: flat_map line_of R ++ L) ((k, node m1) :: kvs).
Proof.
  intros HP Hb Hn Hp. destruct (HP (S level) false) as (t & R & E & (HU & HE & HR) & H1 & H2); [auto|]. destruct R as [|x R].
  - exists t, [[]]. subst m1. rewrite H1 in * by reflexivity. splits; [exact E|repeat constructor|reflexivity|].
    intros L kvs HF HL. cbn [flat_map app node]. apply entry_null; assumption.
  - exists t, (x :: R). splits; [exact E|exact HU|apply H2; discriminate|]. destruct HR as (Hm & c0 & -> & Hc & Hd & _). intros L kvs HF HL.
    cbn [flat_map] in *. unfold spaces in *. rewrite line_clean in * by exact Hc. cbn [app] in HE. destruct m1 as [|p m1]; [contradiction|]. cbn [node].
    apply entry_block; [exact Hn|exact Hp|lia|exact HF| |exact HL]. apply block_map; assumption.
Qed.
Lemma under_array level k seen l vs b1 : PA l vs b1 -> ~ In k seen -> plainb k = true -> exists t R, ybody true false (S level) [] l = (t, b1) /\ Forall unbroken R /\ 10 :: t = raw R /\
  forall L kvs, Follows (2 * level) L -> ReadE (2 * level) (k :: seen) L kvs -> ReadE (2 * level) seen (((2 * level)%nat, k ++ bs ":") :: flat_map line_of R ++ L) ((k, seq vs) :: kvs).
Proof.
  intros HP Hn Hp. destruct (HP (S level) []) as (t & R & E & (HU & HE & HR) & H1 & H2). destruct R as [|x R].
  - exists t, [[]]. subst vs. rewrite H1 in * by reflexivity. splits; [exact E|repeat constructor|reflexivity|].
    intros L kvs HF HL. cbn [flat_map app seq]. apply entry_null; assumption.
  - exists t, (x :: R). splits; [exact E|exact HU|apply H2; discriminate|]. destruct HR as (Hm & c & Ex & Hd). intros L kvs HF HL.
    cbn [flat_map] in *. rewrite Ex in *. cbn [app] in HE. destruct vs as [|v vs]; [contradiction|]. cbn [seq].
    apply entry_block; [exact Hn|exact Hp|lia|exact HF| |exact HL]. apply block_seq; assumption.
Qed.
Lemma keys_new k seen : ~ In k seen -> (if existsb (list_eqb k) seen then seen else k :: seen) = k :: seen.
Proof. intros H. now rewrite existsb_out. Qed.

Section cases.
  Variables (seen : list (list Z)) (level : nat) (inarr : bool).
  (* the text before an entry *)
  Definition before (first : list Z) : list Z := match seen with [] => first | _ => 10 :: spaces level end.
  Lemma before_lead first : (seen = [] -> lead [] inarr level ++ first = 10 :: spaces level) -> forall x, lead seen inarr level ++ before first ++ x = 10 :: spaces level ++ x.
  Proof. intros H x. unfold before, lead in *. destruct seen; [rewrite app_assoc, H by reflexivity; reflexivity|reflexivity]. Qed.
End cases.
Lemma case_write seen k v x r m b : ~ In k seen -> plainb k = true -> Value v x -> PO (k :: seen) r m b -> PO seen (YWrite k v :: r) ((k, x) :: m) b.
Proof.
  intros Hn Hp Hv HP level inarr _. destruct (join_rest seen k inarr level r m b HP) as (t & R & E & HO & ET).
  set (f := if inarr then [] else spaces level).
  assert (HB : seen = [] -> lead [] inarr level ++ f = 10 :: spaces level) by (intros _; unfold lead, f; destruct inarr; cbn [app]; rewrite ?app_nil_r; reflexivity).
  exists (before seen level f ++ (k ++ bs ": " ++ v) ++ t), ((spaces level ++ k ++ bs ": " ++ v) :: R). splits.
  - rewrite ybody_cons, ytext_eq. cbv beta zeta iota. rewrite existsb_out by exact Hn. unfold before. destruct seen as [|s0 seen]; cbv iota; rewrite E; f_equal; unfold f; cbn [app]; rewrite <- ?app_assoc; reflexivity.
  - destruct (plain_parts _ Hp) as (_ & _ & Hk & _ & _ & Hd & _).
    apply first_line; [apply (clean_write k v x Hp Hv)|apply Hd|apply opens_app, Hp| |discriminate|apply HO|].
    + exists (k, 32 :: v). apply (key_split_app k (32 :: v)); [exact Hk|right; eauto].
    + apply entry_value; [exact Hn|exact Hp|exact Hv|apply HO].
  - discriminate.
  - intros _. rewrite (before_lead seen level inarr f HB). unfold raw. cbn [flat_map]. fold (raw R). rewrite ET. cbn [app]. rewrite <- !app_assoc. reflexivity.
Qed.
(* a nested object or array, and what follows *)
Lemma case_nested seen k R1 x level inarr first t1 : ~ In k seen -> plainb k = true -> Forall unbroken R1 -> 10 :: t1 = raw R1 ->
  (seen = [] -> lead [] inarr level ++ first = 10 :: spaces level) ->
  (forall L kvs, Follows (2 * level) L -> ReadE (2 * level) (k :: seen) L kvs -> ReadE (2 * level) seen (((2 * level)%nat, k ++ bs ":") :: flat_map line_of R1 ++ L) ((k, x) :: kvs)) ->
  forall R m, OLines level (k :: seen) R m ->
    let R' := (spaces level ++ k ++ bs ":") :: R1 ++ R in
    OLines level seen R' ((k, x) :: m) /\ lead seen inarr level ++ (before seen level first ++ k ++ bs ":" ++ 10 :: t1) ++ raw R = raw R'.
Proof.
  intros Hn Hp HU ET HB HE R m HO R'. destruct (key_clean k Hp) as (K1 & K2 & K3 & K4). split.
  - apply first_line; auto; [discriminate|apply Forall_app; split; [exact HU|apply HO]|]. rewrite flat_map_app. apply HE; [eapply olines_follow; exact HO|apply HO].
  - rewrite <- app_assoc. rewrite (before_lead seen level inarr first HB). unfold R', raw. cbn [flat_map]. rewrite flat_map_app. fold (raw R). fold (raw R1). rewrite <- ET. cbn [app]. rewrite <- !app_assoc. reflexivity.
Qed.
Lemma olines_nil level seen : OLines level seen [] [].
Proof. unfold OLines. splits; [constructor|apply entries_stop|reflexivity]. Qed.
Lemma object_first (seen : list (list Z)) level inarr k l r : (seen = [] -> level = 0%nat \/ begins inarr (YObject k l :: r)) -> seen = [] -> lead [] inarr level ++ [] = 10 :: spaces level.
Proof. intros H E. unfold lead. rewrite app_nil_r. destruct (H E) as [->|Hb]; [destruct inarr; reflexivity|]. cbn in Hb. now rewrite Hb. Qed.
Lemma array_first (seen : list (list Z)) level inarr k l r : (seen = [] -> level = 0%nat \/ begins inarr (YArray k l :: r)) -> seen = [] -> lead [] inarr level ++ spaces level = 10 :: spaces level.
Proof. intros H E. unfold lead. destruct (H E) as [->|Hb]; [destruct inarr; reflexivity|]. cbn in Hb. now rewrite Hb. Qed.
Lemma before_eq seen level k first : match k :: seen with [_] => first | _ => 10 :: spaces level end = before seen level first.
Proof. destruct seen; reflexivity. Qed.
Lemma case_object seen k l m1 r m b : ~ In k seen -> plainb k = true -> begins false l -> PO [] l m1 false -> PO (k :: seen) r m b -> PO seen (YObject k l :: r) ((k, node m1) :: m) b.
Proof.
  intros Hn Hp Hb H1 HP level inarr HB. destruct (join_rest seen k inarr level r m b HP) as (t & R & E & HO & ET).
  destruct (under_key level k seen l m1 false H1 Hb Hn Hp) as (t1 & R1 & E1 & HU & ET1 & HE).
  destruct (case_nested seen k R1 (node m1) level inarr [] t1 Hn Hp HU ET1 (object_first _ _ _ _ _ _ HB) HE R m HO) as (X & Y).
  exists ((before seen level [] ++ k ++ bs ":" ++ 10 :: t1) ++ t). eexists. splits; [|exact X|discriminate|intros _; rewrite ET; exact Y].
  rewrite ybody_cons, ytext_eq. cbv beta zeta iota. rewrite keys_new by exact Hn. rewrite E1. rewrite (before_eq seen level k), E. reflexivity.
Qed.
Lemma case_object_raise seen k l m1 r : ~ In k seen -> plainb k = true -> begins false l -> PO [] l m1 true -> PO seen (YObject k l :: r) [(k, node m1)] true.
Proof.
  intros Hn Hp Hb H1 level inarr HB.
  destruct (under_key level k seen l m1 true H1 Hb Hn Hp) as (t1 & R1 & E1 & HU & ET1 & HE).
  destruct (case_nested seen k R1 (node m1) level inarr [] t1 Hn Hp HU ET1 (object_first _ _ _ _ _ _ HB) HE [] [] (olines_nil _ _)) as (X & Y).
  exists (before seen level [] ++ k ++ bs ":" ++ 10 :: t1). eexists. splits; [|exact X|discriminate|intros _; rewrite <- Y; cbn [raw flat_map]; now rewrite app_nil_r].
  rewrite ybody_cons, ytext_eq. cbv beta zeta iota. rewrite keys_new by exact Hn. rewrite E1. rewrite (before_eq seen level k). reflexivity.
Qed.
Lemma case_array seen k l vs r m b : ~ In k seen -> plainb k = true -> PA l vs false -> PO (k :: seen) r m b -> PO seen (YArray k l :: r) ((k, seq vs) :: m) b.
Proof.
  intros Hn Hp H1 HP level inarr HB. destruct (join_rest seen k inarr level r m b HP) as (t & R & E & HO & ET).
  destruct (under_array level k seen l vs false H1 Hn Hp) as (t1 & R1 & E1 & HU & ET1 & HE).
  destruct (case_nested seen k R1 (seq vs) level inarr (spaces level) t1 Hn Hp HU ET1 (array_first _ _ _ _ _ _ HB) HE R m HO) as (X & Y).
  exists ((before seen level (spaces level) ++ k ++ bs ":" ++ 10 :: t1) ++ t). eexists. splits; [|exact X|discriminate|intros _; rewrite ET; exact Y].
  rewrite ybody_cons, ytext_eq. cbv beta zeta iota. rewrite keys_new by exact Hn. rewrite E1. rewrite (before_eq seen level k), E. reflexivity.
Qed.
Lemma case_array_raise seen k l vs r : ~ In k seen -> plainb k = true -> PA l vs true -> PO seen (YArray k l :: r) [(k, seq vs)] true.
Proof.
  intros Hn Hp H1 level inarr HB.
  destruct (under_array level k seen l vs true H1 Hn Hp) as (t1 & R1 & E1 & HU & ET1 & HE).
  destruct (case_nested seen k R1 (seq vs) level inarr (spaces level) t1 Hn Hp HU ET1 (array_first _ _ _ _ _ _ HB) HE [] [] (olines_nil _ _)) as (X & Y).
  exists (before seen level (spaces level) ++ k ++ bs ":" ++ 10 :: t1). eexists. splits; [|exact X|discriminate|intros _; rewrite <- Y; cbn [raw flat_map]; now rewrite app_nil_r].
  rewrite ybody_cons, ytext_eq. cbv beta zeta iota. rewrite keys_new by exact Hn. rewrite E1. rewrite (before_eq seen level k). reflexivity.
Qed.
Lemma case_again seen k v r m b : In k seen -> PO seen r m b -> PO seen (YWrite k v :: r) m b.
Proof.
  intros Hn HP level inarr _. destruct (HP level inarr) as (t & R & E & X); [intros ->; destruct Hn|]. exists t, R. split; [|exact X].
  rewrite ybody_cons, ytext_eq. cbv beta zeta iota. rewrite (proj2 (existsb_in k seen) Hn), E. reflexivity.
Qed.
(* arrays *)
Lemma alines_nil level : ALines level [] [].
Proof. unfold ALines. splits; [constructor|apply items_stop|reflexivity]. Qed.
Lemma rest_array key l vs b level keys : PA l vs b -> exists t R, ybody true false level (key :: keys) l = (t, b) /\ ALines level R vs /\ t = raw R.
Proof.
  intros H. destruct (H level (key :: keys)) as (t & R & E & HO & H1 & H2). exists t, R. splits; auto.
  destruct R as [|x R]; [rewrite H1 by reflexivity; reflexivity|]. apply H2. discriminate.
Qed.
Lemma unbroken_dash : unbroken (bs "- ").
Proof. now apply unbroken_b. Qed.
Lemma clean_dash c : Ends c -> unbroken c -> Clean (bs "- " ++ c).
Proof. intros He Hu. unfold Clean. splits; [exists 45, (32 :: c); splits; [reflexivity|lia|lia]|apply ends_app, He|apply unbroken_app; [exact unbroken_dash|exact Hu]]. Qed.
Lemma lead_array (keys : list (list Z)) level x : match keys with [] => [10] | _ => [] end ++ (match keys with [] => spaces level | _ => 10 :: spaces level end) ++ x = 10 :: spaces level ++ x.
Proof. destruct keys; reflexivity. Qed.
Lemma case_item k v x r vs b : Value v x -> PA r vs b -> PA (YWrite k v :: r) (x :: vs) b.
Proof.
  intros Hv HP level keys. destruct (rest_array [] r vs b level keys HP) as (t & R & E & HO & ET).
  exists ((match keys with [] => spaces level | _ => 10 :: spaces level end ++ bs "- " ++ v) ++ t), ((spaces level ++ bs "- " ++ v) :: R). splits.
  - rewrite ybody_cons, ytext_eq. cbv beta zeta iota. now rewrite E.
  - assert (C : Clean (bs "- " ++ v)) by (apply clean_dash; apply Hv). unfold ALines. splits.
    + constructor; [apply unbroken_app; [apply unbroken_spaces|apply C]|apply HO].
    + cbn [flat_map]. unfold spaces. rewrite line_clean by exact C. apply item_value; [exact Hv|apply HO].
    + discriminate.
    + exists (bs "- " ++ v). split; [unfold spaces; now rewrite line_clean|reflexivity].
  - discriminate.
  - intros _. rewrite <- app_assoc. rewrite lead_array. unfold raw. cbn [flat_map]. fold (raw R). rewrite ET. cbn [app]. rewrite <- !app_assoc. reflexivity.
Qed.
(* an object in an array *)
Lemma in_array level l m b : PO [] l m b -> begins true l -> exists t x R1, ybody false true (S level) [] l = (t, b) /\ 10 :: spaces level ++ bs "- " ++ t = raw (x :: R1) /\ Forall unbroken (x :: R1) /\
  (exists c, line_of x = [((2 * level)%nat, c)] /\ dash c = true) /\
  forall L vs, (match L with [] => True | (m', _) :: _ => m' = (2 * level)%nat end) -> ReadI (2 * level) L vs -> ReadI (2 * level) (flat_map line_of (x :: R1) ++ L) (node m :: vs).
Proof.
  intros HP Hb. destruct (HP (S level) true) as (t & R & E & (HU & HE & HR) & H1 & H2); [auto|]. destruct R as [|x R].
  - subst m. rewrite H1 in * by reflexivity. exists [], (spaces level ++ bs "- "), []. splits; [exact E|cbn [raw flat_map]; now rewrite !app_nil_r| |exists [45]; split; [apply line_dash|reflexivity]|].
    + constructor; [|constructor]. apply unbroken_app; [apply unbroken_spaces|exact unbroken_dash].
    + intros L vs HF HL. cbn [flat_map]. unfold spaces. rewrite line_dash. cbn [app node]. apply item_null; assumption.
  - destruct HR as (Hm & c0 & -> & Hc & Hd & Ho & Hk). specialize (H2 ltac:(discriminate)). unfold lead in H2. unfold raw in H2. cbn [flat_map app] in H2. injection H2 as H2.
    rewrite <- app_assoc in H2. apply app_inv_head in H2. subst t.
    assert (C : Clean (bs "- " ++ c0)) by (apply clean_dash; apply Hc). inversion HU as [|? ? HU1 HU2]; subst.
    exists (c0 ++ raw R), (spaces level ++ bs "- " ++ c0), R. splits.
    + exact E.
    + unfold raw. cbn [flat_map]. cbn [app]. rewrite <- !app_assoc. reflexivity.
    + constructor; [apply unbroken_app; [apply unbroken_spaces|apply C]|exact HU2].
    + exists (bs "- " ++ c0). split; [unfold spaces; now rewrite line_clean|reflexivity].
    + intros L vs HF HL. cbn [flat_map] in *. unfold spaces in *. rewrite line_clean in * by assumption. cbn [app] in HE |- *.
      destruct m as [|p m]; [contradiction|]. cbn [node]. apply item_block; [destruct Hc as ((d & r & -> & D & _) & _); eauto|exact Hk|exact Ho|exact HF| |exact HL].
      replace (2 * level + 2)%nat with (2 * S level)%nat by lia. apply block_map; assumption.
Qed.
Lemma case_element k l m r vs b : begins true l -> PO [] l m false -> PA r vs b -> PA (YObject k l :: r) (node m :: vs) b.
Proof.
  intros Hb H1 HP level keys. destruct (rest_array [] r vs b level keys HP) as (t & R & E & HO & ET).
  destruct (in_array level l m false H1 Hb) as (t1 & x & R1 & E1 & ET1 & HU & HX & HE).
  exists ((match keys with [] => spaces level | _ => 10 :: spaces level end ++ bs "- " ++ t1) ++ t), ((x :: R1) ++ R). splits.
  - rewrite ybody_cons, ytext_eq. cbv beta zeta iota. rewrite E1. now rewrite E.
  - unfold ALines. splits.
    + apply Forall_app. split; [exact HU|apply HO].
    + rewrite flat_map_app. apply HE; [eapply alines_follow; exact HO|apply HO].
    + cbn [app]. split; [discriminate|exact HX].
  - discriminate.
  - intros _. rewrite raw_app, <- ET1, ET, <- !app_assoc. rewrite lead_array. cbn [app]. now rewrite <- !app_assoc.
Qed.
Lemma case_element_raise k l m r : begins true l -> PO [] l m true -> PA (YObject k l :: r) [node m] true.
Proof.
  intros Hb H1 level keys. destruct (in_array level l m true H1 Hb) as (t1 & x & R1 & E1 & ET1 & HU & HX & HE).
  exists (match keys with [] => spaces level | _ => 10 :: spaces level end ++ bs "- " ++ t1), (x :: R1). splits.
  - rewrite ybody_cons, ytext_eq. cbv beta zeta iota. now rewrite E1.
  - unfold ALines. splits; [exact HU| |discriminate|exact HX]. specialize (HE [] [] Logic.I (items_stop _)). now rewrite app_nil_r in HE.
  - discriminate.
  - intros _. rewrite lead_array. exact ET1.
Qed.
Lemma writer seen l m b : Obj seen l m b -> PO seen l m b.
Proof.
  apply (Obj_mind PO PA); clear.
  - intros seen level inarr _. exists [], []. splits; [reflexivity|apply olines_nil|reflexivity|contradiction].
  - intros seen r level inarr _. exists [], []. splits; [reflexivity|apply olines_nil|reflexivity|contradiction].
  - intros. now apply case_again.
  - intros. now apply case_write.
  - intros. now apply case_object.
  - intros. now apply case_object_raise.
  - intros. now apply case_array.
  - intros. now apply case_array_raise.
  - intros level keys. exists [], []. splits; [reflexivity|apply alines_nil|reflexivity|contradiction].
  - intros r level keys. exists [], []. splits; [reflexivity|apply alines_nil|reflexivity|contradiction].
  - intros. now apply case_item.
  - intros. now apply case_element.
  - intros. now apply case_element_raise.
Qed.
(* the file *)
Lemma file_lemma l m b : Obj [] l m b -> YamlText (fst (yaml_file l)) (node m) /\ snd (yaml_file l) = b.
Proof.
  intros H. apply writer in H. destruct (H 0%nat false) as (t & R & E & (HU & HE & HR) & H1 & H2); [auto|]. unfold yaml_file. rewrite E. cbn [fst snd]. split; [|reflexivity].
  destruct R as [|x R].
  - rewrite H1 by reflexivity. subst m. exists 0%nat. intros k _. reflexivity.
  - assert (HL : text_lines t = flat_map line_of (x :: R)) by (apply raw_lines; [exact HU|discriminate|]; rewrite <- H2 by discriminate; reflexivity).
    destruct HR as (Hm & c0 & -> & Hc & Hd & _). cbn [flat_map] in *. unfold spaces in *. rewrite line_clean in * by exact Hc. cbn [app] in *.
    destruct (block_map _ _ _ _ Hd HE [] Logic.I) as (n & Hn). exists n. intros k Hk. unfold read_yaml. rewrite HL. specialize (Hn k Hk). rewrite app_nil_r in Hn. rewrite Hn.
    destruct m; [contradiction|reflexivity].
Qed.
