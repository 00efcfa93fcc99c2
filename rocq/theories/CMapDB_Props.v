(* C109: predefined CMaps come from their directories, and the caches do not change the answers. *)
From Coq Require Import String.
From Verif Require Import Base Obj CMap_Model Font_Model Image_Model Image_Props CMapDB_Model CMapDB_Spec.
Open Scope Z_scope.
Import ListNotations.

Lemma list_eqb_neq a b : list_eqb a b = false -> a <> b.
Proof. intros E H. subst. rewrite list_eqb_refl in E. discriminate. Qed.
Lemma no_nul n : ~ In 0 n -> filter (fun c => negb (c =? 0)) n = n.
Proof.
  induction n as [|c n IH]; intros H; [reflexivity|]. cbn [filter]. replace (c =? 0) with false by (symmetry; apply Z.eqb_neq; intros ->; apply H; left; reflexivity).
  cbn [negb]. f_equal. apply IH. intros X. apply H. right. exact X.
Qed.
Lemma join_in d n : d <> [] -> n <> [] -> hd 0 n <> 47 -> In_dir d n (path_join d n).
Proof.
  intros Hd Hn H. unfold path_join. destruct (hd 0 n =? 47) eqn:E; [lia|]. destruct d as [|c d]; [contradiction|]. destruct (last (c :: d) 0 =? 47) eqn:L.
  - apply (id_slash _ _ (removelast (c :: d))). apply Z.eqb_eq in L. rewrite <- L. apply app_removelast_last. discriminate.
  - apply id_none; [discriminate|apply Z.eqb_neq, L].
Qed.
Lemma find_cons {A} (n m : list Z) (a : A) l : find_name n ((m, a) :: l) = if list_eqb m n then Some a else find_name n l.
Proof. reflexivity. Qed.

Section main.
  Context {U : Type} (env here : list Z).
  Notation ask := (ask (U := U) env here).
  Notation asks := (asks (U := U) env here).
  Notation load_data := (load_data (U := U) env here).
  Lemma tries (d : disk U) n dirs : Forall (fun x => x <> []) dirs -> n <> [] -> hd 0 n <> 47 ->
    exists o, Search d n dirs o (snd (try_paths d n dirs)) /\ fst (try_paths d n dirs) = match o with Some m => m | None => Err CMapNotFound end.
  Proof.
    intros HF Hn Hh. induction HF as [|dir dirs Hd _ (o & IH1 & IH2)].
    - exists None. split; [constructor|reflexivity].
    - cbn [try_paths]. cbv zeta. pose proof (join_in dir n Hd Hn Hh) as HJ. destruct (d (path_join dir n)) as [m|] eqn:E.
      + exists (Some m). split; [eapply se_here; eassumption|reflexivity].
      + exists o. split; [eapply se_next; eassumption|exact IH2].
  Qed.
  Hypothesis (Henv : env <> []) (Hhere : here <> []).
  Lemma dirs_full : Forall (fun x : list Z => x <> []) (cmap_paths env here).
  Proof.
    repeat constructor; [exact Henv|]. unfold path_join. destruct here as [|c h]; [contradiction|]. destruct (hd 0 (bs "cmap") =? 47); [discriminate|].
    destruct (last (c :: h) 0 =? 47); discriminate.
  Qed.
  Lemma loads (d : disk U) pre n : component n -> ~ In 0 pre -> hd 0 (pre ++ n ++ bs ".pickle.gz") <> 47 ->
    exists o, Search d (pre ++ n ++ bs ".pickle.gz") (cmap_paths env here) o (snd (load_data d (pre ++ n))) /\ fst (load_data d (pre ++ n)) = match o with Some m => m | None => Err CMapNotFound end.
  Proof.
    intros [_ H0] Hp Hh. unfold CMapDB_Model.load_data. rewrite no_nul by (intros X; apply in_app_or in X; tauto). rewrite <- app_assoc.
    apply tries; [apply dirs_full| |exact Hh]. destruct pre; destruct n; discriminate.
  Qed.
  Lemma head_ok n : component n -> hd 0 (n ++ bs ".pickle.gz") <> 47.
  Proof. intros [H _]. destruct n as [|c n]; [discriminate|]. cbn [app hd]. intros ->. apply H. left. reflexivity. Qed.
  Lemma py_cmap_holds (m : module U) : Holds_cmap (Ok m) (py_cmap m).
  Proof. destruct m as [[c|] [v|] h w]; cbn; first [apply hc_ok|apply hc_partial; cbn; tauto]. Qed.
  (* C109. A name that is one component of a path, asked for first: the two Identity maps open nothing; any other is read from the file of
     that name in the first of the two directories that has it, and if none has it, nothing is opened and CMapNotFound is raised. *)
  Theorem C109_search (d : disk U) q : component (query_name q) ->
    exists pkg a o s, In_dir here (bs "cmap") pkg /\ ask d empty q = (a, o, s) /\ Answers [env; pkg] d q a o.
  Proof.
    intros HC. exists (path_join here (bs "cmap")). destruct (ask d empty q) as [[a o] s] eqn:E. exists a, o, s. splits; [apply join_in; [exact Hhere|discriminate|discriminate]|reflexivity|].
    destruct q as [n|n v]; cbn [query_name CMapDB_Model.ask] in *.
    - unfold db_cmap in E. destruct (list_eqb n (bs "Identity-H")) eqn:EH; [apply list_eqb_eq in EH; subst; injection E as <- <- _; apply an_h|].
      destruct (list_eqb n (bs "Identity-V")) eqn:EV; [apply list_eqb_eq in EV; subst; injection E as <- <- _; apply an_v|].
      cbn [empty c_cmaps find_name] in E. destruct (loads d [] n HC ltac:(intros []) (head_ok n HC)) as (r & HS & HR). cbn [app] in HS, HR.
      destruct (load_data d n) as [m op]. cbn [fst snd] in *.
      assert (X : (ACMap (bind m py_cmap), op) = (a, o)) by (destruct (bind m py_cmap); injection E as <- <- _; reflexivity). injection X as <- <-.
      apply list_eqb_neq in EH, EV. destruct r as [r|]; subst m; [|apply an_none; assumption].
      eapply an_cmap; [exact EH|exact EV|exact HS|]. destruct r as [m|e]; [apply py_cmap_holds|apply hc_err].
    - unfold db_umap in E. cbn [empty c_umaps find_name] in E. destruct (loads d (bs "to-unicode-") n HC) as (r & HS & HR); [cbn; intuition discriminate|discriminate|].
      destruct (load_data d (bs "to-unicode-" ++ n)) as [m op]. cbn [fst snd] in *. destruct r as [r|]; subst m.
      + destruct r as [[c x [h|] [w|]]|e]; cbn [bind py_umap m_h m_v] in E; injection E as <- <- _; (eapply an_umap; [exact HS|]); first [apply hu_ok|apply hu_partial; cbn; tauto|apply hu_err].
      + cbn [bind] in E. injection E as <- <- _. apply an_unone. exact HS.
  Qed.

  (* ---------- the caches ---------- *)
  (* what is kept is what the disk gives *)
  Definition Kept_by (d : disk U) (s : cache U) : Prop :=
    (forall n c, find_name n (c_cmaps s) = Some c -> bind (fst (load_data d n)) py_cmap = Ok c) /\
    (forall n p, find_name n (c_umaps s) = Some p -> (do x <- fst (load_data d (bs "to-unicode-" ++ n)); do h <- py_umap x false; do v <- py_umap x true; Ok (h, v)) = Ok p).
  Lemma kept_empty d : Kept_by d empty.
  Proof. split; intros ? ? H; discriminate H. Qed.
  Lemma ask_kept d s q a o s' : Kept_by d s -> ask d s q = (a, o, s') -> Kept_by d s' /\ exists o0 s0, ask d empty q = (a, o0, s0) /\ (o = o0 \/ o = []).
  Proof.
    intros [K1 K2] E. destruct q as [n|n v]; cbn [CMapDB_Model.ask] in *.
    - unfold db_cmap in *. destruct (list_eqb n (bs "Identity-H")); [injection E as <- <- <-; split; [split; assumption|eauto 6]|].
      destruct (list_eqb n (bs "Identity-V")); [injection E as <- <- <-; split; [split; assumption|eauto 6]|]. cbn [empty c_cmaps find_name].
      destruct (find_name n (c_cmaps s)) as [c|] eqn:F.
      + injection E as <- <- <-. split; [split; assumption|]. specialize (K1 n c F). destruct (load_data d n) as [m op]. cbn [fst] in K1. rewrite K1. eauto 6.
      + destruct (load_data d n) as [m op] eqn:L. destruct (bind m py_cmap) as [c|e] eqn:B; injection E as <- <- <-; (split; [|eauto 6]); [|split; assumption].
        split; [|exact K2]. intros n' c'. cbn [c_cmaps]. rewrite find_cons. destruct (list_eqb n n') eqn:En; [|apply K1]. apply list_eqb_eq in En. subst n'. intros [= <-]. rewrite L. exact B.
    - unfold db_umap in *. cbn [empty c_umaps find_name]. destruct (find_name n (c_umaps s)) as [[h w]|] eqn:F.
      + injection E as <- <- <-. split; [split; assumption|]. specialize (K2 n (h, w) F). destruct (load_data d (bs "to-unicode-" ++ n)) as [m op]. cbn [fst] in K2. rewrite K2. eauto 6.
      + destruct (load_data d (bs "to-unicode-" ++ n)) as [m op] eqn:L. destruct (do x <- m; _) as [[h w]|e] eqn:B; injection E as <- <- <-; (split; [|eauto 6]); [|split; assumption].
        split; [exact K1|]. intros n' c'. cbn [c_umaps]. rewrite find_cons. destruct (list_eqb n n') eqn:En; [|apply K2]. apply list_eqb_eq in En. subst n'. intros [= <-]. rewrite L. exact B.
  Qed.
  (* While the files stay what they are, the answer to a query is the same whatever was asked before; only fewer files are opened *)
  Theorem C109_history (d : disk U) l : forall k q, nth_error l k = Some q -> exists a o, nth_error (fst (asks empty (map (pair d) l))) k = Some (a, o) /\
    exists o0 s0, ask d empty q = (a, o0, s0) /\ (o = o0 \/ o = []).
  Proof.
    assert (G : forall s, Kept_by d s -> forall k q, nth_error l k = Some q -> exists a o, nth_error (fst (asks s (map (pair d) l))) k = Some (a, o) /\
      exists o0 s0, ask d empty q = (a, o0, s0) /\ (o = o0 \/ o = [])); [|apply G, kept_empty].
    induction l as [|x l IH]; intros s HK k q Hk; [destruct k; discriminate|]. cbn [map CMapDB_Model.asks]. destruct (ask d s x) as [[a o] s1] eqn:E.
    destruct (ask_kept d s x a o s1 HK E) as (HK1 & H0). specialize (IH s1 HK1). destruct (asks s1 (map (pair d) l)) as [rest s2]. cbn [fst] in *. destruct k as [|k].
    - injection Hk as <-. exists a, o. split; [reflexivity|exact H0].
    - apply IH, Hk.
  Qed.
  (* what is in the caches stays *)
  Definition Grows (s s' : cache U) : Prop := (forall n c, find_name n (c_cmaps s) = Some c -> find_name n (c_cmaps s') = Some c) /\ (forall n p, find_name n (c_umaps s) = Some p -> find_name n (c_umaps s') = Some p).
  Lemma ask_grows d s q a o s' : ask d s q = (a, o, s') -> Grows s s'.
  Proof.
    intros E. destruct q as [n|n v]; cbn [CMapDB_Model.ask] in *.
    - unfold db_cmap in *. destruct (list_eqb n (bs "Identity-H")); [injection E as _ _ <-; split; auto|]. destruct (list_eqb n (bs "Identity-V")); [injection E as _ _ <-; split; auto|].
      destruct (find_name n (c_cmaps s)) as [c|] eqn:F; [injection E as _ _ <-; split; auto|]. destruct (load_data d n) as [m op].
      destruct (bind m py_cmap); injection E as _ _ <-; split; auto. intros n' c' H. cbn [c_cmaps]. rewrite find_cons. destruct (list_eqb n n') eqn:En; [|exact H]. apply list_eqb_eq in En. congruence.
    - unfold db_umap in *. destruct (find_name n (c_umaps s)) as [[h w]|] eqn:F; [injection E as _ _ <-; split; auto|]. destruct (load_data d (bs "to-unicode-" ++ n)) as [m op].
      destruct (do x <- m; _) as [[h w]|e]; injection E as _ _ <-; split; auto. intros n' c' H. cbn [c_umaps]. rewrite find_cons. destruct (list_eqb n n') eqn:En; [|exact H]. apply list_eqb_eq in En. congruence.
  Qed.
  Definition answered (s : cache U) (q : query) (a : answer U) : Prop := succeeds a /\ forall d, ask d s q = (a, [], s).
  Lemma grown_answered s s' q a : Grows s s' -> answered s q a -> answered s' q a.
  Proof.
    intros [G1 G2] [HS HA]. split; [exact HS|]. intros d'. specialize (HA (fun _ => None)). destruct q as [n|n v]; cbn [CMapDB_Model.ask] in *.
    - unfold db_cmap in *. destruct (list_eqb n (bs "Identity-H")); [injection HA as <-; reflexivity|]. destruct (list_eqb n (bs "Identity-V")); [injection HA as <-; reflexivity|].
      destruct (find_name n (c_cmaps s)) as [c|] eqn:F; [injection HA as <-; rewrite (G1 _ _ F); reflexivity|]. cbn in HA. injection HA as <-. destruct HS.
    - unfold db_umap in *. destruct (find_name n (c_umaps s)) as [[h w]|] eqn:F; [injection HA as <-; rewrite (G2 _ _ F); reflexivity|]. cbn in HA. injection HA as <-. destruct HS.
  Qed.
  Lemma ask_answered d s q a o s' : ask d s q = (a, o, s') -> succeeds a -> answered s' q a.
  Proof.
    intros E HS. split; [exact HS|]. intros d'. destruct q as [n|n v]; cbn [CMapDB_Model.ask] in *.
    - unfold db_cmap in *. destruct (list_eqb n (bs "Identity-H")); [injection E as <- _ <-; reflexivity|]. destruct (list_eqb n (bs "Identity-V")); [injection E as <- _ <-; reflexivity|].
      destruct (find_name n (c_cmaps s)) as [c|] eqn:F; [injection E as <- _ <-; rewrite F; reflexivity|]. destruct (load_data d n) as [m op].
      destruct (bind m py_cmap); injection E as <- _ <-; [|destruct HS]. cbn [c_cmaps]. rewrite find_cons, list_eqb_refl. reflexivity.
    - unfold db_umap in *. destruct (find_name n (c_umaps s)) as [[h w]|] eqn:F; [injection E as <- _ <-; rewrite F; reflexivity|]. destruct (load_data d (bs "to-unicode-" ++ n)) as [m op].
      destruct (do x <- m; _) as [[h w]|e]; injection E as <- _ <-; [|destruct HS]. cbn [c_umaps]. rewrite find_cons, list_eqb_refl. reflexivity.
  Qed.
  Lemma asks_answered l : forall s q a, answered s q a -> forall k d o b, nth_error l k = Some (d, q) -> nth_error (fst (asks s l)) k = Some (b, o) -> b = a /\ o = [].
  Proof.
    induction l as [|[d0 q0] l IH]; intros s q a HA k d o b Hk Hn; [destruct k; discriminate|]. cbn [CMapDB_Model.asks] in Hn. destruct (ask d0 s q0) as [[a0 o0] s1] eqn:E.
    pose proof (grown_answered _ _ _ _ (ask_grows _ _ _ _ _ _ E) HA) as HA1. specialize (IH s1 q a HA1). destruct (asks s1 l) as [rest s2]. cbn [fst] in *. destruct k as [|k].
    - injection Hk as -> ->. destruct HA as [_ HA]. rewrite HA in E. injection E as <- <- _. injection Hn as <- <-. split; reflexivity.
    - eapply IH; eassumption.
  Qed.
  (* And whatever happens to the files in between: a query that was once answered is answered in the same way ever after, without opening a file *)
  Theorem C109_kept l : forall s j k dj dk q a oj b ok, (j < k)%nat -> nth_error l j = Some (dj, q) -> nth_error l k = Some (dk, q) ->
    nth_error (fst (asks s l)) j = Some (a, oj) -> succeeds a -> nth_error (fst (asks s l)) k = Some (b, ok) -> b = a /\ ok = [].
  Proof.
    induction l as [|[d0 q0] l IH]; intros s j k dj dk q a oj b ok Hlt Hj Hk Ha HS Hb; [destruct j; discriminate|]. cbn [CMapDB_Model.asks] in Ha, Hb. destruct (ask d0 s q0) as [[a0 o0] s1] eqn:E.
    specialize (IH s1). pose proof (asks_answered l s1) as HA. destruct (asks s1 l) as [rest s2]. cbn [fst] in *. destruct k as [|k]; [lia|]. destruct j as [|j].
    - injection Hj as -> ->. injection Ha as -> ->. eapply HA; [eapply ask_answered; eassumption|exact Hk|exact Hb].
    - eapply (IH j k); try eassumption. lia.
  Qed.
  (* Refuted: that names lead nowhere else.  A name is not checked: with one that begins with a slash any file of the system whose name ends with
     .pickle.gz is opened and read as a pickle - and the name is that of the Encoding of a font in the PDF file. *)
  Theorem C109_outside_refuted (d : disk U) name m : hd 0 name = 47 -> ~ In 0 name -> d (name ++ bs ".pickle.gz") = Some m ->
    exists r s, ask d empty (QCMap name) = (ACMap r, [name ++ bs ".pickle.gz"], s) /\ Holds_cmap m r.
  Proof.
    intros H1 H0 Hd. cbn [CMapDB_Model.ask]. unfold db_cmap. cbn [empty c_cmaps find_name].
    assert (EH : forall x, hd 0 x <> 47 -> list_eqb name x = false) by (intros x Hx; destruct (list_eqb name x) eqn:E; [apply list_eqb_eq in E; subst; contradiction|reflexivity]).
    rewrite !EH by discriminate. unfold CMapDB_Model.load_data. rewrite no_nul by exact H0. cbn [cmap_paths try_paths]. cbv zeta.
    assert (EJ : path_join env (name ++ bs ".pickle.gz") = name ++ bs ".pickle.gz") by (unfold path_join; destruct name as [|c n]; [discriminate H1|]; cbn [hd app] in *; rewrite H1; reflexivity).
    rewrite EJ, Hd. exists (bind m py_cmap). destruct (bind m py_cmap) eqn:B; eexists; (split; [reflexivity|]); rewrite <- B; (destruct m as [m|?]; [apply py_cmap_holds|apply hc_err]).
  Qed.
  (* a name that goes up leaves the directory *)
  Theorem C109_climb_refuted (d : disk U) dir rest m : env = dir ++ [47] -> ~ In 0 rest -> d (env ++ bs "../" ++ rest ++ bs ".pickle.gz") = Some m ->
    exists r s, ask d empty (QCMap (bs "../" ++ rest)) = (ACMap r, [env ++ bs "../" ++ rest ++ bs ".pickle.gz"], s) /\ Holds_cmap m r.
  Proof.
    intros HE H0 Hd. cbn [CMapDB_Model.ask]. unfold db_cmap. cbn [empty c_cmaps find_name]. change (list_eqb (bs "../" ++ rest) (bs "Identity-H")) with false. change (list_eqb (bs "../" ++ rest) (bs "Identity-V")) with false. cbv iota.
    unfold CMapDB_Model.load_data. rewrite no_nul by (intros X; apply in_app_or in X; destruct X as [X|X]; [cbn in X; intuition discriminate|contradiction]). rewrite <- app_assoc. cbn [cmap_paths try_paths]. cbv zeta.
    assert (EJ : path_join env (bs "../" ++ rest ++ bs ".pickle.gz") = env ++ bs "../" ++ rest ++ bs ".pickle.gz").
    { unfold path_join. change (hd 0 (bs "../" ++ rest ++ bs ".pickle.gz") =? 47) with false. cbv iota. destruct env as [|c e] eqn:Ee; [contradiction|].
      replace (last (c :: e) 0) with 47 by (rewrite HE, last_last; reflexivity). reflexivity. }
    rewrite EJ, Hd. exists (bind m py_cmap). destruct (bind m py_cmap) eqn:B; eexists; (split; [reflexivity|]); rewrite <- B; (destruct m as [m|?]; [apply py_cmap_holds|apply hc_err]).
  Qed.
End main.

(* The model of fonts reads CMaps without the caches (Font_Model.get_cmap, with the map from names to CMaps): in any history of lookups, with files that are
   complete, the font gets the CMap of its model. *)
Lemma filter_twice n : filter (fun c => negb (c =? 0)) (filter (fun c => negb (c =? 0)) n) = filter (fun c => negb (c =? 0)) n.
Proof. induction n as [|c n IH]; [reflexivity|]. cbn [filter]. destruct (c =? 0) eqn:E; cbn [negb filter]; [exact IH|]. rewrite E. cbn [negb]. f_equal. exact IH. Qed.
Definition on_disk {U} env here (d : disk U) (n : list Z) : option (bool * list (Z * trie)) :=
  match fst (load_data env here d n) with Ok (mkModule (Some c) (Some v) _ _) => Some (v, c) | _ => None end.
Theorem C109_font {U} env here (d : disk U) l k n : (forall p r, d p = Some r -> exists c v h w, r = Ok (mkModule (Some c) (Some v) h w)) -> nth_error l k = Some (QCMap n) ->
  exists o, nth_error (fst (asks env here empty (map (pair d) l))) k = Some (ACMap (get_cmap (on_disk env here d) (OName n)), o).
Proof.
  intros HD Hk. destruct (C109_history env here d l k _ Hk) as (a & o & H & o0 & s0 & E & _). exists o. rewrite H. do 2 f_equal.
  cbn [ask] in E. unfold db_cmap in E. unfold get_cmap. destruct (list_eqb n (bs "Identity-H")); [injection E as <- _ _; reflexivity|]. destruct (list_eqb n (bs "Identity-V")); [injection E as <- _ _; reflexivity|].
  cbn [empty c_cmaps find_name] in E.
  assert (EL : on_disk env here d (filter (fun c => negb (c =? 0)) n) = on_disk env here d n) by (unfold on_disk, load_data; rewrite filter_twice; reflexivity). rewrite EL. unfold on_disk.
  assert (T : fst (load_data env here d n) = Err CMapNotFound \/ exists c v h w, fst (load_data env here d n) = Ok (mkModule (Some c) (Some v) h w)).
  { unfold load_data, cmap_paths. cbn [try_paths]. cbv zeta. destruct (d _) as [r|] eqn:E1; [right; exact (HD _ _ E1)|]. destruct (d (path_join (path_join here (bs "cmap")) _)) as [r|] eqn:E2; [right; exact (HD _ _ E2)|left; reflexivity]. }
  destruct (load_data env here d n) as [m op]. cbn [fst] in *. destruct T as [->|(c & v & h & w & ->)]; cbn [bind py_cmap m_codes m_vertical] in *; injection E as <- _ _; reflexivity.
Qed.

(* concrete cases *)
Definition disk0 : disk (list Z) := fun p =>
  if list_eqb p (bs "/usr/share/pdfminer/H.pickle.gz") then Some (Ok (mkModule (Some [(1, Leaf 2)]) (Some false) None None))
  else if list_eqb p (bs "/lib/cmapdb/cmap/V.pickle.gz") then Some (Ok (mkModule (Some []) (Some true) None None))
  else if list_eqb p (bs "/lib/cmapdb/cmap/to-unicode-Adobe-Japan1.pickle.gz") then Some (Ok (mkModule None None (Some (bs "h")) (Some (bs "v"))))
  else if list_eqb p (bs "/tmp/evil.pickle.gz") then Some (Ok (mkModule (Some []) (Some false) None None)) else None.
Definition here0 : list Z := bs "/lib/cmapdb".
Definition env0 : list Z := bs "/usr/share/pdfminer/".
Example C109_hypotheses :
  env0 <> [] /\ here0 <> [] /\ component (bs "V") /\
  fst (asks env0 here0 empty (map (pair disk0) [QCMap (bs "H"); QCMap (bs "V"); QCMap (bs "H"); QUMap (bs "Adobe-Japan1") true; QUMap (bs "Adobe-Japan1") false; QCMap (bs "X"); QCMap (bs "/tmp/evil")])) =
    [(ACMap (Ok (CTable false [(1, Leaf 2)])), [bs "/usr/share/pdfminer/H.pickle.gz"]); (ACMap (Ok (CTable true [])), [bs "/lib/cmapdb/cmap/V.pickle.gz"]);
     (ACMap (Ok (CTable false [(1, Leaf 2)])), []); (AUMap (Ok (bs "v")), [bs "/lib/cmapdb/cmap/to-unicode-Adobe-Japan1.pickle.gz"]); (AUMap (Ok (bs "h")), []);
     (ACMap (Err CMapNotFound), []); (ACMap (Ok (CTable false [])), [bs "/tmp/evil.pickle.gz"])].
Proof. splits; [discriminate|discriminate|split; cbn; intuition discriminate|vm_compute; reflexivity]. Qed.
