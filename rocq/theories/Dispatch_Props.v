(* C89: convert_file and the command line tool. *)
From Coq Require Import String.
From Verif Require Import Base Obj Markup_Spec Convert_Spec Stack_Model Stream_Model Num Geom_Model Interp_Model CMap_Model Page_Spec Extract_Model Extract_Spec Extract_Props Dispatch_Model Dispatch_Spec.
Open Scope Z_scope.
Import ListNotations.

(* ---------- paths ---------- *)
Lemma eqb_self (x : list Z) : list_eqb x x = true.
Proof. induction x as [|c r IH]; cbn; [reflexivity|]. rewrite Z.eqb_refl. exact IH. Qed.
Lemma eqb_is (x y : list Z) : list_eqb x y = true -> x = y.
Proof. revert y. induction x as [|c r IH]; intros [|d y] H; cbn in H; try discriminate; [reflexivity|]. apply andb_prop in H. destruct H as (H1 & H2). apply Z.eqb_eq in H1. subst. f_equal. exact (IH _ H2). Qed.
Lemma eqb_not (x y : list Z) : x <> y -> list_eqb x y = false.
Proof. intros H. destruct (list_eqb x y) eqn:E; [|reflexivity]. apply eqb_is in E. contradiction. Qed.
Lemma put_same fs p b : put fs p b p = Some b.
Proof. unfold put. now rewrite eqb_self. Qed.
Lemma put_other fs p b q : q <> p -> put fs p b q = fs q.
Proof. intros H. unfold put. now rewrite (eqb_not _ _ H). Qed.

Lemma split_plain n : ~ In 47 n -> split_last n = ([], n).
Proof.
  induction n as [|c r IH]; intros H; [reflexivity|]. cbn [split_last]. rewrite IH by (intros X; apply H; now right).
  destruct (Z.eqb_spec c 47) as [E|]; [exfalso; apply H; left; exact E|reflexivity].
Qed.
Lemma split_at d n : ~ In 47 n -> split_last (d ++ [47] ++ n) = (d ++ [47], n).
Proof.
  intros H. induction d as [|c r IH]; cbn [app split_last].
  - now rewrite split_plain.
  - cbn [app] in IH. rewrite IH. destruct r; reflexivity.
Qed.
Lemma split_spec p : let (h, t) := split_last p in p = h ++ t /\ ~ In 47 t /\ (h = [] \/ exists d, h = d ++ [47]).
Proof.
  induction p as [|c r IH]; cbn [split_last]; [splits; auto; intros []|]. destruct (split_last r) as [h t]. destruct IH as (E & N & H).
  destruct h as [|x h]; cbn [app] in *.
  - subst r. destruct (Z.eqb_spec c 47) as [->|Hc]; cbn [app]; splits; auto. + right. now exists []. + intros [->|X]; [now apply Hc|exact (N X)].
  - splits; [now rewrite E|exact N|]. destruct H as [H|(d & H)]; [discriminate|]. right. exists (c :: d). cbn. now rewrite H.
Qed.
Lemma slashes_end s : slashes s -> exists s', s = s' ++ [47] /\ Forall (fun c => c = 47) s'.
Proof.
  intros (Hn & Hs). destruct (exists_last Hn) as (s' & c & ->). apply Forall_app in Hs. destruct Hs as (H1 & H2). inversion H2; subst. now exists s'.
Qed.
Lemma all_slashes s : Forall (fun c => c = 47) s -> forallb (fun c => c =? 47) s = true.
Proof. induction 1 as [|c r -> _ IH]; [reflexivity|exact IH]. Qed.
Lemma drop_all s x : Forall (fun c => c = 47) s -> drop_slashes (s ++ x) = drop_slashes x.
Proof. induction 1 as [|c r -> _ IH]; [reflexivity|exact IH]. Qed.
Lemma rev_all s : Forall (fun c : Z => c = 47) s -> Forall (fun c => c = 47) (rev s).
Proof. apply Forall_rev. Qed.

Lemma folder_split d d' n : Folder d d' -> ~ In 47 n -> split_last (d ++ n) = (d, n).
Proof.
  intros HF Hn. inversion HF as [|s Hs|e c s Hc Hs]; subst.
  - cbn [app]. now apply split_plain.
  - destruct (slashes_end _ Hs) as (s' & -> & _). rewrite <- app_assoc. exact (split_at s' n Hn).
  - destruct (slashes_end _ Hs) as (s' & -> & _). replace ((e ++ [c] ++ s' ++ [47]) ++ n) with ((e ++ [c] ++ s') ++ [47] ++ n) by (rewrite <- !app_assoc; reflexivity).
    rewrite split_at by exact Hn. now rewrite <- !app_assoc.
Qed.
(* the path of a name in the folder *)
Lemma folder_join d d' n m : Folder d d' -> ~ In 47 n -> ~ In 47 m -> path_join (dirname (d ++ n)) m = d' ++ m.
Proof.
  intros HF Hn Hm. unfold dirname. rewrite (folder_split _ _ _ HF Hn). cbn [fst].
  assert (HJ : forall a, path_join a m = match rev a with [] => m | 47 :: _ => a ++ m | _ => a ++ [47] ++ m end).
  { intros a. unfold path_join. destruct m as [|c m']; [reflexivity|]. assert (c <> 47) by (intros ->; apply Hm; left; reflexivity).
    destruct c as [|p|p]; try reflexivity. do 6 (destruct p as [p|p|]; try reflexivity). contradiction. }
  inversion HF as [|s Hs|e c s Hc Hs]; subst.
  - cbn [forallb]. rewrite HJ. reflexivity.
  - destruct (slashes_end _ Hs) as (s' & -> & Hs'). rewrite all_slashes by (destruct Hs; assumption). rewrite HJ, rev_app_distr. reflexivity.
  - destruct (forallb (fun c0 => c0 =? 47) (e ++ [c] ++ s)) eqn:E.
    + rewrite forallb_app in E. apply andb_prop in E. destruct E as (_ & E). cbn [app forallb] in E. apply andb_prop in E. destruct E as (E & _). apply Z.eqb_eq in E. contradiction.
    + assert (ED : rev (drop_slashes (rev (e ++ [c] ++ s))) = e ++ [c]).
      { rewrite app_assoc, rev_app_distr, drop_all by (apply rev_all; destruct Hs; assumption). rewrite rev_app_distr. cbn [rev app drop_slashes].
        destruct (Z.eqb_spec c 47); [contradiction|]. cbn [rev]. now rewrite rev_involutive. }
      rewrite ED, HJ, rev_app_distr. cbn [rev app].
      assert (G : forall X Y : list Z, match c with 47 => X | _ => Y end = Y).
      { intros X Y. destruct c as [|p|p]; try reflexivity. do 6 (destruct p as [p|p|]; try reflexivity). contradiction. }
      rewrite G. now rewrite <- !app_assoc.
Qed.

(* ---------- the search for the type ---------- *)
Lemma at_end_spec x : at_end x = true <-> x = [] \/ x = [10].
Proof.
  split; [|intros [-> | ->]; reflexivity]. destruct x as [|c [|d r]]; cbn; [auto| |]; intros H.
  - right. destruct c as [|p|p]; try discriminate. do 4 (destruct p as [p|p|]; try discriminate). reflexivity.
  - destruct c as [|p|p]; try discriminate. do 4 (destruct p as [p|p|]; try discriminate).
Qed.
Lemma prefix_rest_spec t x r : prefix_rest t x = Some r <-> x = t ++ r.
Proof.
  revert x. induction t as [|a t IH]; intros x; cbn [prefix_rest app]. { split; [now intros [= ->]|now intros ->]. }
  destruct x as [|b x]; [split; discriminate|]. destruct (Z.eqb_spec a b) as [->|N].
  - rewrite IH. split; [now intros ->|now intros [= ->]].
  - split; [discriminate|]. intros [= E _]. now symmetry in E.
Qed.
Lemma search_spec t x : search_end t x = true <-> EndsWith t x.
Proof.
  assert (HD : forall x, match prefix_rest t x with Some r => at_end r | None => false end = true <-> x = t \/ x = t ++ [10]).
  { intros y. destruct (prefix_rest t y) as [r|] eqn:E.
    - apply prefix_rest_spec in E. subst y. rewrite at_end_spec. split.
      + intros [-> | ->]; [left; apply app_nil_r|now right].
      + intros [H|H]; [left; rewrite <- (app_nil_r t) in H at 2; now apply app_inv_head in H|right; now apply app_inv_head in H].
    - split; [discriminate|]. intros [-> | ->]; exfalso.
      + assert (X : prefix_rest t t = Some []) by (apply prefix_rest_spec; now rewrite app_nil_r). congruence.
      + assert (X : prefix_rest t (t ++ [10]) = Some [10]) by now apply prefix_rest_spec. congruence. }
  induction x as [|c r IH].
  - cbn [search_end]. rewrite orb_false_r, HD. split; [intros H; exists []; exact H|]. intros (p & [H|H]); destruct p; try discriminate; auto.
  - change (search_end t (c :: r)) with (match prefix_rest t (c :: r) with Some r0 => at_end r0 | None => false end || search_end t r).
    rewrite Bool.orb_true_iff, HD, IH. split.
    + intros [H|(p & H)]; [exists []; exact H|]. exists (c :: p). destruct H as [H|H]; subst r; [left|right]; reflexivity.
    + intros ([|d p] & H); [left; exact H|right; exists p]. destruct H as [[= -> H]|[= -> H]]; [left|right]; exact H.
Qed.

(* ---------- the extension ---------- *)
Section names.
  Context (word : Z -> bool) (W : word 46 = false /\ word 47 = false /\ word 10 = false).
  Lemma word_tail_spec x r : word_tail word x = Some r -> exists u, x = u ++ r /\ Forall (fun c => word c = true) u /\ (r = [] \/ r = [10]).
  Proof.
    revert r. induction x as [|c x IH]; intros r H; cbn [word_tail] in H. { injection H as <-. exists []. splits; auto. }
    destruct (word c) eqn:Ew.
    - destruct (IH _ H) as (u & -> & F & E). exists (c :: u). splits; auto.
    - destruct (at_end (c :: x)) eqn:Ea; [|discriminate]. injection H as <-. apply at_end_spec in Ea. exists []. splits; auto.
  Qed.
  Lemma word_tail_all u : Forall (fun c => word c = true) u -> word_tail word u = Some [].
  Proof. induction 1 as [|c r Hc _ IH]; [reflexivity|]. cbn [word_tail]. rewrite Hc. exact IH. Qed.
  (* text before the dot of the extension is passed over *)
  Lemma sub_ext_lemma repl p ext : Extension word ext -> sub_ext word repl (p ++ [46] ++ ext) = p ++ repl.
  Proof.
    intros (Hn & Hw). induction p as [|c p IH].
    - cbn [app sub_ext]. rewrite Z.eqb_refl. destruct ext as [|w ext]; [contradiction|]. inversion Hw; subst. rewrite H1, word_tail_all by assumption. apply app_nil_r.
    - change ((c :: p) ++ [46] ++ ext) with (c :: (p ++ [46] ++ ext)). cbn [sub_ext].
      destruct (c =? 46) eqn:Ec; [|now rewrite IH].
      destruct (p ++ [46] ++ ext) as [|w r] eqn:Ep; [destruct p; discriminate|].
      destruct (word w) eqn:Ew; [|now rewrite IH]. destruct (word_tail word r) as [rest|] eqn:Et; [|now rewrite IH]. exfalso.
      destruct (word_tail_spec _ _ Et) as (u & E & HF & Hr). subst r.
      assert (HI : In 46 ((w :: u) ++ rest)) by (cbn [app]; rewrite <- Ep; apply in_or_app; right; left; reflexivity).
      destruct W as (W1 & W2 & W3). apply in_app_or in HI. destruct HI as [[HI|HI]|HI].
      + subst w. congruence.
      + rewrite Forall_forall in HF. apply HF in HI. congruence.
      + destruct Hr as [-> | ->]; [destruct HI|destruct HI as [HI|[]]; discriminate].
  Qed.
  (* what has no extension is left as it is *)
  Lemma sub_ext_none repl x : (forall p ext, (x = p ++ [46] ++ ext \/ x = p ++ [46] ++ ext ++ [10]) -> ~ Extension word ext) -> sub_ext word repl x = x.
  Proof.
    induction x as [|c r IH]; intros H; [reflexivity|]. cbn [sub_ext].
    assert (IH' : sub_ext word repl r = r) by (apply IH; intros p ext E; apply (H (c :: p) ext); destruct E as [-> | ->]; [left|right]; reflexivity).
    destruct (Z.eqb_spec c 46) as [->|Hc]; [|now rewrite IH'].
    destruct r as [|w r']; [reflexivity|]. destruct (word w) eqn:Ew; [|now rewrite IH'].
    destruct (word_tail word r') as [rest|] eqn:Et; [|now rewrite IH']. exfalso. destruct (word_tail_spec _ _ Et) as (u & -> & HF & Hr).
    apply (H [] (w :: u)); [|split; [discriminate|now constructor]]. destruct Hr as [-> | ->]; [left; now rewrite app_nil_r|right; reflexivity].
  Qed.

  Context (expand : list Z -> option (list Z)) (converter : kind -> args -> (list Z -> option (list Z)) -> (list Z -> option (list Z)) * option failure).
  Lemma template_plain t : In t types -> template expand (46 :: t) = Some (46 :: t).
  Proof. intros H. repeat (destruct H as [<-|H]; [reflexivity|]). destruct H. Qed.
  Lemma types_plain t : In t types -> ~ In 47 t /\ t <> [].
  Proof. intros H. repeat (destruct H as [<-|H]; [split; [intros X; cbn in X; repeat (destruct X as [X|X]; [discriminate X|]); destruct X|discriminate]|]). destruct H. Qed.
  Lemma default_lemma input t output : In t types -> Beside word input t output -> default_output word expand input t = Some output.
  Proof.
    intros Ht (d & d' & name & ext & HF & Hn & He & -> & ->). unfold default_output. rewrite template_plain by exact Ht. f_equal.
    assert (Hw : ~ In 47 (name ++ [46] ++ ext)).
    { intros X. apply in_app_or in X. destruct X as [X|[X|X]]; [exact (Hn X)|discriminate|]. destruct He as (_ & He). rewrite Forall_forall in He. apply He in X. destruct W as (_ & W2 & _). congruence. }
    assert (Hm : ~ In 47 (name ++ 46 :: t)).
    { intros X. apply in_app_or in X. destruct X as [X|[X|X]]; [exact (Hn X)|discriminate|]. exact (proj1 (types_plain _ Ht) X). }
    replace (sub_ext word (46 :: t) (d ++ name ++ [46] ++ ext)) with (d ++ name ++ 46 :: t) by (rewrite !app_assoc; rewrite <- (app_assoc (d ++ name)); rewrite sub_ext_lemma by exact He; now rewrite <- app_assoc).
    unfold basename. rewrite (folder_split d d' (name ++ 46 :: t) HF Hm). cbn [snd]. apply (folder_join d d' _ _ HF Hw Hm).
  Qed.
  Lemma ends_beside input t output : Beside word input t output -> EndsWith t output.
  Proof. intros (d & d' & name & ext & _ & _ & _ & _ & ->). exists (d' ++ name ++ [46]). left. now rewrite <- !app_assoc. Qed.

  Notation convert_file := (convert_file word expand converter).
  (* C89. With an output file whose name ends with the type, exactly the converter for that type is run, once, on the same input,
     with the same options; *)
  Theorem C89_dispatch a output t fs : EndsWith t output ->
    convert_file a (Some output) t fs =
      match kind_of t with Some k => converter k (set_output a output) fs | None => (fs, Some FConverter) end.
  Proof. intros H. apply search_spec in H. unfold Dispatch_Model.convert_file. now rewrite H. Qed.
  (* otherwise ConverterException is raised and no file is touched *)
  Theorem C89_mismatch a output t fs : ~ EndsWith t output \/ ~ In t types ->
    convert_file a (Some output) t fs = (fs, Some FConverter).
  Proof.
    unfold Dispatch_Model.convert_file. intros [H|H].
    - destruct (search_end t output) eqn:E; [|reflexivity]. apply search_spec in E. contradiction.
    - destruct (search_end t output); [|reflexivity]. unfold kind_of.
      repeat match goal with |- context [list_eqb t ?x] => let E := fresh "E" in destruct (list_eqb t x) eqn:E; [exfalso; apply H; apply eqb_is in E; rewrite E; unfold types, In; tauto|clear E] end. reflexivity.
  Qed.
  (* the converter for each type *)
  Theorem C89_types : map kind_of types = [Some KHtml; Some KXml; Some KJson; Some KYaml; Some KYaml; Some KText].
  Proof. reflexivity. Qed.
  (* Without an output file, the output is written beside the input, with the type as its extension *)
  Theorem C89_default a output t fs : In t types -> Beside word (a_input a) t output ->
    convert_file a None t fs = convert_file a (Some output) t fs.
  Proof. intros Ht HB. unfold Dispatch_Model.convert_file. now rewrite (default_lemma _ _ _ Ht HB). Qed.
  (* An input without an extension: no output name is made up, and unless its name happens to end with the type, nothing is done *)
  Theorem C89_no_extension a t fs : In t types ->
    (forall p ext, (a_input a = p ++ [46] ++ ext \/ a_input a = p ++ [46] ++ ext ++ [10]) -> ~ Extension word ext) -> ~ EndsWith t (a_input a) ->
    convert_file a None t fs = (fs, Some FConverter).
  Proof.
    intros Ht Hx HE. unfold Dispatch_Model.convert_file, default_output. rewrite template_plain by exact Ht. rewrite sub_ext_none by exact Hx.
    set (i := a_input a) in *. destruct (search_end t (path_join (dirname i) (basename i))) eqn:E; [|reflexivity]. exfalso. apply HE.
    apply search_spec in E. destruct (types_plain _ Ht) as (Ht1 & Ht2). unfold dirname, basename in E. pose proof (split_spec i) as HS. destruct (split_last i) as [h b]. cbn [fst snd] in E.
    destruct HS as (Ei & Hb & _). rewrite Ei.
    assert (HJ : exists y, path_join (if forallb (fun c => c =? 47) h then h else rev (drop_slashes (rev h))) b = y ++ b /\ (y = [] \/ exists z, y = z ++ [47])).
    { generalize (if forallb (fun c => c =? 47) h then h else rev (drop_slashes (rev h))) as dn. intros dn.
      assert (G : path_join dn b = match rev dn with [] => b | 47 :: _ => dn ++ b | _ => dn ++ [47] ++ b end).
      { unfold path_join. destruct b as [|c m']; [reflexivity|]. assert (c <> 47) by (intros ->; apply Hb; left; reflexivity).
        destruct c as [|p|p]; try reflexivity. do 6 (destruct p as [p|p|]; try reflexivity). contradiction. }
      rewrite G. destruct (rev dn) as [|c r] eqn:Er.
      { exists []. split; [reflexivity|now left]. }
      assert (Ed : dn = rev r ++ [c]) by (rewrite <- (rev_involutive dn), Er; reflexivity).
      destruct (Z.eq_dec c 47) as [->|Hc].
      - exists dn. split; [reflexivity|]. right. now exists (rev r).
      - exists (dn ++ [47]). split; [|right; now exists dn]. rewrite <- app_assoc. destruct c as [|p|p]; try reflexivity. do 6 (destruct p as [p|p|]; try reflexivity). contradiction. }
    destruct HJ as (y & EJ & Hy). rewrite EJ in E.
    assert (HG : forall p u, y ++ b = p ++ u -> ~ In 47 u -> exists p', b = p' ++ u).
    { intros p u E1 Hu. destruct Hy as [->|(z & ->)]; [now exists p|]. rewrite <- app_assoc in E1. clear -E1 Hu. revert p E1. induction z as [|c z IH]; intros p E1.
      - destruct p as [|d p]; cbn [app] in E1; [subst u; exfalso; apply Hu; now left|]. injection E1 as _ ->. now exists p.
      - destruct p as [|d p]; [cbn [app] in E1; subst u; exfalso; apply Hu; right; apply in_or_app; right; now left|]. injection E1 as _ E1. exact (IH p E1). }
    destruct E as (p & [E|E]).
    - destruct (HG _ _ E Ht1) as (p' & ->). exists (h ++ p'). left. now rewrite app_assoc.
    - destruct (HG _ _ E) as (p' & ->); [|exists (h ++ p'); right; now rewrite app_assoc]. intros X. apply in_app_or in X. destruct X as [X|[X|[]]]; [exact (Ht1 X)|discriminate].
  Qed.

  (* ---------- the command line tool ---------- *)
  (* one file, no output file: the file is converted to HTML, whatever type is asked for, with the given options; pages are counted
     from 1 *)
  Theorem C89_cli_partial p input output fs : p_files p = [input] -> p_output p = bs "-" -> Beside word input (bs "html") output ->
    cli_main word expand converter p fs =
      let (fs', r) := converter KHtml (mkArgs input output None (p_codec p) (p_maxpages p) (p_password p) (negb (p_nocache p)) true
        (option_map (map (fun n => n - 1)) (p_pagenos p)) false false 30) fs in (fs', match r with None => inl 0 | Some f => inr f end).
  Proof.
    intros Hf Ho HB. unfold cli_main. rewrite Hf, Ho. unfold cli_type. rewrite Ho.
    replace (list_eqb (bs "-") (bs "-")) with true by reflexivity. rewrite andb_false_r. cbn [negb].
    assert (Hh : In (bs "html") types) by now left.
    rewrite (C89_default _ output (bs "html")) by (try exact Hh; exact HB). rewrite C89_dispatch by (eapply ends_beside; exact HB).
    replace (kind_of (bs "html")) with (Some KHtml) by reflexivity. unfold set_output. cbn [a_input a_images a_codec a_maxpages a_password a_caching a_check a_pagenos a_noimages a_ignore a_debug].
    unfold option_map. destruct (converter _ _ fs) as [fs' [f|]]; reflexivity.
  Qed.
  (* The option for the output file does not work: the file is emptied, nothing is converted, and TypeError comes out *)
  Theorem C89_cli_output_refuted p input fs : p_files p = [input] -> p_output p <> bs "-" ->
    cli_main word expand converter p fs = (put fs (p_output p) [], inr FType).
  Proof. intros Hf Ho. unfold cli_main. rewrite Hf. now rewrite (eqb_not _ _ Ho). Qed.
  (* several files: nothing is done *)
  Theorem C89_cli_several p fs : length (p_files p) <> 1%nat -> cli_main word expand converter p fs = (fs, inl 1).
  Proof. intros H. unfold cli_main. destruct (p_files p) as [|x [|y l]]; [reflexivity|exfalso; now apply H|reflexivity]. Qed.
End names.

(* ---------- text, end to end ---------- *)
Section text.
  Context (word : Z -> bool) (W : word 46 = false /\ word 47 = false /\ word 10 = false) (expand : list Z -> option (list Z)).
  Context (zlib : list Z -> option (list Z)) (ccitt : list Z -> obj -> res (list Z)).
  Context (md5 sha256 : list Z -> list Z) (aes : list Z -> list Z -> list Z -> res (list Z)).
  Context (glyphs : list Z -> option (list Z)) (bases : list umap) (metrics : list Z -> option (list (obj * obj) * list (list Z * num)))
          (load_cmap : list Z -> option (bool * list (Z * trie))) (load_umap : list Z -> bool -> option umap).
  Context (bufsize : nat) (Hb : (0 < bufsize)%nat).
  Notation to_text := (to_text zlib ccitt md5 sha256 aes glyphs bases metrics load_cmap load_umap bufsize).
  (* any converters for the other types *)
  Definition with_text (others : kind -> args -> (list Z -> option (list Z)) -> (list Z -> option (list Z)) * option failure) (F f : nat) (k : kind) :=
    match k with KText => to_text F f | _ => others k end.
  Notation convert F f others := (convert_file word expand (with_text others F f)).
  (* a conversion to text touches no file but the output file *)
  Theorem C89_others_kept others F f a output fs : SameBut output fs (fst (convert F f others a (Some output) (bs "text") fs)).
  Proof.
    intros q Hq. unfold convert_file. destruct (search_end (bs "text") output); [|reflexivity].
    replace (kind_of (bs "text")) with (Some KText) by reflexivity. cbn [with_text]. unfold Dispatch_Model.to_text, set_output. cbn [a_output a_input].
    destruct (put fs output [] (a_input a)); cbn [fst]; [|now apply put_other].
    destruct (extract _ _ _ _ _ _ _ _ _ _ _ _ _ _ _ _ _ _ _) as [w ex]. cbn [fst]. rewrite put_other by exact Hq. now apply put_other.
  Qed.
  (* C89 for text: a file with an extension that is a document whose chosen pages show certain texts is converted: the file beside it
     with the extension text holds, in UTF-8, the title of each page and its text, and every other file is as it was *)
  Theorem C89_text_file_partial others a output fs data getobj texts :
    Beside word (a_input a) (bs "text") output -> output <> a_input a -> fs (a_input a) = Some data ->
    FileShows zlib ccitt glyphs bases metrics load_cmap load_umap getobj (stored_data zlib ccitt) data (match a_pagenos a with Some l => l | None => [] end) (a_maxpages a) (a_ignore a) texts ->
    Forall (Forall (Forall Markup_Spec.scalar)) texts ->
    exists n1, forall F, (n1 <= F)%nat -> exists n2, forall f, (n2 <= f)%nat -> exists fs' bytes x,
      convert F f others a None (bs "text") fs = (fs', None) /\ fs' output = Some bytes /\ SameBut output fs fs' /\
      utf8_decode bytes = Some x /\ DocText 0 texts x.
  Proof.
    intros HB Hne HD HS HSc. assert (Ht : In (bs "text") types) by (cbn; tauto).
    destruct (C87_text_file_partial zlib ccitt md5 sha256 aes glyphs bases metrics load_cmap load_umap (mkEnv data bufsize false (fun o => o)) (a_caching a) (a_check a)
      (match a_password a with Some p => p | None => [] end) _ _ _ getobj texts Hb (fun o _ => eq_refl) HS HSc) as (n1 & H1).
    exists n1. intros F HF. destruct (H1 F HF) as (n2 & H2). exists n2. intros f Hf. destruct (H2 f Hf) as (bytes & x & E & X1 & X2).
    rewrite (C89_default word W expand _ a output _ _ Ht HB).
    exists (fst (convert F f others a (Some output) (bs "text") fs)), bytes, x. splits; [| |apply C89_others_kept|exact X1|exact X2].
    all: rewrite C89_dispatch by (eapply ends_beside; exact HB); replace (kind_of (bs "text")) with (Some KText) by reflexivity; cbn [with_text];
      unfold Dispatch_Model.to_text; destruct a as [ai ao aim ac am ap aca ach apn an aig ad]; unfold set_output; cbn [a_input a_output a_images a_codec a_maxpages a_password a_caching a_check a_pagenos a_noimages a_ignore a_debug] in *;
      rewrite (put_other fs output [] ai) by (intros X; apply Hne; now symmetry); rewrite HD, E; cbn [fst snd].
    - reflexivity.
    - apply put_same.
  Qed.
  (* an input that is not there: FileNotFoundError, but the output file has been made, or emptied *)
  Theorem C89_missing_input others F f a output fs : EndsWith (bs "text") output -> output <> a_input a -> fs (a_input a) = None ->
    convert F f others a (Some output) (bs "text") fs = (put fs output [], Some FNotFound).
  Proof.
    intros HE Hne HD. rewrite C89_dispatch by exact HE. replace (kind_of (bs "text")) with (Some KText) by reflexivity. cbn [with_text]. unfold Dispatch_Model.to_text.
    unfold set_output. cbn [a_output a_input]. rewrite put_other by (intros X; apply Hne; now symmetry). now rewrite HD.
  Qed.
  (* An input whose name ends with the type: the default output is the input itself, which is emptied before it is read: what is left
     does not depend on what it held *)
  Theorem C89_input_kept_refuted others F f a d name fs1 fs2 : Folder d d -> ~ In 47 name -> word 116 = true -> word 101 = true -> word 120 = true -> a_input a = d ++ name ++ bs ".text" ->
    SameBut (a_input a) fs1 fs2 ->
    fst (convert F f others a None (bs "text") fs1) (a_input a) = fst (convert F f others a None (bs "text") fs2) (a_input a).
  Proof.
    intros HF Hn Ht He Hx Ea HSB. assert (HT : In (bs "text") types) by (cbn; tauto).
    assert (HB : Beside word (a_input a) (bs "text") (a_input a)).
    { exists d, d, name, (bs "text"). splits; auto. split; [discriminate|]. repeat constructor; assumption. }
    rewrite !(C89_default word W expand _ a (a_input a) _ _ HT HB). rewrite !C89_dispatch by (eapply ends_beside; exact HB). replace (kind_of (bs "text")) with (Some KText) by reflexivity. cbn [with_text]. unfold Dispatch_Model.to_text.
    unfold set_output. cbn [a_output a_input]. rewrite !put_same. destruct (extract _ _ _ _ _ _ _ _ _ _ _ _ _ _ _ _ _ _ _) as [w ex]. cbn [fst]. now rewrite !put_same.
  Qed.
End text.
