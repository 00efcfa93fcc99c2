From Coq Require Import String ZifyBool ZifyNat.
From Verif Require Import Base Obj Stream_Model Num Geom_Model Page_Model Interp_Model Interp_Spec.
From Coq Require Import Qcanon.
Open Scope Z_scope.

(* ---------- names of commands ---------- *)
Definition op_eq (a b : op) : {a = b} + {a <> b}.
Proof. decide equality. Defined.

Fixpoint preimages (m : list Z) : list (list Z) :=
  match m with
  | [] => [[]]
  | c :: r =>
      (if (c =? 42) || (c =? 34) || (c =? 39) then [] else map (cons c) (preimages r)) ++
      match r with
      | d :: r' => if c =? 95 then (if d =? 97 then map (cons 42) (preimages r') else []) ++
                                   (if d =? 119 then map (cons 34) (preimages r') else []) ++
                                   (if d =? 113 then map (cons 39) (preimages r') else []) else []
      | [] => []
      end
  end.
Lemma mangle_cons c k : mangle (c :: k) =
  (if c =? 42 then bs "_a" else if c =? 34 then bs "_w" else if c =? 39 then bs "_q" else [c]) ++ mangle k.
Proof. reflexivity. Qed.
Lemma in_preimages k : In k (preimages (mangle k)).
Proof.
  induction k as [|c k IH]; [left; reflexivity|]. rewrite mangle_cons.
  destruct (c =? 42) eqn:E1.
  - apply Z.eqb_eq in E1. subst. change (bs "_a") with [95; 97]. cbn [app].  cbn [preimages Z.eqb Pos.eqb orb].
    apply in_or_app. right. apply in_or_app. left. apply in_map. exact IH.
  - destruct (c =? 34) eqn:E2; [|destruct (c =? 39) eqn:E3].
    + apply Z.eqb_eq in E2. subst. change (bs "_w") with [95; 119]. cbn [app].  cbn [preimages Z.eqb Pos.eqb orb app].
      apply in_or_app. right. apply in_or_app. left. apply in_map. exact IH.
    + apply Z.eqb_eq in E3. subst. change (bs "_q") with [95; 113]. cbn [app].  cbn [preimages Z.eqb Pos.eqb orb app].
      apply in_or_app. right. apply in_map. exact IH.
    + cbn [app preimages]. rewrite E1, E2, E3. cbn [orb]. apply in_or_app. left. apply in_map. exact IH.
Qed.
Definition keys (c : op) : list (list Z) :=
  flat_map (fun e => if op_eq (snd e) c then preimages (bs (fst e)) else []) command_table.
Lemma find_command_in t m c : find_command t m = Some c -> exists n, In (n, c) t /\ bs n = m.
Proof.
  induction t as [|[n o] t IH]; cbn [find_command]; [discriminate|]. destruct (list_eqb (bs n) m) eqn:E.
  - intros [= ->]. apply list_eqb_eq in E. exists n. split; [left; reflexivity|assumption].
  - intros H. destruct (IH H) as (n' & A & B). exists n'. split; [right; assumption|assumption].
Qed.
Lemma command_keys k c : command k = Some c -> In k (keys c).
Proof.
  intros H. apply find_command_in in H as (n & A & B). unfold keys. apply in_flat_map. exists (n, c). split; [assumption|].
  cbn [snd fst]. destruct (op_eq c c) as [_|E]; [|congruence]. rewrite B. apply in_preimages.
Qed.
Definition all_ops : list op :=
  [o_q; o_Q; o_cm; o_w; o_J; o_j; o_M; o_d; o_ri; o_i; o_m; o_l; o_c; o_v; o_y; o_h; o_re; o_paint; o_paint_eo;
   o_close_paint; o_close_paint_eo; o_n; o_CS; o_cs; o_G; o_g; o_RG; o_rg; o_K; o_k; o_SCN; o_scn; o_BT; o_ET; o_Tc; o_Tw;
   o_Tz; o_TL; o_Tf; o_Tr; o_Ts; o_Td; o_TD; o_Tm; o_Tstar; o_TJ; o_Tj; o_quote; o_dquote; o_EI; o_Do].

(* a keyword outside a list of names is not one of these commands *)
Lemma not_among_ops names k c : command k = Some c ->
  forallb (fun x => existsb (fun n => list_eqb (bs n) x) names) (keys c) = true -> among (OKwd k) names.
Proof.
  intros H K. apply command_keys in H. rewrite forallb_forall in K. apply K in H. apply existsb_exists in H as (n & A & B).
  apply list_eqb_eq in B. exists n. split; [assumption|]. unfold OK. congruence.
Qed.

(* ---------- frames ---------- *)
Ltac brk :=
  repeat match goal with
  | |- context [match ?x with _ => _ end] =>
      lazymatch x with
      | context [match _ with _ => _ end] => fail
      | _ => destruct x eqn:?
      end
  | |- context [let (_, _) := ?x in _] => destruct x eqn:?
  end.

Lemma pop_other s n : let (a, s1) := pop s n in
  exists k, s1 = with_args s k /\ (0 < n -> k = firstn (length (s_args s) - Z.to_nat n) (s_args s) /\ a = skipn (length (s_args s) - Z.to_nat n) (s_args s)).
Proof.
  unfold pop. destruct (n =? 0) eqn:E.
  - exists (s_args s). split; [destruct s; reflexivity|]. lia.
  - destruct (0 <? n) eqn:E2; eexists; (split; [reflexivity|]); intros; [split; reflexivity|lia].
Qed.

Lemma show_args s b seq : show (with_args s b) seq = (with_args (fst (show s seq)) b, snd (show s seq)).
Proof.
  unfold show. cbn [s_text with_args s_block s_ctm s_heap s_g].
  destruct (t_font (s_text s)); [|reflexivity]. destruct (s_block s); [|reflexivity].
  destruct (render_seq _ _ _ _ _ _) as [[lm cs] [e|]]; [reflexivity|]. destruct (char_block _ _ _); reflexivity.
Qed.
Section frames.
  Context (getobj : Z -> option obj) (depth : nat).
  Notation exec := (exec getobj depth).
  Notation step := (step getobj depth).
  Notation steps := (steps getobj depth).

  Lemma exec_args c args s b : c <> o_SCN -> c <> o_scn ->
    exec c args (with_args s b) = (with_args (fst (exec c args s)) b, snd (exec c args s)).
  Proof.
    intros H1 H2. destruct c; try congruence; unfold Interp_Model.exec, with_num, device, paint, nextline, add_item;
      cbn [s_text with_args s_g s_gstack s_ctm s_path s_cs s_fonts s_block s_done s_xobjs s_resources s_heap];
      try (destruct args as [|? [|? [|? [|]]]]; try reflexivity);
      try apply show_args;
      try solve [brk; try reflexivity; cbn in *; try congruence].
    all: try solve [destruct (nums _) as [v|]; [|reflexivity]; brk; try reflexivity; congruence].
    - destruct o; try solve [reflexivity|apply show_args|brk; reflexivity].
    - exact (show_args (fresh_lm s _) b [o]).
    - destruct (num_of o), (num_of o0); try reflexivity. exact (show_args (with_text s _) b [o1]).
  Qed.

  Ltac open_exec := unfold Interp_Model.exec, with_num, device, paint, nextline, fresh_lm, add_item, ok, fail.
  Definition show_op (c : op) : Prop := c = o_TJ \/ c = o_Tj \/ c = o_quote \/ c = o_dquote.
  (* showing text changes the block under construction and the contents of the current line position only *)
  Lemma show_frame s seq : exists lm b, fst (show s seq) = with_block (with_heap s (hset (s_heap s) (t_lm (s_text s)) lm)) b
    \/ fst (show s seq) = s.
  Proof.
    unfold show. destruct (t_font (s_text s)) as [f|]; [|exists (qz 0, qz 0), None; right; reflexivity].
    destruct (s_block s) as [tb|] eqn:Eb; [|exists (qz 0, qz 0), None; right; reflexivity].
    destruct (render_seq _ _ _ _ _ _) as [[lm cs] [e|]]; cbn [fst fail ok].
    - exists lm, (Some tb). left. rewrite <- Eb. destruct s; reflexivity.
    - destruct (char_block _ _ _); cbn [fst fail ok]; [eexists lm, _; left; reflexivity|].
      exists lm, (Some tb). left. rewrite <- Eb. destruct s; reflexivity.
  Qed.
  Ltac show_cases := match goal with |- context [show ?s ?q] =>
     let lm := fresh "lm" in let b := fresh "b" in destruct (show_frame s q) as (lm & b & [->| ->]) end.

  Lemma exec_gstack c args s : c <> o_q -> c <> o_Q -> s_gstack (fst (exec c args s)) = s_gstack s.
  Proof.
    intros H1 H2. destruct c; try congruence; open_exec;
      try (destruct args as [|? [|? [|? [|]]]]; try reflexivity);
      try solve [brk; reflexivity]; try solve [show_cases; reflexivity].
    all: try solve [destruct (nums _) as [v|]; [|reflexivity]; brk; reflexivity].
    - brk; try reflexivity. pose proof (pop_other s z) as P. rewrite Heqp in P. destruct P as (k & -> & _). reflexivity.
    - brk; try reflexivity. pose proof (pop_other s z) as P. rewrite Heqp in P. destruct P as (k & -> & _). reflexivity.
    - destruct o; try solve [show_cases; reflexivity]; brk; reflexivity.
    - brk; try reflexivity. show_cases; reflexivity.
  Qed.
  (* the operators that leave the text state and the line positions alone *)
  Definition text_op (c : op) : bool :=
    match c with
    | o_BT | o_Tc | o_Tw | o_Tz | o_TL | o_Tf | o_Tr | o_Ts | o_Td | o_TD | o_Tm | o_Tstar | o_TJ | o_Tj | o_quote | o_dquote | o_Q => true
    | _ => false
    end.
  Lemma exec_notext c args s : text_op c = false -> s_text (fst (exec c args s)) = s_text s /\ s_heap (fst (exec c args s)) = s_heap s.
  Proof.
    intros H1. destruct c; try discriminate; open_exec;
      try (destruct args as [|? [|? [|? [|]]]]; try (split; reflexivity));
      try solve [brk; split; reflexivity].
    all: try solve [destruct (nums _) as [v|]; [|split; reflexivity]; brk; split; reflexivity].
    - brk; try (split; reflexivity). pose proof (pop_other s z) as P. rewrite Heqp in P. destruct P as (k & -> & _). split; reflexivity.
    - brk; try (split; reflexivity). pose proof (pop_other s z) as P. rewrite Heqp in P. destruct P as (k & -> & _). split; reflexivity.
  Qed.

  (* line positions *)
  Lemma hset_length h a p : length (hset h a p) = length h.
  Proof. revert a; induction h as [|x h IH]; intros [|a]; cbn [hset length]; try reflexivity. rewrite IH. reflexivity. Qed.
  Lemma hget_hset_same h a p : (a < length h)%nat -> hget (hset h a p) a = p.
  Proof. unfold hget. revert a; induction h as [|x h IH]; intros [|a] H; cbn [hset length nth] in *; try lia; [reflexivity|]. apply IH. lia. Qed.
  Lemma hget_hset_other h a b p : a <> b -> hget (hset h a p) b = hget h b.
  Proof. unfold hget. revert a b; induction h as [|x h IH]; intros [|a] [|b] H; cbn [hset nth]; try reflexivity; try congruence. apply IH. congruence. Qed.
  Lemma hget_app h x a : (a < length h)%nat -> hget (h ++ [x]) a = hget h a.
  Proof. intros. unfold hget. rewrite app_nth1 by lia. reflexivity. Qed.

  (* s' has the line positions of s, except perhaps those at or after n; its own is at or after n *)
  Definition from_line (n : nat) (s s' : istate) : Prop :=
    (length (s_heap s) <= length (s_heap s'))%nat /\ (forall a, (a < n)%nat -> hget (s_heap s') a = hget (s_heap s) a).

  (* what a command other than Q does with line positions *)
  Inductive line_effect (s s' : istate) : Prop :=
  | le_same : s_heap s' = s_heap s -> t_lm (s_text s') = t_lm (s_text s) -> line_effect s s'
  | le_new : s_heap s' = s_heap s ++ [(qz 0, qz 0)] -> t_lm (s_text s') = length (s_heap s) -> line_effect s s'
  | le_write p : s_heap s' = hset (s_heap s) (t_lm (s_text s)) p -> t_lm (s_text s') = t_lm (s_text s) -> line_effect s s'
  | le_new_write p : s_heap s' = hset (s_heap s ++ [(qz 0, qz 0)]) (length (s_heap s)) p -> t_lm (s_text s') = length (s_heap s) -> line_effect s s'.
  Lemma exec_line c args s : c <> o_Q -> line_effect s (fst (exec c args s)).
  Proof.
    intros HQ. destruct (text_op c) eqn:Et.
    2:{ destruct (exec_notext c args s Et) as [A B]. apply le_same; [assumption|congruence]. }
    destruct c; try discriminate; try congruence; open_exec;
      try (destruct args as [|? [|? [|? [|]]]]; try (apply le_same; reflexivity)).
    all: try solve [brk; first [apply le_new; reflexivity|apply le_same; reflexivity]].
    all: try solve [destruct (nums _) as [v|]; [|apply le_same; reflexivity]; brk; first [apply le_new; reflexivity|apply le_same; reflexivity]].
    - destruct o; try solve [brk; apply le_same; reflexivity]; (show_cases; [eapply le_write; reflexivity|apply le_same; reflexivity]).
    - show_cases; [eapply le_write; reflexivity|apply le_same; reflexivity].
    - show_cases; [eapply le_new_write; reflexivity|apply le_new; reflexivity].
    - brk; try (apply le_same; reflexivity). show_cases; [eapply le_write; reflexivity|apply le_same; reflexivity].
  Qed.
  Lemma exec_line_noshow c args s : c <> o_Q -> ~ show_op c -> 
    (s_heap (fst (exec c args s)) = s_heap s /\ t_lm (s_text (fst (exec c args s))) = t_lm (s_text s)) \/
    (s_heap (fst (exec c args s)) = s_heap s ++ [(qz 0, qz 0)] /\ t_lm (s_text (fst (exec c args s))) = length (s_heap s)).
  Proof.
    intros HQ HS. destruct (text_op c) eqn:Et.
    2:{ destruct (exec_notext c args s Et) as [A B]. left. split; [assumption|congruence]. }
    destruct c; try discriminate; try congruence; try (exfalso; apply HS; unfold show_op; tauto); open_exec;
      try (destruct args as [|? [|? [|? [|]]]]; try (left; split; reflexivity)).
    all: try solve [brk; first [left; split; reflexivity|right; split; reflexivity]].
    all: try solve [destruct (nums _) as [v|]; [|left; split; reflexivity]; brk; first [left; split; reflexivity|right; split; reflexivity]].
  Qed.

  (* paths and items *)
  Definition path_op (c : op) : bool :=
    match c with
    | o_m | o_l | o_c | o_v | o_y | o_h | o_re | o_paint | o_paint_eo | o_close_paint | o_close_paint_eo | o_n => true
    | _ => false
    end.
  Lemma exec_nopath c args s : path_op c = false -> s_path (fst (exec c args s)) = s_path s.
  Proof.
    intros H1. destruct c; try discriminate; open_exec;
      try (destruct args as [|? [|? [|? [|]]]]; try reflexivity);
      try solve [brk; reflexivity]; try solve [show_cases; reflexivity].
    all: try solve [destruct (nums _) as [v|]; [|reflexivity]; brk; reflexivity].
    - brk; try reflexivity. pose proof (pop_other s z) as P. rewrite Heqp in P. destruct P as (k & -> & _). reflexivity.
    - brk; try reflexivity. pose proof (pop_other s z) as P. rewrite Heqp in P. destruct P as (k & -> & _). reflexivity.
    - destruct o; try solve [show_cases; reflexivity]; brk; reflexivity.
    - brk; try reflexivity. show_cases; reflexivity.
  Qed.
  Definition item_op (c : op) : bool :=
    match c with o_paint | o_paint_eo | o_close_paint | o_close_paint_eo | o_ET | o_EI | o_Do => true | _ => false end.
  Lemma exec_noitem c args s : item_op c = false -> s_done (fst (exec c args s)) = s_done s.
  Proof.
    intros H1. destruct c; try discriminate; open_exec;
      try (destruct args as [|? [|? [|? [|]]]]; try reflexivity);
      try solve [brk; reflexivity]; try solve [show_cases; reflexivity].
    all: try solve [destruct (nums _) as [v|]; [|reflexivity]; brk; reflexivity].
    - brk; try reflexivity. pose proof (pop_other s z) as P. rewrite Heqp in P. destruct P as (k & -> & _). reflexivity.
    - brk; try reflexivity. pose proof (pop_other s z) as P. rewrite Heqp in P. destruct P as (k & -> & _). reflexivity.
    - destruct o; try solve [show_cases; reflexivity]; brk; reflexivity.
    - brk; try reflexivity. show_cases; reflexivity.
  Qed.

  (* text matrix and leading *)
  Definition line_op (c : op) : bool :=
    match c with o_BT | o_Td | o_TD | o_TL | o_Tm | o_Tstar | o_quote | o_Q => true | _ => false end.
  Lemma exec_noline c args s : line_op c = false ->
    t_matrix (s_text (fst (exec c args s))) = t_matrix (s_text s) /\ t_leading (s_text (fst (exec c args s))) = t_leading (s_text s).
  Proof.
    intros H. destruct (text_op c) eqn:Et.
    2:{ destruct (exec_notext c args s Et) as [-> _]. split; reflexivity. }
    destruct c; try discriminate; open_exec; try (destruct args as [|? [|? [|? [|]]]]; try (split; reflexivity)).
    all: try solve [brk; split; reflexivity].
    all: try solve [destruct (nums _) as [v|]; [|split; reflexivity]; brk; split; reflexivity].
    - destruct o; try solve [brk; split; reflexivity]; show_cases; split; reflexivity.
    - show_cases; split; reflexivity.
    - brk; try (split; reflexivity). show_cases; split; reflexivity.
  Qed.
  (* colours *)
  Definition color_op (c : op) : bool :=
    match c with o_G | o_g | o_RG | o_rg | o_K | o_k | o_SCN | o_scn => true | _ => false end.
  Lemma exec_nocolor c args s : color_op c = false ->
    g_scolor (s_g (fst (exec c args s))) = g_scolor (s_g s) /\ g_ncolor (s_g (fst (exec c args s))) = g_ncolor (s_g s).
  Proof.
    intros H1. destruct c; try discriminate; open_exec;
      try (destruct args as [|? [|? [|? [|]]]]; try (split; reflexivity));
      try solve [brk; split; reflexivity]; try solve [show_cases; split; reflexivity].
    all: try solve [destruct (nums _) as [v|]; [|split; reflexivity]; brk; split; reflexivity].
    - destruct o; try solve [show_cases; split; reflexivity]; brk; split; reflexivity.
    - brk; try (split; reflexivity). show_cases; split; reflexivity.
  Qed.

  (* one step: an operand, a command, or nothing *)
  Lemma step_cases s o : 
    (exists c args b, o = OKwd c /\ exists k, command c = Some k /\ step s o = exec k args (with_args s b)) \/
    (exists b, step s o = (with_args s b, None)) \/
    (exists b k, o = OKwd k /\ step s o = (with_args s b, Some CommandProcessorError)).
  Proof.
    destruct o; try solve [right; left; eexists; reflexivity].
    unfold Interp_Model.step. destruct (command k) as [c|] eqn:E; [|right; left; exists (s_args s); destruct s; reflexivity].
    destruct (Nat.eqb (arity c) 0).
    - left. exists k, [], (s_args s). split; [reflexivity|]. exists c. split; [assumption|]. destruct s; reflexivity.
    - pose proof (pop_other s (Z.of_nat (arity c))) as P. destruct (pop s _) as [a s1]. destruct P as (b & -> & _).
      destruct (Nat.eqb _ _); [left|right; right].
      + exists k, a, b. split; [reflexivity|]. exists c. split; [assumption|]. reflexivity.
      + exists b, k. split; reflexivity.
  Qed.
End frames.
