(* Properties C10 and C11: the line readers. *)
From Coq Require Import String.
From Verif Require Import Base Lex_Model Lex_Chunk Lines_Model Lines_Spec Lines_Proofs.
From Coq Require Import ZifyBool ZifyNat.

(* C10, one call, any chunking: the line returned is the first line of the bytes ahead, at the current position,
   and the bytes after it are what is left; PSEOF is raised only when no complete line is ahead. *)
Theorem C10_nextline pos b cs : Forall (fun c => c <> []) cs ->
  match nextline pos b cs with
  | (Ok (p, l), (pos', b', cs')) => p = pos /\ pos' = pos + Z.of_nat (length l) /\
       b ++ concat cs = l ++ b' ++ concat cs' /\ Line l (b' ++ concat cs')
  | (Err e, _) => e = PSEOF /\ unfinished_line (b ++ concat cs)
  end.
Proof.
  intros H. pose proof (nextline_spec pos b cs H) as S. destruct (nextline pos b cs) as [[[p l]|e] [[pos' b'] cs']]; tauto.
Qed.

(* C10, all calls: whatever the chunks, the lines returned are the lines of the file at their offsets, followed
   by an unfinished last line which is not returned. *)
Theorem C10_all_lines_partial cs ls rest : Forall (fun c => c <> []) cs ->
  Lines 0 ls rest (concat cs) -> unfinished_line rest -> lines_of cs = (ls, PSEOF).
Proof.
  intros H HL U. unfold lines_of.
  destruct (all_lines_spec (length (concat cs) + 1) 0 [] cs H ltac:(cbn; lia)) as (rest' & H1 & H2 & H3).
  cbn [app] in H1. destruct (lines_unique _ _ _ _ _ _ H1 HL H2 U) as [E _].
  rewrite (surjective_pairing (all_lines _ _ _ _)), E, H3. reflexivity.
Qed.
(* every file has such a decomposition, and it is independent of the chunks *)
Theorem C10_lines_bufsiz cs1 cs2 : Forall (fun c => c <> []) cs1 -> Forall (fun c => c <> []) cs2 ->
  concat cs1 = concat cs2 -> lines_of cs1 = lines_of cs2 /\
  exists rest, concat cs1 = concat (map snd (fst (lines_of cs1))) ++ rest /\ unfinished_line rest.
Proof.
  intros H1 H2 E. destruct (all_lines_spec (length (concat cs1) + 1) 0 [] cs1 H1 ltac:(cbn; lia)) as (rest & L & U & P).
  cbn [app] in L. split.
  - assert (Hp : lines_of cs1 = (fst (lines_of cs1), PSEOF)).
    { rewrite (surjective_pairing (lines_of cs1)). cbn [fst]. unfold lines_of. rewrite P. reflexivity. }
    rewrite Hp. symmetry. apply (C10_all_lines_partial cs2 _ rest H2); [rewrite <- E; exact L|exact U].
  - exists rest. split; [|assumption]. apply lines_data in L. exact L.
Qed.
Example C10_case : lines_of [bs "a" ++ [13]; [10] ++ bs "b" ++ [13]; bs "c" ++ [10]; bs "tail"] =
    ([(0, bs "a" ++ [13; 10]); (3, bs "b" ++ [13]); (5, bs "c" ++ [10])], PSEOF).
Proof. vm_compute. reflexivity. Qed.
(* "loses no bytes" is false: a last line without end of line, or ended by a single CR, is never returned *)
Theorem C10_last_line_refuted body n : Forall (fun c => ~ eol_byte c) body -> (0 < n)%nat ->
  lines_of (read_chunks n body) = ([], PSEOF) /\ lines_of (read_chunks n (body ++ [13])) = ([], PSEOF).
Proof.
  intros Hb Hn. split.
  - destruct (read_chunks_spec n body Hn) as [E N]. apply (C10_all_lines_partial _ [] body N); [rewrite E; constructor|].
    exists body. split; [assumption|left; reflexivity].
  - destruct (read_chunks_spec n (body ++ [13]) Hn) as [E N]. apply (C10_all_lines_partial _ [] (body ++ [13]) N); [rewrite E; constructor|].
    exists body. split; [assumption|right; reflexivity].
Qed.

(* C11: for any buffer size, the backward reader yields, last first, exactly the segments of the file that start
   at its end-of-line bytes (the head before the first end-of-line byte is not yielded). *)
Theorem C11_revreadlines n data head segs : (0 < n)%nat ->
  data = head ++ concat segs -> Forall (fun c => ~ eol_byte c) head -> Forall Segment segs ->
  revreadlines n data = rev segs.
Proof.
  intros Hn Hd Hh Hs. destruct (revread_spec n data Hn) as (h & H1 & H2 & H3).
  assert (H2' : Forall Segment (rev (revreadlines n data))) by (apply Forall_rev; assumption).
  destruct (segs_unique segs (rev (revreadlines n data)) head h Hh H1 Hs H2') as [_ E]; [congruence|].
  rewrite E, rev_involutive. reflexivity.
Qed.
Theorem C11_revreadlines_bufsiz n m data : (0 < n)%nat -> (0 < m)%nat ->
  revreadlines n data = revreadlines m data /\
  exists head, Forall (fun c => ~ eol_byte c) head /\ Forall Segment (revreadlines n data) /\
    data = head ++ concat (rev (revreadlines n data)).
Proof.
  intros Hn Hm. destruct (revread_spec n data Hn) as (h & H1 & H2 & H3). split.
  - symmetry. rewrite <- (rev_involutive (revreadlines n data)).
    apply (C11_revreadlines m data h); [assumption|assumption|assumption|]. apply Forall_rev; assumption.
  - exists h. splits; assumption.
Qed.
Example C11_case : revreadlines 3 (bs "ab" ++ [10] ++ bs "cdefg" ++ [13; 10] ++ bs "x") =
   [[10] ++ bs "x"; [13]; [10] ++ bs "cdefg"].
Proof. vm_compute. reflexivity. Qed.
