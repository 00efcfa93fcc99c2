(* C89: cases that meet the hypotheses, and runs of the model. *)
From Coq Require Import String.
From Verif Require Import Base Obj Stack_Model Stream_Model Num CMap_Model Extract_Model Extract_Spec Extract_Cases Dispatch_Model Dispatch_Spec Dispatch_Props.
Open Scope Z_scope.
Import ListNotations.

(* letters, digits and underscores of ASCII *)
Definition k_word (c : Z) : bool := ((48 <=? c) && (c <=? 57)) || ((65 <=? c) && (c <=? 90)) || ((97 <=? c) && (c <=? 122)) || (c =? 95).
Example C89_names :
  (k_word 46 = false /\ k_word 47 = false /\ k_word 10 = false) /\
  Beside k_word (bs "a//b.d/r.v2.pdf") (bs "xml") (bs "a//b.d/r.v2.xml") /\ Beside k_word (bs "a//r.pdf") (bs "json") (bs "a/r.json") /\ Beside k_word (bs "/.pdf") (bs "yml") (bs "/.yml") /\
  Beside k_word (bs "r.pdf") (bs "text") (bs "r.text") /\
  map (fun x => default_output k_word (fun _ => None) (bs (fst x)) (bs (snd x)))
    [("a//b.d/r.v2.pdf", "xml"); ("a//r.pdf", "json"); ("/.pdf", "yml"); ("r.pdf", "text"); ("a.b/report", "html"); ("r.", "html")]%string =
  map (fun x => Some (bs x)) ["a//b.d/r.v2.xml"; "a/r.json"; "/.yml"; "r.text"; "a.b/report"; "r."]%string.
Proof.
  splits; try reflexivity.
  - exists (bs "a//b.d/"), (bs "a//b.d/"), (bs "r.v2"), (bs "pdf"). splits; try reflexivity.
    + apply (Fo_dir (bs "a//b.") 100 (bs "/")); [discriminate|]. split; [discriminate|repeat constructor].
    + intros H. cbn in H. repeat (destruct H as [H|H]; [discriminate H|]). destruct H.
    + split; [discriminate|]. repeat constructor.
  - exists (bs "a//"), (bs "a/"), (bs "r"), (bs "pdf"). splits; try reflexivity.
    + apply (Fo_dir [] 97 (bs "//")); [discriminate|]. split; [discriminate|repeat constructor].
    + intros H. cbn in H. repeat (destruct H as [H|H]; [discriminate H|]). destruct H.
    + split; [discriminate|]. repeat constructor.
  - exists (bs "/"), (bs "/"), [], (bs "pdf"). splits; try reflexivity.
    + apply Fo_root. split; [discriminate|repeat constructor].
    + intros [].
    + split; [discriminate|]. repeat constructor.
  - exists [], [], (bs "r"), (bs "pdf"). splits; try reflexivity.
    + apply Fo_none.
    + intros H. cbn in H. repeat (destruct H as [H|H]; [discriminate H|]). destruct H.
    + split; [discriminate|]. repeat constructor.
Qed.
Definition k_args (input : list Z) : args := mkArgs input [] None (bs "utf-8") 0 None true true None false false 30.
Definition k_fs (p : list Z) : option (list Z) := if list_eqb p (bs "in/r.pdf") || list_eqb p (bs "in/s.text") then Some x_file else None.
Definition k_others (k : kind) (a : args) (fs : list Z -> option (list Z)) : (list Z -> option (list Z)) * option failure := (fs, None).
Definition k_run (input : list Z) (output : option (list Z)) (t : list Z) : (list Z -> option (list Z)) * option failure :=
  convert_file k_word (fun _ => None) (with_text (fun _ => None) (fun _ _ => Err PDFNotImplementedError) (fun x => x) (fun x => x) (fun _ _ _ => Err PDFNotImplementedError) (fun _ => None) x_bases x_metrics
    (fun _ => None) (fun _ _ => None) 7 k_others 120 120) (k_args input) output t k_fs.
Definition k_seen (r : (list Z -> option (list Z)) * option failure) : list (option (list Z)) * option failure :=
  (map (fst r) [bs "in/r.pdf"; bs "in/r.text"; bs "in/s.text"], snd r).
Definition k_text := bs "========== [ page 0 ] ==========
AB
========== [ page 1 ] ==========

".
(* a file converted; one that is its own output, and so is lost; a file that is not there; the check of the name; one without an extension *)
Example C89_run :
  k_seen (k_run (bs "in/r.pdf") None (bs "text")) = ([Some x_file; Some k_text; Some x_file], None) /\
  k_seen (k_run (bs "in/s.text") None (bs "text")) = ([Some x_file; None; Some []], Some (FRaised PDFSyntaxError)) /\
  k_seen (k_run (bs "in/q.pdf") (Some (bs "in/s.text")) (bs "text")) = ([Some x_file; None; Some []], Some FNotFound) /\
  k_seen (k_run (bs "in/r.pdf") (Some (bs "in/s.text")) (bs "html")) = ([Some x_file; None; Some x_file], Some FConverter) /\
  k_seen (k_run (bs "in/r") None (bs "html")) = ([Some x_file; None; Some x_file], Some FConverter).
Proof. vm_compute. splits; reflexivity. Qed.
(* the hypotheses of the theorem on text files *)
Example C89_hypotheses :
  Beside k_word (a_input (k_args (bs "in/r.pdf"))) (bs "text") (bs "in/r.text") /\ bs "in/r.text" <> bs "in/r.pdf" /\ k_fs (bs "in/r.pdf") = Some x_file /\
  FileShows (fun _ => None) (fun _ _ => Err PDFNotImplementedError) (fun _ => None) x_bases x_metrics (fun _ => None) (fun _ _ => None) x_getobj (stored_data (fun _ => None) (fun _ _ => Err PDFNotImplementedError)) x_file [] 0 false
    [[[65]; [66]]; []].
Proof.
  splits; [| discriminate | reflexivity | apply C87_hypotheses].
  exists (bs "in/"), (bs "in/"), (bs "r"), (bs "pdf"). splits; try reflexivity.
  - apply (Fo_dir (bs "i") 110 (bs "/")); [discriminate|]. split; [discriminate|repeat constructor].
  - intros H. cbn in H. repeat (destruct H as [H|H]; [discriminate H|]). destruct H.
  - split; [discriminate|]. repeat constructor.
Qed.
