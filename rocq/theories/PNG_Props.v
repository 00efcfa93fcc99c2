(* Properties C06 (PNG predictor) and C58 (nunpack). *)
From Verif Require Import Base PNG_Model PNG_Spec PNG_Proofs.

(* C06 (part). Round trip for rows filtered None, for Up (in any row if there is one colour component, in any
   row but the first otherwise), and for Sub with one colour component.  Missing: Average, Paeth, Sub with
   several components, Up in the first row with several components -- all refuted below. *)
Theorem C06_png_roundtrip_partial : forall colors columns img,
  image_ok colors columns img ->
  all_supported colors true img ->
  apply_png_predictor (Z.of_nat colors) (Z.of_nat columns) 8 (png_encode colors columns img)
  = Ok (concat (map snd img)).
Proof. exact png_roundtrip_lemma. Qed.
Print Assumptions C06_png_roundtrip_partial.

Example C06_example :
  image_ok 1 3 [(FUp, [10; 200; 30]); (FSub, [5; 4; 255]); (FUp, [0; 9; 1]); (FNone, [7; 7; 7])] /\
  apply_png_predictor 1 3 8
    (png_encode 1 3 [(FUp, [10; 200; 30]); (FSub, [5; 4; 255]); (FUp, [0; 9; 1]); (FNone, [7; 7; 7])])
  = Ok [10; 200; 30; 5; 4; 255; 0; 9; 1; 7; 7; 7] /\
  apply_png_predictor 3 2 8
    (png_encode 3 2 [(FNone, [1;2;3;4;5;6]); (FUp, [9;9;9;0;255;3])]) = Ok [1;2;3;4;5;6;9;9;9;0;255;3].
Proof.
  split; [|vm_compute; split; reflexivity].
  repeat (constructor; [split; [reflexivity|repeat (constructor; [split; [discriminate|reflexivity]|]); constructor]|]).
  constructor.
Qed.

Ltac img_ok := repeat (constructor; [split; [reflexivity|repeat (constructor; [split; [discriminate|reflexivity]|]); constructor]|]); constructor.

(* C06 refuted: Average rows come back wrong, even with one component *)
Theorem C06_png_average_refuted : exists img, image_ok 1 2 img /\ Forall (fun fr => fst fr = FAvg) img /\
  apply_png_predictor 1 2 8 (png_encode 1 2 img) <> Ok (concat (map snd img)).
Proof. exists [(FAvg, [10; 20])]. split; [img_ok|]. split; [repeat constructor|]. vm_compute. discriminate. Qed.
Print Assumptions C06_png_average_refuted.

(* C06 refuted: Paeth rows raise ValueError *)
Theorem C06_png_paeth_refuted : exists img, image_ok 1 2 img /\ Forall (fun fr => fst fr = FPaeth) img /\
  apply_png_predictor 1 2 8 (png_encode 1 2 img) = Err ValueError.
Proof. exists [(FPaeth, [10; 20])]. split; [img_ok|]. split; [repeat constructor|]. vm_compute. reflexivity. Qed.
Print Assumptions C06_png_paeth_refuted.

(* C06 refuted: Sub with several components uses the neighbouring byte instead of the neighbouring pixel *)
Theorem C06_png_sub_rgb_refuted : exists img, image_ok 3 2 img /\ Forall (fun fr => fst fr = FSub) img /\
  apply_png_predictor 3 2 8 (png_encode 3 2 img) <> Ok (concat (map snd img)).
Proof. exists [(FSub, [1;2;3;4;5;6])]. split; [img_ok|]. split; [repeat constructor|]. vm_compute. discriminate. Qed.
Print Assumptions C06_png_sub_rgb_refuted.

(* C06 refuted: Up in the first row with several components truncates the row *)
Theorem C06_png_up_rgb_refuted : exists img, image_ok 3 2 img /\ Forall (fun fr => fst fr = FUp) img /\
  apply_png_predictor 3 2 8 (png_encode 3 2 img) = Ok [1; 2] /\ concat (map snd img) = [1;2;3;4;5;6].
Proof. exists [(FUp, [1;2;3;4;5;6])]. split; [img_ok|]. split; [repeat constructor|]. vm_compute. split; reflexivity. Qed.
Print Assumptions C06_png_up_rgb_refuted.

(* C06. On any data and parameters the predictor ends, raises nothing but ValueError, and never produces more
   bytes than it was given. *)
Theorem C06_png_total : forall colors columns bpc data,
  match apply_png_predictor colors columns bpc data with
  | Ok o => (length o <= length data)%nat
  | Err e => e = ValueError
  end.
Proof. exact png_total_lemma. Qed.
Print Assumptions C06_png_total.

(* C58. nunpack inverts big-endian packing on 1, 2, 3, 4 and 8 bytes. *)
Theorem C58_nunpack : forall n v d, In n [1;2;3;4;8]%nat -> 0 <= v < 256 ^ Z.of_nat n ->
  nunpack (be_encode n v) d = Ok v.
Proof. exact nunpack_lemma. Qed.
Print Assumptions C58_nunpack.

(* an absent field has its default value *)
Theorem C58_default : forall d, nunpack [] d = Ok d.
Proof. reflexivity. Qed.
Theorem C58_widths : forall s d, (exists v, nunpack s d = Ok v) <-> In (length s) [0;1;2;3;4;8]%nat.
Proof.
  intros s d. unfold nunpack. generalize (length s). intros n.
  do 9 (destruct n as [|n]; [cbn; first [solve [split; intros _; [tauto|eexists; reflexivity]]|split; [intros [v H]; discriminate|lia]]|]).
  split; [intros [v H]; discriminate|cbn; lia].
Qed.

Example C58_example : be_encode 3 66051 = [1;2;3] /\ nunpack [1;2;3] 0 = Ok 66051 /\
  nunpack [] 7 = Ok 7 /\ nunpack [1;2;3;4;5] 0 = Err TypeError.
Proof. vm_compute. repeat split; reflexivity. Qed.
