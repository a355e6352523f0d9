(* C48: recall levels in binary64 arithmetic. *)
From Verif Require Import Prelude Counting CacheModel CacheSpec ClsModel FlowModel DetModel DetSpec DetFlowModel DetReportModel
  DetEnd DetDemo FloatModel FloatProofs FloatCurveProofs.
From Coq Require Import String QArith Qabs Lia.
From Coq Require SpecFloat.
Local Open Scope nat_scope.
Local Open Scope list_scope.

(* ---------------------------------------------------------------- C48 *)
(* [rnd] is the rounding of IEEE 754: the result has 53 bits, nothing of 53 bits is
   nearer; at a tie the result is the even one *)
Theorem C48_rounding_format : forall x, (0 < x)%Q ->
  exists m s, (2 ^ 52 <= m <= 2 ^ 53)%Z /\ (rnd x == inject_Z m * pow2 s)%Q.
Proof. exact rnd_format. Qed.
Print Assumptions C48_rounding_format.
Theorem C48_rounding_nearest : forall x, (0 < x)%Q -> forall k e, (Z.abs k <= 2 ^ 53)%Z ->
  (Qabs (rnd x - x) <= Qabs (inject_Z k * pow2 e - x))%Q.
Proof. exact rnd_nearest. Qed.
Print Assumptions C48_rounding_nearest.
Theorem C48_rounding_ties : forall x, (0 < x)%Q -> exists m s, (2 ^ 52 <= m <= 2 ^ 53)%Z /\ (rnd x == inject_Z m * pow2 s)%Q /\
  (2 * Qabs (rnd x - x) <= pow2 s)%Q /\ ((2 * Qabs (rnd x - x) == pow2 s)%Q -> Z.even m = true).
Proof. exact rnd_ties. Qed.
Print Assumptions C48_rounding_ties.
(* 2^53 + 1 lies half way between two numbers of 53 bits *)
Example C48_ties_example : (rnd (9007199254740993 # 1) == 9007199254740992 # 1)%Q /\ (rnd (9007199254740995 # 1) == 9007199254740996 # 1)%Q.
Proof. split; vm_compute; reflexivity. Qed.

(* The standard library's binary64 operations give the same values. *)
Definition sf (n : positive) : SpecFloat.spec_float := SpecFloat.binary_normalize 53 1024 (Zpos n) 0 false.
Definition sf_value (x : SpecFloat.spec_float) : Q :=
  match x with SpecFloat.S754_finite false m e => (inject_Z (Zpos m) * pow2 e)%Q | _ => 0%Q end.
Example C48_rounding_example :
  Forall (fun tn => (sf_value (SpecFloat.SFdiv 53 1024 (sf (fst tn)) (sf (snd tn))) == rnd (Zpos (fst tn) # snd tn))%Q
                 /\ (sf_value (SpecFloat.SFmul 53 1024 (SpecFloat.SFdiv 53 1024 (sf (fst tn)) (sf (snd tn))) (sf 100))
                     == rnd (rnd (Zpos (fst tn) # snd tn) * 100))%Q)
    [(29, 100); (57, 100); (29, 50); (1, 3); (2, 3); (7, 10); (123456, 7654321); (1, 1)]%positive.
Proof. repeat (constructor; [split; vm_compute; reflexivity|]). constructor. Qed.

(* Full claim: a row with recall k/100 is counted at level k.  It fails at the three
   levels 29, 57 and 58 ... *)
Theorem C48_level_refuted : exists tp n, (0 < tp <= n) /\ (100 * tp = 58 * n) /\ fbin tp n = 57.
Proof. exists 29, 50. split; [lia|]. split; [reflexivity|]. vm_compute. reflexivity. Qed.
Print Assumptions C48_level_refuted.
(* ... and nowhere else, for up to 2^44 ground truths: the computed bin is the largest
   b with b/100 <= tp/n, except one lower when tp/n is exactly 0.29, 0.57 or 0.58 *)
Theorem C48_levels_partial : forall tp n b, tp <= n -> 0 < n -> (Z.of_nat n <= 2 ^ 44)%Z ->
  b * n <= 100 * tp < (b + 1) * n ->
  fbin tp n = if (Nat.eqb b 29 || Nat.eqb b 57 || Nat.eqb b 58) && Nat.eqb (b * n) (100 * tp) then b - 1 else b.
Proof.
  intros tp n b H Hn Hb B. assert (E : b = ebin tp n).
  { unfold ebin. apply (Nat.div_unique _ _ b (100 * tp - b * n)); lia. }
  rewrite (fbin_spec tp n H Hn Hb), E. reflexivity.
Qed.
Print Assumptions C48_levels_partial.
Example C48_levels_example :
  fbin 29 100 = 28 /\ fbin 57 100 = 56 /\ fbin 1044 1800 = 57 /\ fbin 28 100 = 28 /\ fbin 2 3 = 66 /\ fbin 7 7 = 100 /\ fbin 0 5 = 0.
Proof. vm_compute. repeat split. Qed.

(* the bin is an index of the curve: no row falls outside *)
Theorem C48_index_in_range : forall tp n, tp <= n -> 0 < n -> (Z.of_nat n <= 2 ^ 44)%Z -> fbin tp n <= 100.
Proof.
  intros tp n H Hn Hb. rewrite (fbin_spec tp n H Hn Hb). assert (ebin tp n <= 100) by (unfold ebin; apply Nat.div_le_upper_bound; lia).
  destruct (_ && _); lia.
Qed.
Print Assumptions C48_index_in_range.

(* The reported curve: at every level but 29, 57, 58 it is the exact one; at these it
   lies between the exact values of the level and of the next level. *)
Theorem C48_pr_curve_partial :
  forall eps unit ds, det_input unit ds -> forall sel datums, det_selects ds datums sel ->
  forall e, (0 <= unit)%Z -> det_evaluator eps unit ds e -> few_det_labels ds -> few_annotations ds ->
  forall v vi, label_no e v vi -> forall t, (0 < t)%Z ->
  List.length (rep_fpr_curve eps e datums t (Z.of_nat vi)) = 101 /\
  forall k q f, nth_error (rep_pr_curve eps e datums t (Z.of_nat vi)) k = Some q ->
    nth_error (rep_fpr_curve eps e datums t (Z.of_nat vi)) k = Some f ->
    (f <= q)%Q
    /\ (forall q', nth_error (rep_pr_curve eps e datums t (Z.of_nat vi)) (S k) = Some q' -> (q' <= f)%Q)
    /\ (k <> 29 -> k <> 57 -> k <> 58 -> (f == q)%Q).
Proof.
  intros eps unit ds Hin sel datums Hsel e Hu He Hf Ha v vi Hv t Ht. split; [apply fpr_length|].
  intros k q f Hq Hfl. split; [exact (float_le_exact eps unit ds Hin sel datums Hsel e Hu He Hf Ha v vi Hv t Ht k q f Hq Hfl)|].
  split; [intros q' Hq'; exact (next_le_float eps unit ds Hin sel datums Hsel e Hu He Hf Ha v vi Hv t Ht k q' f Hq' Hfl)|].
  intros H1 H2 H3. apply (float_eq_exact eps unit ds Hin sel datums Hsel e Hu He Hf Ha v vi Hv t Ht k q f Hq Hfl).
  left. unfold lost. rewrite (proj2 (Nat.eqb_neq k 29) H1), (proj2 (Nat.eqb_neq k 57) H2), (proj2 (Nat.eqb_neq k 58) H3). reflexivity.
Qed.
Print Assumptions C48_pr_curve_partial.

(* Average precision: at most 1/101 below the exact one; equal unless the number of
   ground truths of the label is a multiple of 50. *)
Theorem C48_average_precision_partial :
  forall eps unit ds, det_input unit ds -> forall sel datums, det_selects ds datums sel ->
  forall e, (0 <= unit)%Z -> det_evaluator eps unit ds e -> few_det_labels ds -> few_annotations ds ->
  forall v vi, label_no e v vi -> forall t, (0 < t)%Z ->
    (rep_fap eps e datums t (Z.of_nat vi) <= rep_ap eps e datums t (Z.of_nat vi)
     /\ rep_ap eps e datums t (Z.of_nat vi) <= rep_fap eps e datums t (Z.of_nat vi) + (1 # 101))%Q
    /\ ((forall j, gts_with sel ds v <> 50 * j) ->
        (rep_fap eps e datums t (Z.of_nat vi) == rep_ap eps e datums t (Z.of_nat vi))%Q).
Proof.
  intros eps unit ds Hin sel datums Hsel e Hu He Hf Ha v vi Hv t Ht. split.
  - exact (float_ap eps unit ds Hin sel datums Hsel e Hu He Hf Ha v vi Hv t Ht).
  - exact (float_ap_eq eps unit ds Hin sel datums Hsel e Hu He Hf Ha v vi Hv t Ht).
Qed.
Print Assumptions C48_average_precision_partial.
Theorem C48_mean_average_precision_partial :
  forall eps unit ds, det_input unit ds -> forall sel datums, det_selects ds datums sel ->
  forall e, (0 <= unit)%Z -> det_evaluator eps unit ds e -> few_det_labels ds -> few_annotations ds ->
  forall t, (0 < t)%Z ->
  match rep_fmap eps e datums t, rep_map eps e datums t with
  | Some a, Some b => (a <= b /\ b <= a + (1 # 101))%Q
  | None, None => label_axis e = []
  | _, _ => False
  end.
Proof. exact float_map. Qed.
Print Assumptions C48_mean_average_precision_partial.

(* 50 ground truths, 29 of them found, nothing else predicted *)
Fixpoint tag (n : nat) : string := match n with O => "u" | S m => String.append "u" (tag m) end.
Definition fifty : list detection :=
  [ MkDet "img" (map (fun i => gt (tag i) "cat") (seq 0 50)) (map (fun i => pd (tag i) "cat" 900000000) (seq 0 29))
      (fun p g => if Nat.eqb p g then one else 0%Z) ].
Definition fifty_mem : deval := Eval vm_compute in get_eval (mem_eval 1 one 4 singles [fifty]).
Lemma fifty_ok : det_evaluator 1 one fifty fifty_mem.
Proof. apply (mem_eval_ok 1 one 4 singles [fifty]). vm_compute. reflexivity. Qed.

(* through the whole evaluator: AP 58/101 instead of 59/101, precision 0 instead of 1 at
   recall 0.58, which the predictions reach *)
Theorem C48_refuted :
  exists eps unit ds e, det_input unit ds /\ det_evaluator eps unit ds e /\ label_no e "cat" 0 /\
    rep_gts e (fun _ => true) 0 = 50 /\ rep_tp eps e (fun _ => true) 500000000 500000000 0 = 29 /\
    nth_error (rep_fpr_curve eps e (fun _ => true) 500000000 0) 58 = Some 0%Q /\
    (rep_ap eps e (fun _ => true) 500000000 0 == 59 # 101)%Q /\
    (rep_fap eps e (fun _ => true) 500000000 0 == 58 # 101)%Q.
Proof.
  exists 1%Z, one, fifty, fifty_mem. split.
  { constructor; [|constructor]. split; [reflexivity|]. split.
    - intros a Ha. cbn [t_gts] in Ha. apply in_map_iff in Ha. destruct Ha as (i & <- & _). reflexivity.
    - intros p g. cbn [t_iou]. destruct (Nat.eqb p g); unfold one; lia. }
  split; [apply fifty_ok|]. split; [vm_compute; auto|]. split; [vm_compute; reflexivity|]. split; [vm_compute; reflexivity|].
  split; [vm_compute; reflexivity|]. split; vm_compute; reflexivity.
Qed.
Print Assumptions C48_refuted.
(* the hypotheses of the theorems above *)
Example C48_example :
  few_det_labels fifty /\ few_annotations fifty /\ det_selects fifty (fun _ => true) (fun _ => true)
  /\ gts_with (fun _ => true) fifty "cat" = 50 /\ gts_with (fun _ => true) ddemo "cat" = 2.
Proof.
  split; [vm_compute; discriminate|]. split; [vm_compute; repeat split; reflexivity|]. split; [intros r i d _ _ _; reflexivity|]. split; vm_compute; reflexivity.
Qed.
