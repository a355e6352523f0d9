(* C143, object detection: when precision, recall and F1 are equal to zero.
   Vocabulary: DetSpec.v; [det_evaluator] and [label_no] as in DetProps.v. *)
From Verif Require Import Prelude Counting CacheModel CacheSpec ClsModel FlowModel
  DetModel DetSpec DetFlowModel DetExModel DetReportModel DetEnd DetMore DetDemo DetZeroProofs.
From Coq Require Import String QArith Lia.
Local Open Scope nat_scope.
Local Open Scope list_scope.

(* ---------------------------------------------------------------- C143 *)
Theorem C143_det :
  forall eps unit ds, det_input unit ds -> forall sel datums, det_selects ds datums sel ->
  forall e, (0 <= unit)%Z -> det_evaluator eps unit ds e -> few_det_labels ds ->
  forall v i, label_no e v i -> forall t s, (0 < t)%Z -> (0 <= eps)%Z -> Forall distinct_pd_labels ds -> Forall (no_ties eps) ds ->
  (Z.of_nat (gts_with sel ds v) < 1000000000)%Z ->
  let never := forall d g a, In d ds -> sel d = true -> nth_error (t_gts d) g = Some a -> has_label v a = true -> detected eps t s d v g = false in
  ((rep_precision eps e datums t s (Z.of_nat i) == 0)%Q <-> never) /\
  ((rep_recall eps e datums t s (Z.of_nat i) == 0)%Q <-> never) /\
  ((rep_f1 eps e datums t s (Z.of_nat i) == 0)%Q <-> never).
Proof. exact det_zero. Qed.
Print Assumptions C143_det.
(* "cat" is detected at score threshold 0.1 and not at 1 *)
Example C143_det_example :
  det_input one ddemo /\ det_selects ddemo first_rows first_image /\ det_evaluator 1 one ddemo ddemo_mem /\ few_det_labels ddemo /\
  label_no ddemo_mem "cat" 0 /\ Forall distinct_pd_labels ddemo /\ Forall (no_ties 1) ddemo /\ (Z.of_nat (gts_with first_image ddemo "cat") < 1000000000)%Z /\
  ~ (rep_f1 1 ddemo_mem first_rows 500000000 100000000 0 == 0)%Q /\ ~ (rep_recall 1 ddemo_mem first_rows 500000000 100000000 0 == 0)%Q /\
  (rep_f1 1 ddemo_mem first_rows 500000000 1000000000 0 == 0)%Q /\ (rep_precision 1 ddemo_mem first_rows 500000000 1000000000 0 == 0)%Q.
Proof.
  split; [apply ddemo_input|]. split; [apply first_selects|]. split; [apply ddemo_mem_ok|]. split; [apply ddemo_few|]. split; [apply cat_no|].
  split; [apply ddemo_distinct|]. split; [apply ddemo_no_ties|]. split; [reflexivity|]. repeat split; vm_compute; (reflexivity || discriminate).
Qed.
