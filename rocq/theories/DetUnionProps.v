(* C146, object detection: metrics of a union lie between those of the parts.
   Vocabulary: DetSpec.v, [det_evaluator] and [label_no] as in DetProps.v;
   [lies_between]: SegReorderSpec.v. *)
From Verif Require Import Prelude Counting CacheModel CacheSpec ClsModel FlowModel
  DetModel DetSpec DetFlowModel DetExModel DetReportModel DetEnd DetMore DetDemo DetReorderSpec DetReorderProps SegReorderSpec DetUnionProofs.
From Coq Require Import String QArith Lia.
Local Open Scope nat_scope.
Local Open Scope list_scope.

(* ---------------------------------------------------------------- C146 *)
Theorem C146_det :
  forall eps unit ds1 ds2, (0 <= unit)%Z -> det_input unit (ds1 ++ ds2) -> few_det_labels (ds1 ++ ds2) ->
  forall sel datums1 datums2 datums e1 e2 e, det_selects ds1 datums1 sel -> det_selects ds2 datums2 sel -> det_selects (ds1 ++ ds2) datums sel ->
  det_evaluator eps unit ds1 e1 -> det_evaluator eps unit ds2 e2 -> det_evaluator eps unit (ds1 ++ ds2) e ->
  forall v k, label_no e v k -> forall t s, (0 < t)%Z -> (Z.of_nat (gts_with sel (ds1 ++ ds2) v) < 1000000000)%Z ->
  (forall i j, label_no e1 v i -> label_no e2 v j ->
    lies_between (rep_precision eps e1 datums1 t s (Z.of_nat i)) (rep_precision eps e2 datums2 t s (Z.of_nat j)) (rep_precision eps e datums t s (Z.of_nat k)) /\
    lies_between (rep_recall eps e1 datums1 t s (Z.of_nat i)) (rep_recall eps e2 datums2 t s (Z.of_nat j)) (rep_recall eps e datums t s (Z.of_nat k)) /\
    lies_between (rep_f1 eps e1 datums1 t s (Z.of_nat i)) (rep_f1 eps e2 datums2 t s (Z.of_nat j)) (rep_f1 eps e datums t s (Z.of_nat k))) /\
  (forall i, label_no e1 v i -> (forall j, ~ label_no e2 v j) ->
    rep_precision eps e datums t s (Z.of_nat k) = rep_precision eps e1 datums1 t s (Z.of_nat i) /\
    rep_recall eps e datums t s (Z.of_nat k) = rep_recall eps e1 datums1 t s (Z.of_nat i) /\
    rep_f1 eps e datums t s (Z.of_nat k) = rep_f1 eps e1 datums1 t s (Z.of_nat i)) /\
  (forall j, (forall i, ~ label_no e1 v i) -> label_no e2 v j ->
    rep_precision eps e datums t s (Z.of_nat k) = rep_precision eps e2 datums2 t s (Z.of_nat j) /\
    rep_recall eps e datums t s (Z.of_nat k) = rep_recall eps e2 datums2 t s (Z.of_nat j) /\
    rep_f1 eps e datums t s (Z.of_nat k) = rep_f1 eps e2 datums2 t s (Z.of_nat j)).
Proof. exact det_union. Qed.
Print Assumptions C146_det.
(* recall of "cat" is 1 on the first image, 0 on the others and 1/2 together *)
Example C146_det_example :
  det_input one (firstn 1 ddemo ++ skipn 1 ddemo) /\ few_det_labels (firstn 1 ddemo ++ skipn 1 ddemo) /\
  det_evaluator 1 one (firstn 1 ddemo) part1 /\ det_evaluator 1 one (skipn 1 ddemo) part2 /\
  det_evaluator 1 one (firstn 1 ddemo ++ skipn 1 ddemo) ddemo_mem /\
  label_no ddemo_mem "cat" 0 /\ label_no part1 "cat" 0 /\ label_no part2 "cat" 0 /\
  (Z.of_nat (gts_with (fun _ => true) (firstn 1 ddemo ++ skipn 1 ddemo) "cat") < 1000000000)%Z /\
  (rep_recall 1 part1 (fun _ => true) 500000000 100000000 0 == 1)%Q /\ (rep_recall 1 part2 (fun _ => true) 500000000 100000000 0 == 0)%Q /\
  (rep_recall 1 ddemo_mem (fun _ => true) 500000000 100000000 0 == 1 # 2)%Q.
Proof.
  split; [apply ddemo_input|]. split; [apply ddemo_few|].
  split; [apply (mem_eval_ok 1 one 4 singles [firstn 1 ddemo]); vm_compute; reflexivity|].
  split; [apply (mem_eval_ok 1 one 4 singles [skipn 1 ddemo]); vm_compute; reflexivity|]. split; [apply ddemo_mem_ok|].
  repeat split; vm_compute; reflexivity.
Qed.
