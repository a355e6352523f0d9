(* C146, classification: metrics of a union lie between those of the parts.
   Vocabulary: ClsFilterSpec.v, ClsReportSpec.v; [lies_between]: SegReorderSpec.v. *)
From Verif Require Import Prelude Counting CacheModel CacheSpec ClsModel ClsSpec ClsLabelProofs ClsProofs ClsConfProofs RocModel RocProofs RocMain RocCurve
  FlowModel FlowProofs FlowMore ClsLemmas ClsMore ClsDemo ClsFilterModel ClsFilterSpec ClsFilterProofs ClsFilterCounts ClsFilterMain ClsFilterRoc ClsFilterProps
  ClsReportModel ClsReportSpec ClsReportProofs ClsReportMore ClsReportProps SegReorderSpec ClsUnionProofs.
From Coq Require Import String QArith.
Local Notation length := List.length (only parsing).
Local Open Scope nat_scope.
Local Open Scope list_scope.

(* ---------------------------------------------------------------- C146 *)
Theorem C146_cls :
  forall cs1 cs2 w, Forall distinct_candidates (cs1 ++ cs2) -> forall e1 e2 e,
  cls_evaluator cs1 w e1 -> cls_evaluator cs2 w e2 -> cls_evaluator (cs1 ++ cs2) w e ->
  forall d1 d2 d sel, expresses cs1 d1 sel -> expresses cs2 d2 sel -> expresses (cs1 ++ cs2) d sel ->
  forall tol hm thrs m1 m2 m, few_labels (cs1 ++ cs2) -> (Z.of_nat (length (cs1 ++ cs2)) < 500000000)%Z ->
  report_metrics e1 tol hm thrs d1 = Some m1 -> report_metrics e2 tol hm thrs d2 = Some m2 -> report_metrics e tol hm thrs d = Some m ->
  forall f, In f [mt_precision; mt_recall; mt_f1] -> forall l t q, In (l, t, Some q) (f m) ->
    (forall q1 q2, In (l, t, Some q1) (f m1) -> In (l, t, Some q2) (f m2) -> lies_between q1 q2 q) /\
    (forall q1, In (l, t, Some q1) (f m1) -> (forall q2, ~ In (l, t, Some q2) (f m2)) -> q = q1) /\
    (forall q2, (forall q1, ~ In (l, t, Some q1) (f m1)) -> In (l, t, Some q2) (f m2) -> q = q2) /\
    ~ ((forall q1, ~ In (l, t, Some q1) (f m1)) /\ (forall q2, ~ In (l, t, Some q2) (f m2))).
Proof. exact union_metrics. Qed.
Print Assumptions C146_cls.
(* precision of "cat" is 2/3, 0 and 2/3; "bird" occurs in the second part only *)
Example C146_cls_example :
  zoo = demo ++ bird_part /\ cls_evaluator demo all_kept (cmem demo) /\ cls_evaluator bird_part all_kept (cfile bird_part) /\
  cls_evaluator zoo all_kept (cmem zoo) /\ Forall distinct_candidates zoo /\ few_labels zoo /\ (Z.of_nat (length zoo) < 500000000)%Z /\
  (exists m1 m2 m, report_metrics (cmem demo) 0 true [4]%Z (fun _ => true) = Some m1 /\ report_metrics (cfile bird_part) 0 true [4]%Z (fun _ => true) = Some m2 /\
     report_metrics (cmem zoo) 0 true [4]%Z (fun _ => true) = Some m /\
     (exists q1 q2 q, In ("cat"%string, 4%Z, Some q1) (mt_precision m1) /\ In ("cat"%string, 4%Z, Some q2) (mt_precision m2) /\ In ("cat"%string, 4%Z, Some q) (mt_precision m) /\
        (q1 == 2 # 3)%Q /\ (q2 == 0)%Q /\ (q == 2 # 3)%Q) /\
     (forall q, ~ In ("bird"%string, 4%Z, Some q) (mt_f1 m1)) /\ (exists q, In ("bird"%string, 4%Z, Some q) (mt_f1 m) /\ (q == 1)%Q)).
Proof.
  split; [reflexivity|]. split; [apply cmem_ok; [exact demo_accepted|vm_compute; discriminate]|].
  split; [apply cfile_ok; [repeat constructor; discriminate|vm_compute; discriminate]|].
  split; [apply cmem_ok; [exact zoo_accepted|vm_compute; discriminate]|]. split; [exact zoo_distinct|].
  split; [unfold few_labels; vm_compute; discriminate|]. split; [reflexivity|].
  do 3 eexists. do 3 (split; [vm_compute; reflexivity|]). cbn [mt_precision mt_f1]. split; [|split].
  - do 3 eexists. do 3 (split; [cbn [In]; tauto|]). repeat split; vm_compute; reflexivity.
  - intros q Hq. cbn [In] in Hq. repeat (destruct Hq as [Hq|Hq]; [discriminate Hq|]). exact Hq.
  - eexists. split; [cbn [In]; tauto|]. vm_compute. reflexivity.
Qed.
