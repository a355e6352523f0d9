(* C143, classification: which scores are equal to zero.
   Vocabulary: ClsFilterSpec.v, ClsReportSpec.v. *)
From Verif Require Import Prelude Counting CacheModel CacheSpec ClsModel ClsSpec ClsLabelProofs ClsProofs ClsConfProofs RocModel RocProofs RocMain RocCurve
  FlowModel FlowProofs FlowMore ClsLemmas ClsMore ClsDemo ClsFilterModel ClsFilterSpec ClsFilterProofs ClsFilterCounts ClsFilterMain ClsFilterRoc ClsFilterProps
  ClsReportModel ClsReportSpec ClsReportProofs ClsReportMore ClsReportProps ClsZeroProofs.
From Coq Require Import String QArith.
Local Notation length := List.length (only parsing).
Local Open Scope nat_scope.
Local Open Scope list_scope.

(* ---------------------------------------------------------------- C143 *)
Theorem C143_cls :
  forall cs, Forall distinct_candidates cs -> forall w e, cls_evaluator cs w e ->
  forall tol hm thrs datums sel m, few_labels cs -> (Z.of_nat (length cs) < 500000000)%Z -> expresses cs datums sel ->
  report_metrics e tol hm thrs datums = Some m ->
  let u := cselect w sel in
  let never l t := forall c, In c cs -> c_groundtruth c = l -> ~ In l (vpositives u hm (pass_counts tol t) c) in
  (forall t a, In (t, a) (mt_accuracy m) -> (a == 0)%Q <-> forall c, In c cs -> ~ In (c_groundtruth c) (vpositives u hm (pass_counts tol t) c)) /\
  (forall l t q, In (l, t, Some q) (mt_precision m) -> (q == 0)%Q <-> never l t) /\
  (forall l t q, In (l, t, Some q) (mt_recall m) -> (q == 0)%Q <-> never l t) /\
  (forall l t q, In (l, t, Some q) (mt_f1 m) -> (q == 0)%Q <-> never l t).
Proof. exact zero_metrics. Qed.
Print Assumptions C143_cls.
(* "cat" is found at threshold 4; at threshold 20 nothing is *)
Example C143_cls_example :
  Forall distinct_candidates demo /\ cls_evaluator demo all_kept (cmem demo) /\ few_labels demo /\ (Z.of_nat (length demo) < 500000000)%Z /\ expresses demo (fun _ => true) all_kept /\
  (exists m, report_metrics (cmem demo) 0 true [4; 20]%Z (fun _ => true) = Some m /\
    (exists q, In ("cat"%string, 4%Z, Some q) (mt_f1 m) /\ ~ (q == 0)%Q) /\ (exists q, In ("cat"%string, 4%Z, Some q) (mt_precision m) /\ ~ (q == 0)%Q) /\
    (exists q, In ("cat"%string, 20%Z, Some q) (mt_f1 m) /\ (q == 0)%Q) /\ (exists q, In ("cat"%string, 20%Z, Some q) (mt_recall m) /\ (q == 0)%Q)).
Proof.
  split; [exact demo_distinct|]. split; [apply cmem_ok; [exact demo_accepted|vm_compute; discriminate]|]. split; [exact demo_few|]. split; [reflexivity|].
  split; [intros r d c _ _ _; reflexivity|]. eexists. split; [vm_compute; reflexivity|]. cbn [mt_recall mt_precision mt_f1].
  split; [|split; [|split]]; eexists; (split; [cbn [In]; tauto|]); vm_compute; (reflexivity || discriminate).
Qed.
