(* C142, classification: which scores are equal to one.
   Vocabulary: ClsFilterSpec.v, ClsReportSpec.v, ClsPerfectSpec.v. *)
From Verif Require Import Prelude Counting CacheModel CacheSpec ClsModel ClsSpec ClsLabelProofs ClsProofs ClsConfProofs RocModel RocProofs RocMain RocCurve
  FlowModel FlowProofs FlowMore ClsLemmas ClsMore ClsDemo ClsFilterModel ClsFilterSpec ClsFilterProofs ClsFilterCounts ClsFilterMain ClsFilterRoc ClsFilterProps
  ClsReportModel ClsReportSpec ClsReportProofs ClsReportMore ClsReportProps ClsPerfectSpec ClsPerfectProofs.
From Coq Require Import String QArith.
Local Notation length := List.length (only parsing).
Local Notation concat := List.concat (only parsing).
Local Open Scope nat_scope.
Local Open Scope list_scope.

(* ---------------------------------------------------------------- C142 *)
Theorem C142_cls :
  forall cs, Forall distinct_candidates cs -> forall w e, cls_evaluator cs w e ->
  forall tol hm thrs datums sel m, few_labels cs -> expresses cs datums sel -> report_metrics e tol hm thrs datums = Some m ->
  let u := cselect w sel in
  (forall t a, In (t, a) (mt_accuracy m) -> (a == 1)%Q <->
     forall c, In c cs -> visible w c = true -> In (c_groundtruth c) (vpositives u hm (pass_counts tol t) c)) /\
  (forall l t q, In (l, t, Some q) (mt_precision m) -> (q == 1)%Q <-> never_wrong cs u hm (pass_counts tol t) l) /\
  (forall l t q, In (l, t, Some q) (mt_recall m) -> (q == 1)%Q <-> never_missed cs u hm (pass_counts tol t) l) /\
  (forall l t q, In (l, t, Some q) (mt_f1 m) -> (q == 1)%Q <-> never_wrong cs u hm (pass_counts tol t) l /\ never_missed cs u hm (pass_counts tol t) l).
Proof. exact perfect_metrics. Qed.
Print Assumptions C142_cls.
(* at threshold 4 recall of "cat" is 1, at threshold 8 precision is *)
Example C142_cls_example :
  Forall distinct_candidates demo /\ cls_evaluator demo all_kept (cmem demo) /\ few_labels demo /\ expresses demo (fun _ => true) all_kept /\
  (exists m, report_metrics (cmem demo) 0 true [4; 8]%Z (fun _ => true) = Some m /\
    (exists q, In ("cat"%string, 4%Z, Some q) (mt_recall m) /\ (q == 1)%Q) /\ (exists q, In ("cat"%string, 4%Z, Some q) (mt_precision m) /\ ~ (q == 1)%Q) /\
    (exists q, In ("cat"%string, 8%Z, Some q) (mt_recall m) /\ ~ (q == 1)%Q) /\ (exists q, In ("cat"%string, 8%Z, Some q) (mt_precision m) /\ (q == 1)%Q)).
Proof.
  split; [exact demo_distinct|]. split; [apply cmem_ok; [exact demo_accepted|vm_compute; discriminate]|]. split; [exact demo_few|].
  split; [intros r d c _ _ _; reflexivity|]. eexists. split; [vm_compute; reflexivity|]. cbn [mt_recall mt_precision].
  split; [|split; [|split]]; eexists; (split; [cbn [In]; tauto|]); vm_compute; (reflexivity || discriminate).
Qed.
