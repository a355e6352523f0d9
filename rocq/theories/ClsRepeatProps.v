(* C140, classification: every datum evaluated n times.
   Vocabulary: RepeatSpec.v ([copies n cs cs'] lists every datum of cs n times, in any
   order), ClsFilterSpec.v, ClsReportSpec.v, ClsThrSpec.v. *)
From Verif Require Import Prelude Counting CacheModel CacheSpec ClsModel ClsSpec ClsLabelProofs ClsProofs ClsConfProofs RocModel RocProofs RocMain RocCurve
  FlowModel FlowProofs FlowMore ClsLemmas ClsMore ClsDemo ClsFilterModel ClsFilterSpec ClsFilterProofs ClsFilterCounts ClsFilterMain ClsFilterRoc ClsFilterProps
  ClsReportModel ClsReportSpec ClsReportProofs ClsReportMore ClsReportProps ClsThrSpec ClsThrProofs RepeatSpec RepeatProofs ClsRepeatProofs.
From Coq Require Import String QArith.
Local Notation length := List.length (only parsing).
Local Notation concat := List.concat (only parsing).
Local Open Scope nat_scope.
Local Open Scope list_scope.

(* ---------------------------------------------------------------- C140 *)
Theorem C140_cls_metrics :
  forall n cs cs', 0 < n -> copies n cs cs' -> Forall distinct_candidates cs ->
  forall w e e', cls_evaluator cs w e -> cls_evaluator cs' w e' ->
  forall datums datums' sel, expresses cs datums sel -> expresses cs' datums' sel ->
  forall tol hm thrs m m', few_labels cs ->
  report_metrics e tol hm thrs datums = Some m -> report_metrics e' tol hm thrs datums' = Some m' ->
  (forall l t, In t thrs -> let c := counts_at (mt_counts m) l t in
     counts_at (mt_counts m') l t = MkCounts (n * n_tp c) (n * n_fp c) (n * n_fn c) (n * n_tn c)) /\
  (forall t a a', In (t, a) (mt_accuracy m) -> In (t, a') (mt_accuracy m') -> (a == a')%Q) /\
  (forall l t q q', In (l, t, Some q) (mt_precision m) -> In (l, t, Some q') (mt_precision m') -> (q == q')%Q) /\
  (forall l t q q', In (l, t, Some q) (mt_recall m) -> In (l, t, Some q') (mt_recall m') -> (q == q')%Q) /\
  (forall l t q q', In (l, t, Some q) (mt_f1 m) -> In (l, t, Some q') (mt_f1 m') -> (q == q')%Q).
Proof. exact copies_metrics. Qed.
Print Assumptions C140_cls_metrics.
Theorem C140_cls_confusion :
  forall n cs cs', copies n cs cs' -> Forall distinct_candidates cs ->
  forall w e e', cls_evaluator cs w e -> cls_evaluator cs' w e' ->
  forall datums datums' sel, expresses cs datums sel -> expresses cs' datums' sel ->
  forall tol9 hm thrs o o' k t C U t' C' U',
  report_confusion e tol9 hm thrs datums = Some o -> report_confusion e' tol9 hm thrs datums' = Some o' ->
  nth_error o k = Some (t, (C, U)) -> nth_error o' k = Some (t', (C', U')) ->
  t' = t /\ (forall g p, or0 (cell C' g p) = n * or0 (cell C g p)) /\ (forall g, or0 (sget U' g) = n * or0 (sget U g)).
Proof. exact copies_confusion. Qed.
Print Assumptions C140_cls_confusion.
(* rows, labels, datums *)
Theorem C140_cls_info :
  forall n cs cs', 0 < n -> copies n cs cs' -> Forall distinct_candidates cs ->
  forall w e e', cls_evaluator cs w e -> cls_evaluator cs' w e' ->
  forall datums datums' sel, expresses cs datums sel -> expresses cs' datums' sel ->
  cls_info datums' e' = (n * fst (fst (cls_info datums e)), snd (fst (cls_info datums e)), n * snd (cls_info datums e)).
Proof. exact copies_info. Qed.
Print Assumptions C140_cls_info.
Theorem C140_cls_rocauc :
  forall n cs cs', 0 < n -> copies n cs cs' -> Forall distinct_candidates cs ->
  forall w e e', cls_evaluator cs w e -> cls_evaluator cs' w e' ->
  forall l, In l (labels_of cs) -> safe_curve w cs e l -> safe_curve w cs' e' l ->
  top_nonzero (outcomes l (reduced w cs)) -> truths_seen w cs -> (Z.of_nat (length cs') < 2 ^ 64)%Z ->
  exists v v', sget (fst (report_rocauc e)) l = Some (Some v) /\ sget (fst (report_rocauc e')) l = Some (Some v') /\ (v == v')%Q.
Proof. exact copies_rocauc. Qed.
Print Assumptions C140_cls_rocauc.
Example C140_cls_example :
  copies 2 demo (demo ++ demo) /\ Forall distinct_candidates demo /\ few_labels demo /\
  cls_evaluator demo all_kept (cmem demo) /\ cls_evaluator (demo ++ demo) all_kept (cmem (demo ++ demo)) /\
  expresses demo (fun _ => true) all_kept /\ expresses (demo ++ demo) (fun _ => true) all_kept /\ truths_seen all_kept demo /\
  (exists m m', report_metrics (cmem demo) 0 true [4]%Z (fun _ => true) = Some m /\
    report_metrics (cmem (demo ++ demo)) 0 true [4]%Z (fun _ => true) = Some m' /\
    counts_at (mt_counts m) "cat" 4 = MkCounts 2 1 0 1 /\ counts_at (mt_counts m') "cat" 4 = MkCounts 4 2 0 2) /\
  sget (fst (report_rocauc (cmem (demo ++ demo)))) "cat" <> None.
Proof.
  split; [unfold copies; cbn [repeat List.concat]; rewrite app_nil_r; reflexivity|]. split; [exact demo_distinct|]. split; [exact demo_few|].
  split; [apply cmem_ok; [exact demo_accepted|vm_compute; discriminate]|].
  split; [apply cmem_ok; [apply Forall_app; split; exact demo_accepted|vm_compute; discriminate]|].
  split; [intros r d c _ _ _; reflexivity|]. split; [intros r d c _ _ _; reflexivity|].
  split. { intros c Hc _. split; [|reflexivity]. pose proof demo_covered as X. rewrite Forall_forall in X. exact (X c Hc). }
  split; [|vm_compute; discriminate]. do 2 eexists. split; [vm_compute; reflexivity|]. split; [vm_compute; reflexivity|]. split; reflexivity.
Qed.
