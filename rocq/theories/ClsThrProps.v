(* C139: raising the score threshold of a classification.
   Vocabulary: ClsFilterSpec.v, ClsReportSpec.v, ClsThrSpec.v. *)
From Verif Require Import Prelude Counting CacheModel CacheSpec ClsModel ClsSpec ClsLabelProofs ClsProofs ClsConfProofs RocModel RocProofs RocMain RocCurve
  FlowModel FlowProofs FlowMore ClsLemmas ClsMore ClsDemo ClsFilterModel ClsFilterSpec ClsFilterProofs ClsFilterCounts ClsFilterMain ClsFilterRoc ClsFilterProps
  ClsReportModel ClsReportSpec ClsReportProofs ClsReportMore ClsReportProps ClsThrSpec ClsThrProofs.
From Coq Require Import String QArith Sorted.
Local Notation length := List.length (only parsing).
Local Notation concat := List.concat (only parsing).
Local Open Scope nat_scope.
Local Open Scope list_scope.

(* ---------------------------------------------------------------- C139 *)
(* the thresholds may be asked for in one request or in two, among any other thresholds *)
Theorem C139_positives :
  forall cs, Forall distinct_candidates cs -> forall w e, cls_evaluator cs w e -> forall datums sel, expresses cs datums sel -> few_labels cs ->
  forall tol hm thrs thrs' m m' l t t',
  report_metrics e tol hm thrs datums = Some m -> report_metrics e tol hm thrs' datums = Some m' ->
  In t thrs -> In t' thrs' -> (t <= t')%Z ->
  fewer_positives (counts_at (mt_counts m) l t) (counts_at (mt_counts m') l t').
Proof. exact thr_counts. Qed.
Print Assumptions C139_positives.

Theorem C139_accuracy :
  forall cs, Forall distinct_candidates cs -> forall w e, cls_evaluator cs w e -> forall datums sel, expresses cs datums sel -> few_labels cs ->
  forall tol hm thrs thrs' m m' t t' a a',
  report_metrics e tol hm thrs datums = Some m -> report_metrics e tol hm thrs' datums = Some m' ->
  In (t, a) (mt_accuracy m) -> In (t', a') (mt_accuracy m') -> (t <= t')%Z -> (a' <= a)%Q.
Proof. exact thr_accuracy. Qed.
Print Assumptions C139_accuracy.

(* hardmax has the same effect: it only removes predictions *)
Theorem C139_hardmax_positives :
  forall cs, Forall distinct_candidates cs -> forall w e, cls_evaluator cs w e -> forall datums sel, expresses cs datums sel -> few_labels cs ->
  forall tol thrs thrs' m m' l t,
  report_metrics e tol false thrs datums = Some m -> report_metrics e tol true thrs' datums = Some m' ->
  In t thrs -> In t thrs' -> fewer_positives (counts_at (mt_counts m) l t) (counts_at (mt_counts m') l t).
Proof. exact hardmax_counts. Qed.
Print Assumptions C139_hardmax_positives.

Theorem C139_hardmax_accuracy :
  forall cs, Forall distinct_candidates cs -> forall w e, cls_evaluator cs w e -> forall datums sel, expresses cs datums sel -> few_labels cs ->
  forall tol thrs thrs' m m' t a a',
  report_metrics e tol false thrs datums = Some m -> report_metrics e tol true thrs' datums = Some m' ->
  In (t, a) (mt_accuracy m) -> In (t, a') (mt_accuracy m') -> (a' <= a)%Q.
Proof. exact hardmax_accuracy. Qed.
Print Assumptions C139_hardmax_accuracy.

(* missing: hardmax=False, and data whose ground truths are not among the candidates *)
Theorem C139_false_negatives_partial :
  forall cs, Forall distinct_candidates cs -> forall w e, cls_evaluator cs w e -> forall datums sel, expresses cs datums sel -> few_labels cs ->
  truths_seen (cselect w sel) cs ->
  forall tol thrs thrs' m m' l t t',
  report_metrics e tol true thrs datums = Some m -> report_metrics e tol true thrs' datums = Some m' ->
  In t thrs -> In t' thrs' -> (t <= t')%Z ->
  let c := counts_at (mt_counts m) l t in let c' := counts_at (mt_counts m') l t' in
  n_fn c <= n_fn c' /\ n_tp c' + n_fn c' = n_tp c + n_fn c.
Proof. exact thr_false_negatives. Qed.
Print Assumptions C139_false_negatives_partial.

Theorem C139_recall_partial :
  forall cs, Forall distinct_candidates cs -> forall w e, cls_evaluator cs w e -> forall datums sel, expresses cs datums sel -> few_labels cs ->
  truths_seen (cselect w sel) cs ->
  forall tol thrs thrs' m m' l t t' r r',
  report_metrics e tol true thrs datums = Some m -> report_metrics e tol true thrs' datums = Some m' ->
  In (l, t, Some r) (mt_recall m) -> In (l, t', Some r') (mt_recall m') -> (t <= t')%Z -> (r' <= r)%Q.
Proof. exact thr_recall. Qed.
Print Assumptions C139_recall_partial.

(* missing: a request that lists a higher threshold before the lower one *)
Theorem C139_confusion_partial :
  forall cs, Forall distinct_candidates cs -> forall w e, cls_evaluator cs w e -> forall datums sel, expresses cs datums sel ->
  forall tol9 hm thrs thrs' o o' k k' t t' C U C' U',
  report_confusion e tol9 hm thrs datums = Some o -> report_confusion e tol9 hm thrs' datums = Some o' ->
  nth_error o k = Some (t, (C, U)) -> nth_error o' k' = Some (t', (C', U')) -> StronglySorted Z.le thrs -> (t <= t')%Z ->
  (forall g p, or0 (cell C' g p) <= or0 (cell C g p)) /\ (forall g, or0 (sget U g) <= or0 (sget U' g)).
Proof. exact sorted_confusion. Qed.
Print Assumptions C139_confusion_partial.

(* recall rises with the threshold: the ground truth is predicted at both thresholds, but at
   the lower one another label is predicted too, which is counted as a missed ground truth *)
Definition two_guesses : list classification := [MkCls "u0" "cat" ["cat"; "dog"] [9; 5]%Z]%string.
Theorem C139_recall_without_hardmax_refuted :
  exists cs e m r r', Forall accepted cs /\ Forall distinct_candidates cs /\ Forall covered cs /\ cls_evaluator cs all_kept e /\
    report_metrics e 0 false [4; 6]%Z (fun _ => true) = Some m /\
    In ("cat"%string, 4%Z, Some r) (mt_recall m) /\ In ("cat"%string, 6%Z, Some r') (mt_recall m) /\ (r < r')%Q.
Proof.
  exists two_guesses, (cmem two_guesses). eexists. eexists. eexists.
  assert (A : Forall accepted two_guesses) by (repeat constructor; cbn; discriminate || reflexivity).
  split; [exact A|]. split; [repeat constructor; cbn; intuition discriminate|]. split; [repeat constructor|].
  split; [apply cmem_ok; [exact A|vm_compute; discriminate]|]. split; [vm_compute; reflexivity|].
  split; [left; reflexivity|]. split; [right; left; reflexivity|]. reflexivity.
Qed.
Print Assumptions C139_recall_without_hardmax_refuted.

(* with hardmax too, if a ground truth is not among the candidates of its datum: it is only
   counted as missed while something else is predicted for the datum *)
Definition no_guess : list classification :=
  [MkCls "u0" "cat" ["dog"] [5]%Z; MkCls "u1" "cat" ["cat"; "dog"] [9; 1]%Z]%string.
Theorem C139_recall_uncovered_refuted :
  exists cs e m r r', Forall accepted cs /\ Forall distinct_candidates cs /\ cls_evaluator cs all_kept e /\
    report_metrics e 0 true [4; 6]%Z (fun _ => true) = Some m /\
    In ("cat"%string, 4%Z, Some r) (mt_recall m) /\ In ("cat"%string, 6%Z, Some r') (mt_recall m) /\ (r < r')%Q.
Proof.
  exists no_guess, (cmem no_guess). eexists. eexists. eexists.
  assert (A : Forall accepted no_guess) by (repeat constructor; cbn; discriminate || reflexivity).
  split; [exact A|]. split; [repeat constructor; cbn; intuition discriminate|].
  split; [apply cmem_ok; [exact A|vm_compute; discriminate]|]. split; [vm_compute; reflexivity|].
  split; [left; reflexivity|]. split; [right; left; reflexivity|]. reflexivity.
Qed.
Print Assumptions C139_recall_uncovered_refuted.

(* the matrix listed for 3 has fewer matches than the one listed for 5, since 9 was listed before *)
Theorem C139_confusion_refuted :
  exists cs e o C U C' U', Forall accepted cs /\ Forall distinct_candidates cs /\ cls_evaluator cs all_kept e /\
    report_confusion e 0 true [5; 9; 3]%Z (fun _ => true) = Some o /\
    nth_error o 2 = Some (3%Z, (C, U)) /\ nth_error o 0 = Some (5%Z, (C', U')) /\
    or0 (cell C "dog" "dog") < or0 (cell C' "dog" "dog").
Proof.
  exists demo, (cmem demo). do 5 eexists. split; [exact demo_accepted|]. split; [exact demo_distinct|].
  split; [apply cmem_ok; [exact demo_accepted|vm_compute; discriminate]|]. split; [vm_compute; reflexivity|].
  split; [reflexivity|]. split; [reflexivity|]. vm_compute. lia.
Qed.
Print Assumptions C139_confusion_refuted.

(* the hypotheses hold of a concrete evaluator, and the threshold makes a difference there *)
Example C139_example :
  Forall distinct_candidates demo /\ cls_evaluator demo all_kept (cmem demo) /\ expresses demo (fun _ => true) all_kept /\ few_labels demo /\
  truths_seen (cselect all_kept all_kept) demo /\
  (exists m, report_metrics (cmem demo) 0 true [4; 8]%Z (fun _ => true) = Some m /\
    counts_at (mt_counts m) "cat" 4 = MkCounts 2 1 0 1 /\ counts_at (mt_counts m) "cat" 8 = MkCounts 1 0 1 2) /\
  (exists o C U C' U', report_confusion (cmem demo) 0 true [4; 8]%Z (fun _ => true) = Some o /\ StronglySorted Z.le [4; 8]%Z /\
    nth_error o 0 = Some (4%Z, (C, U)) /\ nth_error o 1 = Some (8%Z, (C', U')) /\
    cell C "cat" "cat" = Some 2 /\ cell C' "cat" "cat" = Some 1 /\ sget U "cat" = Some 0 /\ sget U' "cat" = Some 1).
Proof.
  split; [exact demo_distinct|]. split; [apply cmem_ok; [exact demo_accepted|vm_compute; discriminate]|].
  split; [intros r d c _ _ _; reflexivity|]. split; [exact demo_few|].
  split. { intros c Hc _. split; [|reflexivity]. pose proof demo_covered as X. rewrite Forall_forall in X. exact (X c Hc). }
  split.
  - eexists. split; [vm_compute; reflexivity|]. split; reflexivity.
  - do 5 eexists. split; [vm_compute; reflexivity|]. split; [repeat constructor; lia|]. repeat split; reflexivity.
Qed.
