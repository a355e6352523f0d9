(* C108 and the segmentation part of C110: the metrics of a segmentation evaluator as
   documents.  Vocabulary: MetricSpec.v, SegSpec.v.  Model: MetricModel.v, SegModel.v. *)
From Verif Require Import Prelude CacheModel MetricModel MetricSpec MetricProofs MetricDet MetricMore SegModel SegSpec SegMetricProofs SegStoreProofs SegMore SegDemo.
From Coq Require Import String QArith.
Local Notation length := List.length (only parsing).
Local Open Scope nat_scope.
Local Open Scope list_scope.

(* ---------------------------------------------------------------- C108 *)
Theorem C108_report :
  forall I (new : supply I) ss v e ed sel, obtained ss v e -> Forall clean ss -> countable ss -> datum_expr ss ed sel ->
  exists r, report_docs (seg_metrics new ed e) = Some r /\ agree_reports r (seg_documents ss (with_datums v sel) (seg_labels ss)) /\
    filed r /\ identified (all_docs r).
Proof.
  intros I new ss v e ed sel Ho Hc Hn He. destruct (SegMetricProofs.compute_correct ss v e ed sel Ho Hc Hn He) as (rep & E & Hr).
  destruct (seg_docs new ed e rep ss (with_datums v sel) (seg_labels ss) E Hr) as (r & H1 & H2). exists r. split; [exact H1|]. split; [exact H2|].
  exact (seg_told_apart ss (with_datums v sel) (seg_labels ss) r (SegStoreProofs.seg_labels_NoDup ss) H2).
Qed.
Example C108_example :
  obtained sdemo all_view sdemo_mem /\ Forall clean sdemo /\ countable sdemo /\ datum_expr sdemo None (fun _ => true) /\
  option_map (fun r => (map (fun kd => (fst kd, length (snd kd))) r, nth_error (map snd r) 5)) (report_docs (seg_metrics (fun _ => tt) None sdemo_mem))
  = Some ([("Accuracy", 1); ("ConfusionMatrix", 1); ("mIOU", 1); ("Precision", 3); ("Recall", 3); ("F1", 3); ("IOU", 3)],
      Some [document "F1" (PyFloat (6 # 12)) [("label", PyStr "cat")]; document "F1" (PyFloat (4 # 6)) [("label", PyStr "dog")];
            document "F1" (PyFloat 0) [("label", PyStr "fox")]])%string.
Proof.
  split; [exact sdemo_mem_ok|]. split; [exact sdemo_clean|]. split; [exact sdemo_countable|]. split; [apply none_datum|]. vm_compute. reflexivity.
Qed.
Print Assumptions C108_report.

(* json.loads(json.dumps(metric.to_dict())) *)
Theorem C110_segmentation :
  forall I (new : supply I) ss v e ed sel, obtained ss v e -> Forall clean ss -> countable ss -> datum_expr ss ed sel ->
  forall r d, report_docs (seg_metrics new ed e) = Some r -> In d (all_docs r) -> not_nan d -> json_trip d = d /\ py_eq (json_trip d) d.
Proof.
  intros I new ss v e ed sel Ho Hc Hn He r d E H N. apply json_keeps. destruct (C108_report I new ss v e ed sel Ho Hc Hn He) as (r' & E' & A & _). rewrite E' in E. injection E as <-.
  exact (seg_json ss (with_datums v sel) (seg_labels ss) r' d A H N).
Qed.
Print Assumptions C110_segmentation.
