(* C106, C107, C109, C110: the metrics that the evaluators return, as the documents of to_dict: which
   keys, which types, values and parameters, in which order; that documents are told apart
   by type and parameters; which objects metrics share; what JSON keeps.
   Vocabulary: MetricSpec.v and the Spec files of the values.  Model: MetricModel.v. *)
From Verif Require Import Prelude PageSpec Counting CacheModel CacheSpec ClsModel ClsSpec RocModel FlowModel ClsLabelProofs ClsLemmas ClsDemo ClsFilterModel ClsFilterSpec ClsFilterProofs ClsFilterMain
  ClsFilterProps ClsReportModel ClsReportSpec ClsReportProofs ClsPageModel ClsPageSpec ClsPageProofs ClsCellModel ClsCellSpec ClsCellProofs
  DetModel DetExModel DetSpec DetFlowModel DetReportModel DetScoreModel DetEnd DetDemo DetFilterModel DetFilterSpec DetFilterProps DetTurnSpec DetCellModel DetCellSpec DetCellProofs
  MetricModel MetricSpec MetricProofs MetricDet MetricMore MetricInside.
From Coq Require Import String QArith.
Local Notation length := List.length (only parsing).
Local Open Scope nat_scope.
Local Open Scope list_scope.

(* ---------------------------------------------------------------- C106 *)
(* compute_precision_recall of a classification evaluator, key by key *)
Theorem C106_report :
  forall I (new : supply I) cs w e, Forall distinct_candidates cs -> cls_evaluator cs w e -> few_labels cs ->
  forall tol hm thrs datums sel, expresses cs datums sel ->
  (thrs = [] -> cls_precision_recall new tol hm thrs datums e = None) /\
  (thrs <> [] -> exists ls, Permutation ls (labels_of cs) /\
    let u := cselect w sel in
    let r := cls_documents hm ls thrs (fun t => data_accuracy w u hm (pass_counts tol t) cs) (fun l t => data_counts u hm (pass_counts tol t) cs l) in
    report_docs (cls_precision_recall new tol hm thrs datums e) = Some r /\ filed r /\ identified (all_docs r)).
Proof.
  intros I new cs w e Hd He Hf tol hm thrs datums sel Hs. split; [intros ->; reflexivity|]. intros Hn.
  destruct (metrics_report cs Hd w e He Hf tol hm thrs datums sel Hs Hn) as (ls & HP & _ & E). exists ls. split; [exact HP|]. split; [exact (cls_docs hm new tol thrs datums e ls _ _ Hn E)|].
  apply cls_told_apart.
Qed.
Print Assumptions C106_report.
(* compute_rocauc *)
Theorem C106_rocauc :
  forall I (new : supply I) cs w e, Forall distinct_candidates cs -> cls_evaluator cs w e ->
  exists ls vs, Permutation ls (labels_of cs) /\ Forall2 (fun l v => exists i, has_number e l i /\ nth_error (cls_rocauc e) i = Some v) ls vs /\
  report_docs (cls_rocauc_metrics new e) = Some (roc_documents (combine ls vs) (mean (cls_rocauc e))).
Proof.
  intros I new cs w e Hd He. destruct (rocauc_report cs Hd w e He) as (ls & HP & _ & H1 & H2 & H3).
  destruct (cls_rocauc_docs new e ls H1 H2 H3) as (vs & F & E). exists ls, vs. split; [exact HP|]. split; [exact F|exact E].
Qed.
Print Assumptions C106_rocauc.
(* compute_confusion_matrix: one document per threshold, in order *)
Theorem C106_matrices :
  forall I (new : supply I) cs w e, Forall distinct_candidates cs -> cls_evaluator cs w e ->
  forall tol9 hm thrs datums sel, expresses cs datums sel -> thrs <> [] ->
  exists ls, Permutation ls (labels_of cs) /\
  list_docs (cls_confusion_report new tol9 hm thrs datums e)
  = Some (map (fun pt => cls_matrix_document hm ls (cselect w sel) (pass_cm tol9 (fst pt)) cs (snd pt)) (prefixes thrs)).
Proof.
  intros I new cs w e Hd He tol9 hm thrs datums sel Hs Hn. destruct (confusion_report cs Hd w e He tol9 hm thrs datums sel Hs Hn) as (ls & HP & _ & out & E & F & G).
  exists ls. split; [exact HP|]. exact (cls_matrix_docs hm new tol9 thrs datums e ls out (cselect w sel) cs E F G).
Qed.
Print Assumptions C106_matrices.
(* compute_examples: the datums of the page, each with one document per threshold *)
Theorem C106_examples :
  forall I (new : supply I) cs w e datums sel tol9 hm thrs limit offset,
  cls_evaluator cs w e -> few_labels cs -> Forall distinct_candidates cs -> expresses cs datums sel -> thrs <> [] ->
  let u := cselect w sel in
  list_docs (cls_examples_report new tol9 hm thrs datums limit offset e)
  = Some (each (page_of limit offset (filter (visible u) cs)) (prefixes thrs)
      (fun c pt => example_doc hm cs (vpositives u hm (pass_cm tol9 (fst pt)) c) (snd pt) c)).
Proof.
  intros I new cs w e datums sel tol9 hm thrs limit offset He Hf Hd Hs Hn u. apply cls_examples_docs.
  exact (cls_examples_page cs w e datums sel He Hf Hd Hs tol9 hm thrs limit offset Hn).
Qed.
Print Assumptions C106_examples.
(* compute_confusion_matrix_with_examples *)
Theorem C106_matrices_with_examples :
  forall I (new : supply I) cs w e, Forall distinct_candidates cs -> cls_evaluator cs w e ->
  forall tol9 hm thrs datums sel, expresses cs datums sel -> thrs <> [] ->
  list_docs (cls_confusion_examples_report new tol9 hm thrs datums e)
  = Some (map (fun pt => cls_matrix_examples_document hm (map snd (ce_labels e)) (cselect w sel) (pass_cm tol9 (fst pt)) cs (snd pt)) (prefixes thrs)).
Proof.
  intros I new cs w e Hd He tol9 hm thrs datums sel Hs Hn. apply cls_matrix_examples_docs. exact (cls_confusion_examples_meaning cs w e datums sel tol9 hm thrs He Hd Hs Hn).
Qed.
Print Assumptions C106_matrices_with_examples.
(* the matrices are told apart by their parameters when no threshold is repeated *)
Theorem C106_told_apart_partial :
  forall I (new : supply I) cs w e, Forall distinct_candidates cs -> cls_evaluator cs w e ->
  forall tol9 hm thrs datums sel, expresses cs datums sel -> NoDup thrs ->
  forall ds, list_docs (cls_confusion_report new tol9 hm thrs datums e) = Some ds \/ list_docs (cls_confusion_examples_report new tol9 hm thrs datums e) = Some ds -> identified ds.
Proof.
  intros I new cs w e Hd He tol9 hm thrs datums sel Hs N ds H.
  assert (Hn : thrs <> []) by (intros ->; destruct H; discriminate). destruct H as [H|H].
  - destruct (C106_matrices I new cs w e Hd He tol9 hm thrs datums sel Hs Hn) as (ls & _ & E). rewrite E in H. injection H as <-.
    exact (prefixes_told_apart hm "ConfusionMatrix" (fun pre t => let u := cselect w sel in let pass := pass_cm tol9 pre in
      obj [("confusion_matrix", matrix_doc ls (fun g p => int (data_cell u hm pass cs g p)));
           ("unmatched_ground_truths", row_doc ls (fun g => int (data_missed u hm pass cs g)))]%string) thrs N).
  - rewrite (C106_matrices_with_examples I new cs w e Hd He tol9 hm thrs datums sel Hs Hn) in H. injection H as <-.
    exact (prefixes_told_apart hm "ConfusionMatrixWithExamples" (fun pre t => let u := cselect w sel in let pass := pass_cm tol9 pre in
      obj [("confusion_matrix", matrix_doc (map snd (ce_labels e)) (fun g p => cell_doc
               (fun c => obj (("datum_id", PyStr (c_uid c)) :: match score_of p c with Some s => [("score", PyScore s)] | None => [] end))
               (filter (fun c => String.eqb (c_groundtruth c) g && smem p (vpositives u hm pass c)) cs)));
            ("unmatched_ground_truths", row_doc (map snd (ce_labels e)) (fun g => cell_doc (fun c => obj [("datum_id", PyStr (c_uid c))])
               (filter (fun c => visible u c && (String.eqb (c_groundtruth c) g
                  && match vpositives u hm pass c with [] => true | _ => false end)) cs)))]%string) thrs N).
Qed.
Print Assumptions C106_told_apart_partial.

(* with a repeated threshold two matrices have the same type and parameters and different
   cells: the second 4 is listed after 8 and keeps only the scores that reach 8 *)
Theorem C106_told_apart_refuted :
  exists cs e thrs ds, Forall distinct_candidates cs /\ few_labels cs /\ cls_evaluator cs all_kept e /\ ~ NoDup thrs /\
  list_docs (cls_confusion_report (fun _ => tt) 0 true thrs (fun _ => true) e) = Some ds /\ ~ identified ds.
Proof.
  exists demo, (cmem demo), [4; 8; 4]%Z. eexists. split; [exact demo_distinct|]. split; [exact demo_few|]. split; [apply cmem_ok; [exact demo_accepted|vm_compute; discriminate]|].
  split; [intros N; inversion N as [|? ? H _]; apply H; right; left; reflexivity|]. split; [vm_compute; reflexivity|].
  intros H. assert (X := H _ _ (or_introl eq_refl) (or_intror (or_intror (or_introl eq_refl))) eq_refl eq_refl). discriminate X.
Qed.
Print Assumptions C106_told_apart_refuted.
Example C106_example :
  cls_evaluator demo all_kept (cmem demo) /\ Forall distinct_candidates demo /\ few_labels demo /\ expresses demo (fun _ => true) all_kept /\
  list_docs (cls_examples_report (fun _ => tt) 0 true [4]%Z (fun _ => true) (Some 1) 1 (cmem demo))
  = Some [obj [("type", PyStr "Examples");
       ("value", obj [("datum_id", PyStr "u1"); ("true_positives", arr []); ("false_positives", arr [PyStr "cat"]); ("false_negatives", arr [PyStr "dog"])]);
       ("parameters", obj [("score_threshold", PyScore 4); ("hardmax", PyBool true)])]]%string /\
  option_map (map fst) (report_docs (cls_precision_recall (fun _ => tt) 0 true [4]%Z (fun _ => true) (cmem demo))) = Some ["Accuracy"; "Counts"; "Precision"; "Recall"; "F1"]%string.
Proof.
  split; [apply cmem_ok; [exact demo_accepted|vm_compute; discriminate]|]. split; [exact demo_distinct|]. split; [exact demo_few|].
  split; [apply expresses_all|]. split; vm_compute; reflexivity.
Qed.

(* ---------------------------------------------------------------- C107 *)
(* compute_precision_recall of an object detection evaluator, key by key *)
Theorem C107_report :
  forall I (new : supply I) iobj sobj eps unit ds L w e, det_input unit ds -> shows eps unit ds L w e ->
  exists ls, numbered_labels e ds ls /\ forall datums ious scores,
  (ious = [] \/ scores = [] -> det_precision_recall new eps e datums iobj sobj ious scores = None) /\
  (ious <> [] -> scores <> [] -> let r := det_documents ls ious scores eps e datums in
    report_docs (det_precision_recall new eps e datums iobj sobj ious scores) = Some r /\ filed r /\ identified (all_docs r)).
Proof.
  intros I new iobj sobj eps unit ds L w e Hin Hsh. destruct (det_numbered eps unit ds L w e Hin Hsh) as (ls & Hls & E & F). exists ls. split; [exact Hls|].
  intros datums ious scores. split.
  - intros [->| ->]; [reflexivity|]. destruct ious; reflexivity.
  - intros Hi Hs. split; [exact (det_docs eps e datums ls E F new iobj sobj ious scores Hi Hs)|]. apply det_told_apart. exact (proj1 Hls).
Qed.
Print Assumptions C107_report.
(* compute_confusion_matrix: one document per IoU threshold and score threshold *)
Theorem C107_matrices :
  forall I (new : supply I) eps unit ds L w e, (0 <= unit)%Z -> det_input unit ds -> few_annotations ds -> Forall distinct_pd_labels ds -> shows eps unit ds L w e ->
  forall sel datums, det_selects ds datums sel -> forall names, named e ds names ->
  forall ious scores, ious <> [] -> scores <> [] ->
  let r := each ious scores (det_matrix_doc names eps (map (pruned (by_selection w sel)) ds)) in
  list_docs (det_confusion_report new eps ious scores datums e) = Some r /\ identified r.
Proof.
  intros I new eps unit ds L w e Hu Hin Hann Hdis Hsh sel datums Hsel names Hn ious scores Hi Hs r. split.
  - apply det_matrix_docs. exact (det_confusion_meaning eps unit ds L w e Hu Hin Hann Hdis Hsh sel datums Hsel names Hn ious scores Hi Hs).
  - exact (det_pairs_told_apart "ConfusionMatrix" _ ious scores).
Qed.
Print Assumptions C107_matrices.
Theorem C107_examples :
  forall I (new : supply I) eps unit ds L w e, (0 <= unit)%Z -> det_input unit ds -> few_det_labels ds -> few_annotations ds ->
  Forall distinct_pd_labels ds -> shows eps unit ds L w e -> forall sel datums, det_selects ds datums sel ->
  forall ious scores limit offset, ious <> [] -> scores <> [] ->
  list_docs (det_examples_report new eps ious scores datums limit offset e)
  = Some (flat_map (fun d => each ious scores (det_example_doc eps d)) (page_of limit offset (filter shown_image (map (pruned (by_selection w sel)) ds)))).
Proof.
  intros I new eps unit ds L w e Hu Hin Hf Hann Hdis Hsh sel datums Hsel ious scores limit offset Hi Hs. apply det_examples_docs.
  exact (det_examples_meaning eps unit ds L w e Hu Hin Hf Hann Hdis Hsh sel datums Hsel ious scores limit offset Hi Hs).
Qed.
Print Assumptions C107_examples.
Theorem C107_matrices_with_examples :
  forall I (new : supply I) eps unit ds L w e, (0 <= unit)%Z -> det_input unit ds -> few_annotations ds -> Forall distinct_pd_labels ds -> shows eps unit ds L w e ->
  forall sel datums, det_selects ds datums sel -> forall names, named e ds names ->
  forall ious scores, ious <> [] -> scores <> [] ->
  let r := each ious scores (det_matrix_examples_doc names eps (map (pruned (by_selection w sel)) ds)) in
  list_docs (det_confusion_examples_report new eps ious scores datums e) = Some r /\ identified r.
Proof.
  intros I new eps unit ds L w e Hu Hin Hann Hdis Hsh sel datums Hsel names Hn ious scores Hi Hs r. split.
  - apply det_matrix_examples_docs. exact (det_confusion_examples_meaning eps unit ds L w e Hu Hin Hann Hdis Hsh sel datums Hsel names Hn ious scores Hi Hs).
  - exact (det_pairs_told_apart "ConfusionMatrixWithExamples" _ ious scores).
Qed.
Print Assumptions C107_matrices_with_examples.

Local Notation half := 500000000%Z.
Example C107_example :
  det_input one ddemo /\ shows 1 one ddemo pets full_view ddemo_mem /\ named ddemo_mem ddemo pets /\ few_det_labels ddemo /\ few_annotations ddemo /\
  option_map (map (fun kd => (fst kd, length (snd kd)))) (report_docs (det_precision_recall (fun _ => tt) 1 ddemo_mem (fun _ => true) tt tt [half] [half; 800000000%Z]))
  = Some [("AP", 2); ("mAP", 1); ("APAveragedOverIOUs", 2); ("mAPAveragedOverIOUs", 1); ("AR", 4); ("mAR", 2); ("ARAveragedOverScores", 2); ("mARAveragedOverScores", 1);
          ("PrecisionRecallCurve", 2); ("Counts", 4); ("Precision", 4); ("Recall", 4); ("F1", 4)]%string /\
  list_docs (det_examples_report (fun _ => tt) 1 [half] [half] (fun _ => true) (Some 1) 0 ddemo_mem)
  = Some [obj [("type", PyStr "Examples");
       ("value", obj [("datum_id", PyStr "img0"); ("true_positives", arr [PyTuple [PyStr "a"; PyStr "x"]]); ("false_positives", arr [PyStr "y"; PyStr "z"]); ("false_negatives", arr [PyStr "b"])]);
       ("parameters", obj [("score_threshold", PyScore half); ("iou_threshold", PyScore half)])]]%string.
Proof.
  split; [exact ddemo_input|]. split; [apply ddemo_shows|]. split.
  { split; [reflexivity|]. split; [repeat (constructor; [cbn; intuition discriminate|]); constructor|intros v; cbn; intuition congruence]. }
  split; [exact ddemo_few|]. split; [exact ddemo_ann|]. split; vm_compute; reflexivity.
Qed.

(* ---------------------------------------------------------------- C109 *)
(* to_dict returns new objects with the contents of the metric: no later change of other
   objects reaches them *)
Theorem C109_snapshot :
  forall c (m : metric oid) l, (forall ic p, In ic l -> fst ic <> Made c p) ->
  edits l (to_dict (Made c) m) = to_dict (Made c) m /\ copy (fun _ => tt) (to_dict (Made c) m) = contents m.
Proof. exact snapshot. Qed.
Print Assumptions C109_snapshot.
(* and changing the result of to_dict does not change the metric *)
Theorem C109_copy :
  forall c (m : metric oid) l, (forall i, In i (mids m) -> forall p, i <> Made c p) ->
  (forall ic, In ic l -> In (fst ic) (ids (to_dict (Made c) m))) -> edits_metric l m = m.
Proof. exact snapshot_back. Qed.
Print Assumptions C109_copy.
(* two metrics of one call share nothing but lists that the caller passed *)
Theorem C109_sharing :
  forall c own r k n m k' n' m' i, returned c own r -> metric_at r k n m -> metric_at r k' n' m' -> (k, n) <> (k', n') ->
  In i (mids m) -> In i (mids m') -> own i.
Proof. exact sharing. Qed.
Print Assumptions C109_sharing.
(* nor do metrics of different calls *)
Theorem C109_calls :
  forall c own r c' own' r' k n m k' n' m' i, returned c own r -> returned c' own' r' -> c <> c' -> metric_at r k n m -> metric_at r' k' n' m' ->
  In i (mids m) -> In i (mids m') -> own i \/ own' i.
Proof. exact sharing_calls. Qed.
Print Assumptions C109_calls.
(* inside one metric no list or dictionary is at two places, but lists of the caller; in the
   result of to_dict none is *)
Theorem C109_inside :
  (forall c own r k n m, returned c own r -> metric_at r k n m -> proper (me_value m) -> once own (mids m)) /\
  (forall c (m : metric oid), proper (me_value m) -> proper (me_parameters m) -> NoDup (ids (to_dict (Made c) m))).
Proof. split; [exact inside|exact (@dict_inside oid)]. Qed.
Print Assumptions C109_inside.
Definition inside_demo : metric oid := Eval vm_compute in
  match det_confusion_examples_report (Made 0) 1 [half] [half] (fun _ => true) ddemo_mem with Some (m :: _) => m | _ => MkMetric "" PyNone PyNone end.
Example C109_inside_example :
  (exists l, det_confusion_examples_report (Made 0) 1 [half] [half] (fun _ => true) ddemo_mem = Some (inside_demo :: l)) /\
  proper (me_value inside_demo) /\ proper (me_parameters inside_demo) /\ 20 <= length (mids inside_demo).
Proof.
  split; [eexists; vm_compute; reflexivity|]. split; [|split].
  - vm_compute. repeat (split; [|try exact I]); repeat (constructor; [cbn; intuition discriminate|]); try constructor.
  - vm_compute. repeat (split; [|try exact I]); repeat (constructor; [cbn; intuition discriminate|]); try constructor.
  - apply PeanoNat.Nat.leb_le. vm_compute. reflexivity.
Qed.
(* so a change inside one metric is seen in no other one, unless the object is a list that
   the caller passed *)
Theorem C109_change_partial :
  forall c own r k n m k' n' m' i ch, returned c own r -> metric_at r k n m -> metric_at r k' n' m' -> (k, n) <> (k', n') ->
  In i (mids m) -> ~ own i -> edit_metric i ch m' = m'.
Proof.
  intros c own r k n m k' n' m' i ch R A A' D Hi N. apply edit_metric_absent. intros Hi'. apply N. exact (sharing c own r k n m k' n' m' i R A A' D Hi Hi').
Qed.
Print Assumptions C109_change_partial.
(* the thresholds passed to the object detection evaluator are such lists: changing the
   parameters of one metric changes another metric of the report *)
Definition shared_report : report oid := Eval vm_compute in
  match det_precision_recall (Made 0) 1 ddemo_mem (fun _ => true) (Mine 0) (Mine 1) [half] [half] with Some r => r | None => [] end.
Theorem C109_change_refuted :
  exists ious scores r m m' i ch, det_precision_recall (Made 0) 1 ddemo_mem (fun _ => true) (Mine 0) (Mine 1) ious scores = Some r /\
  metric_at r "AR" 0 m /\ metric_at r "mAR" 0 m' /\ In i (ids (me_parameters m)) /\ contents (edit_metric i ch m') <> contents m'.
Proof.
  exists [half], [half], shared_report. do 2 eexists. exists (Mine 0), (SetList []). split; [vm_compute; reflexivity|].
  split; [eexists; split; [do 4 right; left; reflexivity|reflexivity]|]. split; [eexists; split; [do 5 right; left; reflexivity|reflexivity]|].
  split; [vm_compute; auto|]. vm_compute. discriminate.
Qed.
Print Assumptions C109_change_refuted.
Example C109_example :
  exists m m', returned 0 (fun x => x = Mine 0 \/ x = Mine 1) shared_report /\ metric_at shared_report "AP" 0 m /\ metric_at shared_report "AP" 1 m' /\
  length (mids m) = 1 /\ (forall i, In i (mids m) -> ~ (i = Mine 0 \/ i = Mine 1)) /\ contents m <> contents m'.
Proof.
  do 2 eexists. split; [apply (Ret_det 0 1 ddemo_mem (fun _ => true) 0 1 [half] [half]); vm_compute; reflexivity|].
  split; [eexists; split; [left; reflexivity|reflexivity]|]. split; [eexists; split; [left; reflexivity|reflexivity]|].
  split; [reflexivity|]. split; [|vm_compute; discriminate]. intros i [<-|[]] [H|H]; discriminate H.
Qed.

(* ---------------------------------------------------------------- C110 *)
(* json.loads(json.dumps(metric.to_dict())) *)
Theorem C110_classification :
  forall I (new : supply I) cs w e, Forall distinct_candidates cs -> cls_evaluator cs w e -> few_labels cs ->
  forall tol hm thrs datums sel limit offset, expresses cs datums sel ->
  forall d, (exists r, report_docs (cls_precision_recall new tol hm thrs datums e) = Some r /\ In d (all_docs r)) \/
            (exists r, report_docs (cls_rocauc_metrics new e) = Some r /\ In d (all_docs r) /\ not_nan d) \/
            (exists ds, list_docs (cls_confusion_report new tol hm thrs datums e) = Some ds /\ In d ds) \/
            (exists ds, list_docs (cls_examples_report new tol hm thrs datums limit offset e) = Some ds /\ In d ds) \/
            (exists ds, list_docs (cls_confusion_examples_report new tol hm thrs datums e) = Some ds /\ In d ds) ->
  json_trip d = d /\ py_eq (json_trip d) d.
Proof.
  intros I new cs w e Hd He Hf tol hm thrs datums sel limit offset Hs d H. apply json_keeps.
  destruct H as [(r & E & H)|[(r & E & H & N)|[(ds & E & H)|[(ds & E & H)|(ds & E & H)]]]].
  - destruct (C106_report I new cs w e Hd He Hf tol hm thrs datums sel Hs) as [X Y]. destruct thrs as [|t0 ts]; [rewrite (X eq_refl) in E; discriminate|].
    destruct Y as (ls & _ & E' & _); [discriminate|]. rewrite E' in E. injection E as <-. eapply cls_plain. exact H.
  - destruct (C106_rocauc I new cs w e Hd He) as (ls & vs & _ & _ & E'). rewrite E' in E. injection E as <-. eapply roc_plain; [exact H|exact N].
  - assert (Hn : thrs <> []) by (intros ->; discriminate). destruct (C106_matrices I new cs w e Hd He tol hm thrs datums sel Hs Hn) as (ls & _ & E'). rewrite E' in E. injection E as <-.
    apply in_map_iff in H. destruct H as (x & <- & _). apply cls_matrix_plain.
  - assert (Hn : thrs <> []) by (intros ->; discriminate). rewrite (C106_examples I new cs w e datums sel tol hm thrs limit offset He Hf Hd Hs Hn) in E. injection E as <-.
    apply in_each in H. destruct H as (c & pt & <-). apply cls_example_plain.
  - assert (Hn : thrs <> []) by (intros ->; discriminate). rewrite (C106_matrices_with_examples I new cs w e Hd He tol hm thrs datums sel Hs Hn) in E. injection E as <-.
    apply in_map_iff in H. destruct H as (x & <- & _). apply cls_matrix_examples_plain.
Qed.
Print Assumptions C110_classification.
(* everything of an object detection evaluator but the examples *)
Theorem C110_detection_partial :
  forall I (new : supply I) iobj sobj eps unit ds L w e, (0 <= unit)%Z -> det_input unit ds -> few_annotations ds -> Forall distinct_pd_labels ds -> shows eps unit ds L w e ->
  forall sel datums, det_selects ds datums sel -> forall ious scores,
  forall d, (exists r, report_docs (det_precision_recall new eps e datums iobj sobj ious scores) = Some r /\ In d (all_docs r) /\ not_nan d) \/
            (exists r, list_docs (det_confusion_report new eps ious scores datums e) = Some r /\ In d r) \/
            (exists r, list_docs (det_confusion_examples_report new eps ious scores datums e) = Some r /\ In d r) ->
  json_trip d = d /\ py_eq (json_trip d) d.
Proof.
  intros I new iobj sobj eps unit ds L w e Hu Hin Hann Hdis Hsh sel datums Hsel ious scores d H. apply json_keeps.
  assert (Hn := e_named eps unit ds L w e Hin Hsh). destruct (C107_report I new iobj sobj eps unit ds L w e Hin Hsh) as (ls & _ & R). destruct (R datums ious scores) as [R1 R2].
  destruct H as [(r & E & H & N)|[(r & E & H)|(r & E & H)]].
  - assert (Hi : ious <> []) by (intros ->; rewrite (R1 (or_introl eq_refl)) in E; discriminate). assert (Hs : scores <> []) by (intros ->; rewrite (R1 (or_intror eq_refl)) in E; discriminate).
    destruct (R2 Hi Hs) as (E' & _). rewrite E' in E. injection E as <-. eapply det_plain; [exact H|exact N].
  - assert (Hi : ious <> []) by (intros ->; discriminate). assert (Hs : scores <> []) by (intros ->; destruct ious; discriminate).
    destruct (C107_matrices I new eps unit ds L w e Hu Hin Hann Hdis Hsh sel datums Hsel _ Hn ious scores Hi Hs) as [E' _]. rewrite E' in E. injection E as <-.
    apply in_each in H. destruct H as (t & s & <-). apply det_matrix_plain.
  - assert (Hi : ious <> []) by (intros ->; discriminate). assert (Hs : scores <> []) by (intros ->; destruct ious; discriminate).
    destruct (C107_matrices_with_examples I new eps unit ds L w e Hu Hin Hann Hdis Hsh sel datums Hsel _ Hn ious scores Hi Hs) as [E' _]. rewrite E' in E. injection E as <-.
    apply in_each in H. destruct H as (t & s & <-). apply det_matrix_examples_plain.
Qed.
Print Assumptions C110_detection_partial.
(* the pairs of an object detection example are tuples, which JSON turns into lists *)
Theorem C110_detection_refuted :
  exists ds d, list_docs (det_examples_report (fun _ => tt) 1 [half] [half] (fun _ => true) None 0 ddemo_mem) = Some ds /\ In d ds /\ not_nan d /\ ~ py_eq (json_trip d) d.
Proof.
  eexists. eexists. split; [vm_compute; reflexivity|]. split; [left; reflexivity|]. split; [vm_compute; discriminate|]. cbn. intuition discriminate.
Qed.
Print Assumptions C110_detection_refuted.
(* an example comes back equal just when it has no true positives *)
Theorem C110_detection_examples :
  forall eps d t s, py_eq (json_trip (det_example_doc eps d t s)) (det_example_doc eps d t s) <-> right_pairs eps t s d = [].
Proof.
  intros eps d t s. split.
  - destruct (right_pairs eps t s d) eqn:E; [reflexivity|]. unfold det_example_doc. rewrite E. cbn. tauto.
  - intros E. apply json_keeps. rewrite det_example_plain, E. reflexivity.
Qed.
Print Assumptions C110_detection_examples.
(* NaN values do occur: without labels *)
Example C110_example :
  (forall d, In d (all_docs (roc_documents [] (mean []))) -> ~ not_nan d) /\
  (exists r d, report_docs (det_precision_recall (fun _ => tt) 1 ddemo_mem (fun _ => true) tt tt [half] [half]) = Some r /\ In d (all_docs r) /\ not_nan d).
Proof.
  split.
  - intros d [<-|[]] N. apply N. reflexivity.
  - eexists. eexists. split; [vm_compute; reflexivity|]. split; [left; reflexivity|vm_compute; discriminate].
Qed.
