(* Specification vocabulary for the dictionaries of metrics: the documents a user gets
   from to_dict, for the user's input. *)
From Verif Require Import Prelude PageSpec Counting CacheModel ClsModel ClsSpec RocModel FlowModel ClsFilterModel ClsFilterSpec ClsReportModel ClsReportSpec ClsPageModel ClsPageSpec ClsCellModel ClsCellSpec
  DetModel DetExModel DetSpec DetFlowModel DetReportModel DetScoreModel DetEnd DetFilterSpec DetTurnSpec DetCellModel DetCellSpec MetricModel.
From Verif Require SegModel SegSpec.
From Coq Require Import String QArith.
Local Notation length := List.length (only parsing).
Local Open Scope nat_scope.
Local Open Scope list_scope.

(* SPEC: documents: values without object identities *)
Notation doc := (pyval unit).
Definition obj (l : list (string * doc)) : doc := PyDict tt (map (fun x => (Some (fst x), snd x)) l).
Definition arr (l : list doc) : doc := PyList tt l.
Definition int (n : nat) : doc := PyInt (Z.of_nat n).
(* SPEC: what to_dict returns for a metric of type [ty] *)
Definition document (ty : string) (value : doc) (parameters : list (string * doc)) : doc :=
  obj [("type", PyStr ty); ("value", value); ("parameters", obj parameters)]%string.
(* the contents of metrics and reports *)
Definition contents {I} (m : metric I) : doc := to_dict (fun _ => tt) m.
Definition report_docs {I} (r : option (report I)) : option (list (string * list doc)) :=
  option_map (map (fun kv => (fst kv, map contents (snd kv)))) r.
Definition list_docs {I} (r : option (list (metric I))) : option (list doc) := option_map (map contents) r.

(* SPEC: the lists that are created when the first metric is appended to them *)
Definition if_any {X Y} (ls : list X) (r : list Y) : list Y := match ls with [] => [] | _ :: _ => r end.
Definition mean_doc (o : option Q) : doc := match o with Some q => PyFloat q | None => PyNan end.
Definition each {X Y Z} (xs : list X) (ys : list Y) (f : X -> Y -> Z) : list Z := flat_map (fun x => map (f x) ys) xs.

(* ---------------------------------------------------------------- classification *)
Section Cls.
  Variables (hm : bool).
  Definition at_threshold (t : Z) : list (string * doc) := [("score_threshold", PyScore t); ("hardmax", PyBool hm)]%string.
  Definition for_label (l : string) (t : Z) : list (string * doc) := at_threshold t ++ [("label", PyStr l)]%string.
  Definition counts_doc (c : counts) : doc :=
    obj [("tp", int (n_tp c)); ("fp", int (n_fp c)); ("fn", int (n_fn c)); ("tn", int (n_tn c))]%string.
  (* SPEC: the report over the labels [ls] and thresholds [thrs], for the accuracy [acc] at
     a threshold and the counts [c] of a label at a threshold *)
  Definition cls_documents (ls : list string) (thrs : list Z) (acc : Z -> Q) (c : string -> Z -> counts) : list (string * list doc) :=
    ("Accuracy"%string, map (fun t => document "Accuracy" (PyFloat (acc t)) (at_threshold t)) thrs) ::
    if_any ls
     [("Counts"%string, each ls thrs (fun l t => document "Counts" (counts_doc (c l t)) (for_label l t)));
      ("Precision"%string, each ls thrs (fun l t => document "Precision" (PyFloat (precision (c l t))) (for_label l t)));
      ("Recall"%string, each ls thrs (fun l t => document "Recall" (PyFloat (recall (c l t))) (for_label l t)));
      ("F1"%string, each ls thrs (fun l t => document "F1" (PyFloat (f1 (precision (c l t)) (recall (c l t)))) (for_label l t)))].
  (* SPEC: the areas under the ROC curves of the labels and their mean *)
  Definition roc_documents (areas : list (string * Q)) (average : option Q) : list (string * list doc) :=
    [("ROCAUC"%string, map (fun la => document "ROCAUC" (PyFloat (snd la)) [("label"%string, PyStr (fst la))]) areas);
     ("mROCAUC"%string, [document "mROCAUC" (mean_doc average) []])].
  Definition matrix_doc (ls : list string) (f : string -> string -> doc) : doc := obj (map (fun g => (g, obj (map (fun p => (p, f g p)) ls))) ls).
  Definition row_doc (ls : list string) (f : string -> doc) : doc := obj (map (fun g => (g, f g)) ls).
  (* SPEC: a cell with its examples *)
  Definition cell_doc {X} (ex : X -> doc) (l : list X) : doc := obj [("count", int (length l)); ("examples", arr (map ex l))]%string.
  Definition strings (l : list string) : doc := arr (map PyStr l).
  (* SPEC: the example of a datum when the labels [pos] are predicted for it *)
  Definition example_doc (cs : list classification) (pos : list string) (t : Z) (c : classification) : doc :=
    let hit := smem (c_groundtruth c) pos in
    document "Examples"
      (obj [("datum_id", PyStr (c_uid c)); ("true_positives", strings (if hit then [c_groundtruth c] else []));
            ("false_positives", strings (filter (fun l => smem l pos && negb (String.eqb l (c_groundtruth c))) (labels_of cs)));
            ("false_negatives", strings (if hit then [] else [c_groundtruth c]))]%string) (at_threshold t).
  (* SPEC: the confusion matrix of the data [cs] seen through the view [u] *)
  Definition cls_matrix_document (ls : list string) (u : cview) (pass : Z -> bool) (cs : list classification) (t : Z) : doc :=
    document "ConfusionMatrix"
      (obj [("confusion_matrix", matrix_doc ls (fun g p => int (data_cell u hm pass cs g p)));
            ("unmatched_ground_truths", row_doc ls (fun g => int (data_missed u hm pass cs g)))]%string) (at_threshold t).
  (* SPEC: the same with the datums of every cell; a cell (g, p) also gives the score of p *)
  Definition cls_matrix_examples_document (ls : list string) (u : cview) (pass : Z -> bool) (cs : list classification) (t : Z) : doc :=
    document "ConfusionMatrixWithExamples"
      (obj [("confusion_matrix", matrix_doc ls (fun g p => cell_doc
               (fun c => obj (("datum_id", PyStr (c_uid c)) :: match score_of p c with Some s => [("score", PyScore s)] | None => [] end))
               (filter (fun c => String.eqb (c_groundtruth c) g && smem p (vpositives u hm pass c)) cs)));
            ("unmatched_ground_truths", row_doc ls (fun g => cell_doc (fun c => obj [("datum_id", PyStr (c_uid c))])
               (filter (fun c => visible u c && (String.eqb (c_groundtruth c) g
                  && match vpositives u hm pass c with [] => true | _ => false end)) cs)))]%string) (at_threshold t).
  (* SPEC: the thresholds with all those up to each of them *)
  Definition prefixes (thrs : list Z) : list (list Z * Z) := map (fun kt => (firstn (S (fst kt)) thrs, snd kt)) (combine (seq 0 (length thrs)) thrs).
End Cls.

(* ---------------------------------------------------------------- object detection *)
Section Det.
  Definition scores_doc (l : list Z) : doc := arr (map PyScore l).
  Definition det_params (l : string) (t s : Z) : list (string * doc) := [("label", PyStr l); ("iou_threshold", PyScore t); ("score_threshold", PyScore s)]%string.
  (* SPEC: the labels of the data, each once, with their numbers in the evaluator *)
  Definition numbered_labels (e : deval) (ds : list detection) (ls : list (nat * string)) : Prop :=
    NoDup (map snd ls) /\ (forall v, In v (map snd ls) <-> In v (det_labels ds)) /\ (forall l, In l ls -> label_no e (snd l) (fst l)).
  (* SPEC: the report over the labels [ls] with their numbers *)
  Definition det_documents (ls : list (nat * string)) (ious scores : list Z) (eps : Z) (e : deval) (datums : drow -> bool) : list (string * list doc) :=
    let il := ("iou_thresholds"%string, scores_doc ious) in
    let sl := ("score_thresholds"%string, scores_doc scores) in
    let lab (l : nat * string) := ("label"%string, PyStr (I := unit) (snd l)) in
    let no (l : nat * string) := Z.of_nat (fst l) in
    let lts {X} (f : nat * string -> Z -> Z -> X) : list X := flat_map (fun l => flat_map (fun s => map (fun t => f l t s) ious) scores) ls in
    [("AP"%string, each ious ls (fun t l => document "AP" (PyFloat (rep_ap eps e datums t (no l))) [("iou_threshold"%string, PyScore t); lab l]));
     ("mAP"%string, map (fun t => document "mAP" (mean_doc (rep_map eps e datums t)) [("iou_threshold"%string, PyScore t)]) ious);
     ("APAveragedOverIOUs"%string, map (fun l => document "APAveragedOverIOUs" (mean_doc (rep_ap_over_ious eps e datums ious (no l))) [il; lab l]) ls);
     ("mAPAveragedOverIOUs"%string, [document "mAPAveragedOverIOUs" (mean_doc (rep_map_over_ious eps e datums ious)) [il]]);
     ("AR"%string, each scores ls (fun s l => document "AR" (mean_doc (rep_ar eps e datums ious s (no l))) [il; ("score_threshold"%string, PyScore s); lab l]));
     ("mAR"%string, map (fun s => document "mAR" (mean_doc (rep_mar eps e datums ious s)) [il; ("score_threshold"%string, PyScore s)]) scores);
     ("ARAveragedOverScores"%string, map (fun l => document "ARAveragedOverScores" (mean_doc (qmean_all (map (fun s => rep_ar eps e datums ious s (no l)) scores))) [il; sl; lab l]) ls);
     ("mARAveragedOverScores"%string, [document "mARAveragedOverScores" (mean_doc (qmean_all (map (fun s => rep_mar eps e datums ious s) scores))) [il; sl]]);
     ("PrecisionRecallCurve"%string, each ious ls (fun t l => document "PrecisionRecallCurve"
        (obj [("precisions", arr (map PyFloat (rep_pr_curve eps e datums t (no l)))); ("scores", scores_doc (rep_pr_scores eps e datums t (no l)))]%string)
        [("iou_threshold"%string, PyScore t); lab l]))] ++
    if_any ls
     [("Counts"%string, lts (fun l t s => document "Counts"
        (obj [("tp", int (rep_tp eps e datums t s (no l))); ("fp", int (rep_fp eps e datums t s (no l))); ("fn", PyInt (rep_fn eps e datums t s (no l)))]%string)
        [("iou_threshold", PyScore t); ("score_threshold", PyScore s); ("label", PyStr (snd l))]%string));
      ("Precision"%string, lts (fun l t s => document "Precision" (PyFloat (rep_precision eps e datums t s (no l))) (det_params (snd l) t s)));
      ("Recall"%string, lts (fun l t s => document "Recall" (PyFloat (rep_recall eps e datums t s (no l))) (det_params (snd l) t s)));
      ("F1"%string, lts (fun l t s => document "F1" (PyFloat (rep_f1 eps e datums t s (no l))) (det_params (snd l) t s)))].
  Definition at_pair (s t : Z) : list (string * doc) := [("score_threshold", PyScore s); ("iou_threshold", PyScore t)]%string.
  (* SPEC: the matrix of the images [ds] *)
  Definition det_matrix_doc (names : list string) (eps : Z) (ds : list detection) (t s : Z) : doc :=
    let total {X} (f : detection -> list X) : doc := int (length (flat_map f ds)) in
    document "ConfusionMatrix"
      (obj [("confusion_matrix", matrix_doc names (fun g p => total (fun d => cell_pairs eps t s d g p)));
            ("unmatched_predictions", row_doc names (fun p => total (fun d => lone_pds eps t s d p)));
            ("unmatched_ground_truths", row_doc names (fun g => total (fun d => lone_gts eps t s d g)))]%string) (at_pair s t).
  Definition det_matrix_examples_doc (names : list string) (eps : Z) (ds : list detection) (t s : Z) : doc :=
    let cell {X} (f : detection -> list X) (ex : detection -> X -> list (string * doc)) : doc :=
      cell_doc (fun l => obj l) (flat_map (fun d => map (fun x => ("datum_id"%string, PyStr (t_uid d)) :: ex d x) (f d)) ds) in
    document "ConfusionMatrixWithExamples"
      (obj [("confusion_matrix", matrix_doc names (fun g p => cell (fun d => cell_pairs eps t s d g p)
               (fun _ y => [("ground_truth_id", PyStr (a_uid (fst y))); ("prediction_id", PyStr (a_uid (snd y)))])));
            ("unmatched_predictions", row_doc names (fun p => cell (fun d => lone_pds eps t s d p) (fun _ a => [("prediction_id", PyStr (a_uid a))])));
            ("unmatched_ground_truths", row_doc names (fun g => cell (fun d => lone_gts eps t s d g) (fun _ a => [("ground_truth_id", PyStr (a_uid a))])))]%string)
      (at_pair s t).
  Definition det_example_doc (eps : Z) (d : detection) (t s : Z) : doc :=
    document "Examples"
      (obj [("datum_id", PyStr (t_uid d));
            ("true_positives", arr (map (fun y => PyTuple [PyStr (a_uid (fst y)); PyStr (a_uid (snd y))]) (right_pairs eps t s d)));
            ("false_positives", strings (map a_uid (wrong_pds eps t s d)));
            ("false_negatives", strings (map a_uid (missed_gts eps t s d)))]%string) (at_pair s t).
End Det.

(* ---------------------------------------------------------------- semantic segmentation *)
Section Seg.
  Import SegModel SegSpec.
  Variables (ss : list segmentation) (v : view).
  Definition seg_documents (L : list string) : list (string * list doc) :=
    let lab l := [("label"%string, PyStr (I := unit) l)] in
    [("Accuracy"%string, [document "Accuracy" (PyFloat (spec_accuracy ss v)) []]);
     ("ConfusionMatrix"%string, [document "ConfusionMatrix"
        (obj [("confusion_matrix", matrix_doc L (fun g p => obj [("iou", PyFloat (spec_iou ss v g p))]));
              ("unmatched_predictions", row_doc L (fun p => obj [("ratio", PyFloat (spec_unmatched_pd ss v p))]));
              ("unmatched_ground_truths", row_doc L (fun g => obj [("ratio", PyFloat (spec_unmatched_gt ss v g))]))]%string) []]);
     ("mIOU"%string, [document "mIOU" (match L with [] => PyNan | _ => PyFloat (SegSpec.qmean (map (fun l => spec_iou ss v l l) L)) end) []])] ++
    if_any L
     [("Precision"%string, map (fun l => document "Precision" (PyFloat (spec_precision ss v l)) (lab l)) L);
      ("Recall"%string, map (fun l => document "Recall" (PyFloat (spec_recall ss v l)) (lab l)) L);
      ("F1"%string, map (fun l => document "F1" (PyFloat (spec_f1 ss v l)) (lab l)) L);
      ("IOU"%string, map (fun l => document "IOU" (PyFloat (spec_iou ss v l l)) (lab l)) L)].
End Seg.

(* SPEC: the same document, up to the representation of rational numbers *)
Inductive agree : doc -> doc -> Prop :=
| agree_refl a : agree a a
| agree_float p q : (p == q)%Q -> agree (PyFloat p) (PyFloat q)
| agree_dict d d' : Forall2 (fun x y => fst x = fst y /\ agree (snd x) (snd y)) d d' -> agree (PyDict tt d) (PyDict tt d').
Definition agree_reports (r r' : list (string * list doc)) : Prop := Forall2 (fun x y => fst x = fst y /\ Forall2 agree (snd x) (snd y)) r r'.

(* SPEC: reading documents *)
Definition field (d : doc) (k : string) : option doc :=
  match d with PyDict _ l => option_map snd (find (fun x => match fst x with Some k' => String.eqb k k' | None => false end) l) | _ => None end.
(* SPEC: the documents of a list are told apart by their type and their parameters *)
Definition identified (ds : list doc) : Prop :=
  forall d d', In d ds -> In d' ds -> field d "type" = field d' "type" -> field d "parameters" = field d' "parameters" -> d = d'.
Definition all_docs (r : list (string * list doc)) : list doc := flat_map snd r.
(* SPEC: every document is filed under its type *)
Definition filed (r : list (string * list doc)) : Prop :=
  forall k ds d, In (k, ds) r -> In d ds -> field d "type" = Some (PyStr k).

(* SPEC: a document that json keeps as it is: no tuples, no NaN, string keys *)
Fixpoint plain (d : doc) : bool :=
  match d with
  | PyTuple _ | PyNan => false
  | PyList _ l => forallb plain l
  | PyDict _ l => forallb (fun kv => match fst kv with Some _ => true | None => false end && plain (snd kv)) l
  | _ => true
  end.

(* SPEC: the value of a metric is a number or a dictionary *)
Definition not_nan (d : doc) : Prop := field d "value" <> Some PyNan.

(* ---------------------------------------------------------------- objects *)
(* SPEC: the lists and dictionaries inside a value or a metric *)
Fixpoint ids {I} (v : pyval I) : list I :=
  match v with
  | PyTuple l => flat_map ids l
  | PyList i l => i :: flat_map ids l
  | PyDict i d => i :: flat_map (fun kv => ids (snd kv)) d
  | _ => []
  end.
Definition mids {I} (m : metric I) : list I := ids (me_value m) ++ ids (me_parameters m).
(* SPEC: no dictionary inside has a key twice *)
Fixpoint proper {I} (v : pyval I) : Prop :=
  match v with
  | PyTuple l | PyList _ l => fold_right (fun x p => proper x /\ p) True l
  | PyDict _ d => NoDup (map fst d) /\ fold_right (fun kv p => proper (snd kv) /\ p) True d
  | _ => True
  end.
(* SPEC: only objects in [own] occur twice *)
Definition once {I} (own : I -> Prop) (l : list I) : Prop := forall l1 i l2, l = l1 ++ i :: l2 -> In i (l1 ++ l2) -> own i.
(* SPEC: the call numbered [c] of an evaluator returned the metrics [r]; [own] are the
   lists of the caller that were passed to it *)
Inductive returned (c : nat) : (oid -> Prop) -> report oid -> Prop :=
| Ret_cls tol hm thrs datums e r : cls_precision_recall (Made c) tol hm thrs datums e = Some r -> returned c (fun _ => False) r
| Ret_roc e r : cls_rocauc_metrics (Made c) e = Some r -> returned c (fun _ => False) r
| Ret_cls_matrix tol9 hm thrs datums e l : cls_confusion_report (Made c) tol9 hm thrs datums e = Some l ->
    returned c (fun _ => False) [("ConfusionMatrix"%string, l)]
| Ret_cls_examples tol9 hm thrs datums limit offset e l : cls_examples_report (Made c) tol9 hm thrs datums limit offset e = Some l ->
    returned c (fun _ => False) [("Examples"%string, l)]
| Ret_cls_both tol9 hm thrs datums e l : cls_confusion_examples_report (Made c) tol9 hm thrs datums e = Some l ->
    returned c (fun _ => False) [("ConfusionMatrixWithExamples"%string, l)]
| Ret_det eps e datums i s ious scores r : det_precision_recall (Made c) eps e datums (Mine i) (Mine s) ious scores = Some r ->
    returned c (fun x => x = Mine i \/ x = Mine s) r
| Ret_det_matrix eps ious scores datums e l : det_confusion_report (Made c) eps ious scores datums e = Some l ->
    returned c (fun _ => False) [("ConfusionMatrix"%string, l)]
| Ret_det_examples eps ious scores datums limit offset e l : det_examples_report (Made c) eps ious scores datums limit offset e = Some l ->
    returned c (fun _ => False) [("Examples"%string, l)]
| Ret_det_both eps ious scores datums e l : det_confusion_examples_report (Made c) eps ious scores datums e = Some l ->
    returned c (fun _ => False) [("ConfusionMatrixWithExamples"%string, l)]
| Ret_seg ed e r : seg_metrics (Made c) ed e = Some r -> returned c (fun _ => False) r.
(* SPEC: the metric at place (k, n): the n-th one listed under k *)
Definition metric_at {I} (r : report I) (k : string) (n : nat) (m : metric I) : Prop :=
  exists ms, In (k, ms) r /\ nth_error ms n = Some m.
