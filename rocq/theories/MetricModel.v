(* Model of the Metric classes of classification, object detection and semantic
   segmentation, of to_dict, and of the dictionaries of metrics that the evaluators return.
   Definitions only.  Containers carry the identity of the Python object, so that sharing
   and in-place changes can be expressed; [I] is the type of identities ([unit] when only
   the contents matter). *)
From Verif Require Import Prelude Counting CacheModel ClsModel RocModel FlowModel ClsFilterModel ClsReportModel ClsPageModel ClsCellModel
  DetModel DetExModel DetFlowModel DetReportModel DetScoreModel DetCellModel.
From Verif Require SegModel.
From Coq Require Import String QArith.
Local Notation length := List.length (only parsing).
Local Notation concat := List.concat (only parsing).
Local Open Scope nat_scope.
Local Open Scope list_scope.

(* ------------------------------------------------------------------ *)
(** * Python values *)

(* a dictionary key: a string, or None *)
Notation pkey := (option string).
(* scores and thresholds are floats in the unit of the model ([PyScore]), quotients are
   exact rationals ([PyFloat]) *)
Inductive pyval (I : Type) : Type :=
| PyNone
| PyBool (b : bool)
| PyInt (z : Z)
| PyFloat (q : Q)
| PyScore (z : Z)
| PyNan
| PyStr (s : string)
| PyTuple (l : list (pyval I))
| PyList (i : I) (l : list (pyval I))
| PyDict (i : I) (d : list (pkey * pyval I)).
Arguments PyNone {I}.
Arguments PyBool {I}.
Arguments PyInt {I}.
Arguments PyFloat {I}.
Arguments PyScore {I}.
Arguments PyNan {I}.
Arguments PyStr {I}.
Arguments PyTuple {I}.
Arguments PyList {I}.
Arguments PyDict {I}.
Notation "k ~> v" := (Some k%string, v) (at level 60).

(* the place of a new object inside the metric or report that creates it *)
Inductive pstep : Type := Key (k : pkey) | At (n : nat).
Notation supply I := (list pstep -> I).
Definition below {I} (new : supply I) (s : pstep) : supply I := fun p => new (s :: p).
Notation "new // k" := (below new (Key (Some k%string))) (at level 40, left associativity).

Definition imap {X Y} (f : nat -> X -> Y) (l : list X) : list Y :=
  map (fun nx => f (fst nx) (snd nx)) (combine (seq 0 (length l)) l).

(* ------------------------------------------------------------------ *)
(** * Metrics *)

(* models: schemas.py:4-8 BaseMetric *)
Record metric (I : Type) : Type := MkMetric { me_type : string; me_value : pyval I; me_parameters : pyval I }.
Arguments MkMetric {I}.
Arguments me_type {I}.
Arguments me_value {I}.
Arguments me_parameters {I}.

(* isinstance(value, (int, float, dict)): bool is a subclass of int *)
Definition value_type {I} (v : pyval I) : bool :=
  match v with PyBool _ | PyInt _ | PyFloat _ | PyScore _ | PyNan | PyDict _ _ => true | _ => false end.
Definition string_keys {I} (v : pyval I) : bool :=
  match v with PyDict _ d => forallb (fun kv => match fst kv with Some _ => true | None => false end) d | _ => false end.
(* models: classification/metric.py:35-51, object_detection/metric.py:41-57 and
   semantic_segmentation/metric.py:32-48 __post_init__; [None] is the TypeError.  The type
   is always a string here. *)
Definition make {I} (ty : string) (v p : pyval I) : option (metric I) :=
  if value_type v && string_keys p then Some (MkMetric ty v p) else None.

(* a dictionary display {...} of the parameters, a new object *)
Definition params {I} (new : supply I) (d : list (pkey * pyval I)) : pyval I := PyDict ((new // "parameters") []) d.
Definition vdict {I} (new : supply I) (d : list (pkey * pyval I)) : pyval I := PyDict ((new // "value") []) d.

Section Constructors.
  Context {I : Type}.
  Variable new : supply I.
  Local Notation V := (pyval I).

  (* a new list of strings, of floats *)
  Definition slist (new : supply I) (l : list string) : V := PyList (new []) (map PyStr l).
  Definition olist (new : supply I) (l : list (option string)) : option V :=
    option_map (slist new) (SegModel.all_some l).

  (** ** classification/metric.py *)
  (* models: classification/metric.py:53-91, 93-131, 133-167: Precision, Recall, F1 *)
  Definition cls_labelled (ty : string) (v : V) (thr : Z) (hm : bool) (label : string) : option (metric I) :=
    make ty v (params new ["score_threshold" ~> PyScore thr; "hardmax" ~> PyBool hm; "label" ~> PyStr label]).
  (* models: classification/metric.py:169-201 accuracy *)
  Definition cls_accuracy (v : V) (thr : Z) (hm : bool) : option (metric I) :=
    make "Accuracy" v (params new ["score_threshold" ~> PyScore thr; "hardmax" ~> PyBool hm]).
  (* models: classification/metric.py:203-233 roc_auc *)
  Definition cls_roc_auc (v : V) (label : string) : option (metric I) := make "ROCAUC" v (params new ["label" ~> PyStr label]).
  (* models: classification/metric.py:235-252 mean_roc_auc *)
  Definition cls_mean_roc_auc (v : V) : option (metric I) := make "mROCAUC" v (params new []).
  (* models: classification/metric.py:254-305 counts *)
  Definition cls_count (c : counts) (thr : Z) (hm : bool) (label : string) : option (metric I) :=
    make "Counts" (vdict new ["tp" ~> PyInt (Z.of_nat (n_tp c)); "fp" ~> PyInt (Z.of_nat (n_fp c));
                          "fn" ~> PyInt (Z.of_nat (n_fn c)); "tn" ~> PyInt (Z.of_nat (n_tn c))])
      (params new ["score_threshold" ~> PyScore thr; "hardmax" ~> PyBool hm; "label" ~> PyStr label]).
  (* models: classification/metric.py:307-363 confusion_matrix *)
  Definition cls_matrix (cm un : V) (thr : Z) (hm : bool) : option (metric I) :=
    make "ConfusionMatrix" (vdict new ["confusion_matrix" ~> cm; "unmatched_ground_truths" ~> un])
      (params new ["score_threshold" ~> PyScore thr; "hardmax" ~> PyBool hm]).
  (* models: classification/metric.py:365-438 examples *)
  Definition cls_example (uid tp fp fn : V) (thr : Z) (hm : bool) : option (metric I) :=
    make "Examples" (vdict new ["datum_id" ~> uid; "true_positives" ~> tp; "false_positives" ~> fp; "false_negatives" ~> fn])
      (params new ["score_threshold" ~> PyScore thr; "hardmax" ~> PyBool hm]).
  (* models: classification/metric.py:440-535 confusion_matrix_with_examples *)
  Definition cls_matrix_examples (cm un : V) (thr : Z) (hm : bool) : option (metric I) :=
    make "ConfusionMatrixWithExamples" (vdict new ["confusion_matrix" ~> cm; "unmatched_ground_truths" ~> un])
      (params new ["score_threshold" ~> PyScore thr; "hardmax" ~> PyBool hm]).

  (** ** object_detection/metric.py *)
  (* models: object_detection/metric.py:59-97, 99-137, 139-177: Precision, Recall, F1 *)
  Definition det_labelled (ty : string) (v : V) (label : pkey) (t s : Z) : option (metric I) :=
    make ty v (params new ["label" ~> match label with Some l => PyStr l | None => PyNone end;
      "iou_threshold" ~> PyScore t; "score_threshold" ~> PyScore s]).
  Definition plabel (label : pkey) : V := match label with Some l => PyStr l | None => PyNone end.
  (* models: object_detection/metric.py:179-213 average_precision *)
  Definition det_ap (v : V) (t : Z) (label : pkey) : option (metric I) :=
    make "AP" v (params new ["iou_threshold" ~> PyScore t; "label" ~> plabel label]).
  (* models: object_detection/metric.py:215-246 mean_average_precision *)
  Definition det_map (v : V) (t : Z) : option (metric I) := make "mAP" v (params new ["iou_threshold" ~> PyScore t]).
  (* models: object_detection/metric.py:248-283; [ious] is the list object of the caller *)
  Definition det_ap_avg (v ious : V) (label : pkey) : option (metric I) :=
    make "APAveragedOverIOUs" v (params new ["iou_thresholds" ~> ious; "label" ~> plabel label]).
  (* models: object_detection/metric.py:285-316 *)
  Definition det_map_avg (v ious : V) : option (metric I) :=
    make "mAPAveragedOverIOUs" v (params new ["iou_thresholds" ~> ious]).
  (* models: object_detection/metric.py:318-358 average_recall *)
  Definition det_ar (v ious : V) (s : Z) (label : pkey) : option (metric I) :=
    make "AR" v (params new ["iou_thresholds" ~> ious; "score_threshold" ~> PyScore s; "label" ~> plabel label]).
  (* models: object_detection/metric.py:360-396 mean_average_recall *)
  Definition det_mar (v ious : V) (s : Z) : option (metric I) :=
    make "mAR" v (params new ["iou_thresholds" ~> ious; "score_threshold" ~> PyScore s]).
  (* models: object_detection/metric.py:398-436 *)
  Definition det_ar_avg (v scores ious : V) (label : pkey) : option (metric I) :=
    make "ARAveragedOverScores" v (params new ["iou_thresholds" ~> ious; "score_thresholds" ~> scores; "label" ~> plabel label]).
  (* models: object_detection/metric.py:438-473 *)
  Definition det_mar_avg (v scores ious : V) : option (metric I) :=
    make "mARAveragedOverScores" v (params new ["iou_thresholds" ~> ious; "score_thresholds" ~> scores]).
  (* models: object_detection/metric.py:475-515; the two lists come from tolist() *)
  Definition det_curve (precisions : list Q) (scores : list Z) (t : Z) (label : pkey) : option (metric I) :=
    make "PrecisionRecallCurve"
      (vdict new ["precisions" ~> PyList ((new // "value" // "precisions") []) (map PyFloat precisions);
              "scores" ~> PyList ((new // "value" // "scores") []) (map PyScore scores)])
      (params new ["iou_threshold" ~> PyScore t; "label" ~> plabel label]).
  (* models: object_detection/metric.py:517-563 counts *)
  Definition det_count (tp fp fn : Z) (label : pkey) (t s : Z) : option (metric I) :=
    make "Counts" (vdict new ["tp" ~> PyInt tp; "fp" ~> PyInt fp; "fn" ~> PyInt fn])
      (params new ["iou_threshold" ~> PyScore t; "score_threshold" ~> PyScore s; "label" ~> plabel label]).
  (* models: object_detection/metric.py:565-633 and 712-850: ConfusionMatrix and
     ConfusionMatrixWithExamples *)
  Definition det_matrix (ty : string) (cm pds gts : V) (s t : Z) : option (metric I) :=
    make ty (vdict new ["confusion_matrix" ~> cm; "unmatched_predictions" ~> pds; "unmatched_ground_truths" ~> gts])
      (params new ["score_threshold" ~> PyScore s; "iou_threshold" ~> PyScore t]).
  (* models: object_detection/metric.py:635-710 examples *)
  Definition det_exmetric (uid tp fp fn : V) (s t : Z) : option (metric I) :=
    make "Examples" (vdict new ["datum_id" ~> uid; "true_positives" ~> tp; "false_positives" ~> fp; "false_negatives" ~> fn])
      (params new ["score_threshold" ~> PyScore s; "iou_threshold" ~> PyScore t]).

  (** ** semantic_segmentation/metric.py *)
  (* models: semantic_segmentation/metric.py:50-166: Precision, Recall, F1, IOU *)
  Definition seg_labelled (ty : string) (v : V) (label : pkey) : option (metric I) := make ty v (params new ["label" ~> plabel label]).
  (* models: semantic_segmentation/metric.py:168-200: mIOU, Accuracy *)
  Definition seg_overall (ty : string) (v : V) : option (metric I) := make ty v (params new []).
  (* models: semantic_segmentation/metric.py:202-275 confusion_matrix *)
  Definition seg_matrix_metric (cm pds gts : V) : option (metric I) :=
    make "ConfusionMatrix" (vdict new ["confusion_matrix" ~> cm; "unmatched_predictions" ~> pds; "unmatched_ground_truths" ~> gts]) (params new []).
End Constructors.

(* ------------------------------------------------------------------ *)
(** * Reports *)

(* dict[MetricType, list[Metric]]; keys are the values of the enumeration *)
Notation report I := (list (string * list (metric I))).
(* a metric still to be constructed *)
Notation maker I := (supply I -> option (metric I)).
(* the metrics of one key, the n-th one constructed at its own place *)
Definition listing {I} (new : supply I) (ty : string) (ms : list (maker I)) : option (list (metric I)) :=
  SegModel.all_some (imap (fun n mk => mk (below (below new (Key (Some ty))) (At n))) ms).
Definition realise {I} (new : supply I) (d : list (string * list (maker I))) : option (report I) :=
  SegModel.all_some (map (fun kv => option_map (pair (fst kv)) (listing new (fst kv) (snd kv))) d).
(* keys of a defaultdict(list) that are only reached by append *)
Definition appended {I} (d : list (string * list (maker I))) : list (string * list (maker I)) :=
  filter (fun kv => negb (Nat.eqb (length (snd kv)) 0)) d.
(* numpy's mean: NaN for an empty array or one with a NaN *)
Definition qmean_all (l : list (option Q)) : option Q := match SegModel.all_some l with Some l => qmean l | None => None end.
Definition or_nan {I} (o : option Q) : pyval I := match o with Some q => PyFloat q | None => PyNan end.

Section Reports.
  Context {I : Type}.
  Variable new : supply I.

  (** ** classification *)
  (* models: classification/utilities.py:10-68 unpack_precision_recall on the values of
     [report_metrics] *)
  Definition cls_labelled_makers (ty : string) (hm : bool) (l : list (string * Z * option Q)) : list (maker I) :=
    map (fun x new => match snd x with Some q => cls_labelled new ty (PyFloat q) (snd (fst x)) hm (fst (fst x)) | None => None end) l.
  Definition cls_precision_recall (tol : Z) (hm : bool) (thrs : list Z) (datums : crow -> bool) (e : ceval) : option (report I) :=
    match report_metrics e tol hm thrs datums with
    | None => None
    | Some m => realise new
        (("Accuracy"%string, map (fun ta new => cls_accuracy new (PyFloat (snd ta)) (fst ta) hm) (mt_accuracy m)) ::
         appended
          [("Counts"%string, map (fun x new => match snd x with Some c => cls_count new c (snd (fst x)) hm (fst (fst x)) | None => None end) (mt_counts m));
           ("Precision"%string, cls_labelled_makers "Precision" hm (mt_precision m));
           ("Recall"%string, cls_labelled_makers "Recall" hm (mt_recall m));
           ("F1"%string, cls_labelled_makers "F1" hm (mt_f1 m))])
    end.
  (* models: classification/utilities.py:71-89 unpack_rocauc *)
  Definition cls_rocauc_metrics (e : ceval) : option (report I) :=
    let r := report_rocauc e in
    realise new
      [("ROCAUC"%string, map (fun x new => match snd x with Some q => cls_roc_auc new (PyFloat q) (fst x) | None => None end) (fst r));
       ("mROCAUC"%string, [fun new => cls_mean_roc_auc new (or_nan (snd r))])].
  (* models: classification/utilities.py:92-119 unpack_confusion_matrix: a list of metrics *)
  Definition count_dict (new : supply I) (d : list (pkey * nat)) : pyval I :=
    PyDict (new []) (map (fun x => (fst x, PyInt (Z.of_nat (snd x)))) d).
  Definition count_table (new : supply I) (d : list (pkey * list (pkey * nat))) : pyval I :=
    PyDict (new []) (map (fun x => (fst x, count_dict (below new (Key (fst x))) (snd x))) d).
  Definition named_keys {X} (d : list (string * X)) : list (pkey * X) := map (fun x => (Some (fst x), snd x)) d.
  Definition cls_confusion_report (tol9 : Z) (hm : bool) (thrs : list Z) (datums : crow -> bool) (e : ceval) : option (list (metric I)) :=
    match report_confusion e tol9 hm thrs datums with
    | None => None
    | Some l => listing new "ConfusionMatrix" (map (fun x new =>
        cls_matrix new
          (count_table (new // "value" // "confusion_matrix") (named_keys (map (fun r => (fst r, named_keys (snd r))) (fst (snd x)))))
          (count_dict (new // "value" // "unmatched_ground_truths") (named_keys (snd (snd x)))) (fst x) hm) l)
    end.
  (* models: classification/utilities.py:137-195 unpack_examples: a list of metrics *)
  Definition cls_examples_report (tol9 : Z) (hm : bool) (thrs : list Z) (datums : crow -> bool) (limit : option nat) (offset : nat) (e : ceval)
      : option (list (metric I)) :=
    match cls_examples tol9 hm thrs datums limit offset e with
    | None => None
    | Some l => listing new "Examples" (map (fun x new =>
        match nx_uid x, olist (new // "value" // "true_positives") (nx_tp x), olist (new // "value" // "false_positives") (nx_fp x),
              olist (new // "value" // "false_negatives") (nx_fn x) with
        | Some u, Some tp, Some fp, Some fn => cls_example new (PyStr u) tp fp fn (nx_thr x) hm
        | _, _, _, _ => None
        end) l)
    end.
  (* models: classification/utilities.py:198-216, 262-287: {"count": n, "examples": [...]},
     every example a new dictionary; [None] is a failed lookup of an id *)
  Definition cell_dict {X} (new : supply I) (ex : supply I -> X -> option (pyval I)) (c : cell X) : option (pyval I) :=
    option_map (fun l => PyDict (new []) ["count" ~> PyInt (Z.of_nat (fst c)); "examples" ~> PyList ((new // "examples") []) l])
      (SegModel.all_some (imap (fun n x => ex (below (new // "examples") (At n)) x) (snd c))).
  Definition cells_dict {X} (new : supply I) (ex : supply I -> X -> option (pyval I)) (d : list (pkey * cell X)) : option (pyval I) :=
    option_map (PyDict (new [])) (SegModel.all_some (map (fun x => option_map (pair (fst x)) (cell_dict (below new (Key (fst x))) ex (snd x))) d)).
  Definition cells_table {X} (new : supply I) (ex : supply I -> X -> option (pyval I)) (d : list (pkey * list (pkey * cell X))) : option (pyval I) :=
    option_map (PyDict (new [])) (SegModel.all_some (map (fun x => option_map (pair (fst x)) (cells_dict (below new (Key (fst x))) ex (snd x))) d)).
  Definition cls_match_example (new : supply I) (x : option string * option Z) : option (pyval I) :=
    match x with (Some u, Some s) => Some (PyDict (new []) ["datum_id" ~> PyStr u; "score" ~> PyScore s]) | _ => None end.
  Definition cls_lone_example (new : supply I) (x : option string) : option (pyval I) :=
    match x with Some u => Some (PyDict (new []) ["datum_id" ~> PyStr u]) | None => None end.
  (* models: classification/evaluator.py:816-875 *)
  Definition cls_confusion_examples_report (tol9 : Z) (hm : bool) (thrs : list Z) (datums : crow -> bool) (e : ceval) : option (list (metric I)) :=
    match cls_confusion_examples tol9 hm thrs datums e with
    | None => None
    | Some l => listing new "ConfusionMatrixWithExamples" (map (fun x new =>
        match snd x with
        | None => None
        | Some M =>
            match cells_table (new // "value" // "confusion_matrix") cls_match_example
                    (named_keys (map (fun r => (fst r, named_keys (snd r))) (cx_cells M))),
                  cells_dict (new // "value" // "unmatched_ground_truths") cls_lone_example (named_keys (cx_unmatched M)) with
            | Some cm, Some un => cls_matrix_examples new cm un (fst x) hm
            | _, _ => None
            end
        end) l)
    end.

  (** ** object detection *)
  Section Det.
    Variables (eps : Z) (e : deval) (datums : drow -> bool).
    (* array[..., label_idx] with label_idx from index_to_label; [None] is the IndexError *)
    Definition indexed {X} (k : Z) (f : Z -> X) : option X :=
      if ((0 <=? k) && (k <? Z.of_nat (length (de_labels e))))%Z%bool then Some (f k) else None.
    Definition det_labelled_makers {X} (ious scores : list Z) (f : Z -> Z -> Z -> X) (mk : X -> pkey -> Z -> Z -> maker I) : list (maker I) :=
      flat_map (fun kl => flat_map (fun s => map (fun t new =>
        match indexed (fst kl) (f t s) with Some v => mk v (snd kl) t s new | None => None end) ious) scores) (de_labels e).
    (* models: object_detection/evaluator.py:415-514 compute_precision_recall and
       utilities.py:10-150; [None] is an exception: empty thresholds (lines 436-439) or a
       label number beyond the label axis.  [iobj] and [sobj] are the identities of the
       lists of thresholds passed by the caller. *)
    Definition det_precision_recall (iobj sobj : I) (ious scores : list Z) : option (report I) :=
      let il := PyList iobj (map PyScore ious) in
      let sl := PyList sobj (map PyScore scores) in
      let labelled {X} (l : list X) (f : X -> pkey -> Z -> maker I) : list (maker I) :=
        flat_map (fun x => map (fun kl new => match indexed (fst kl) (fun k => k) with Some k => f x (snd kl) k new | None => None end) (de_labels e)) l in
      match ious, scores with
      | [], _ | _, [] => None
      | _, _ => realise new
         ([("AP"%string, labelled ious (fun t l k new => det_ap new (PyFloat (rep_ap eps e datums t k)) t l));
           ("mAP"%string, map (fun t new => det_map new (or_nan (rep_map eps e datums t)) t) ious);
           ("APAveragedOverIOUs"%string, labelled [tt] (fun _ l k new => det_ap_avg new (or_nan (rep_ap_over_ious eps e datums ious k)) il l));
           ("mAPAveragedOverIOUs"%string, [fun new => det_map_avg new (or_nan (rep_map_over_ious eps e datums ious)) il]);
           ("AR"%string, labelled scores (fun s l k new => det_ar new (or_nan (rep_ar eps e datums ious s k)) il s l));
           ("mAR"%string, map (fun s new => det_mar new (or_nan (rep_mar eps e datums ious s)) il s) scores);
           ("ARAveragedOverScores"%string, labelled [tt] (fun _ l k new =>
               det_ar_avg new (or_nan (qmean_all (map (fun s => rep_ar eps e datums ious s k) scores))) sl il l));
           ("mARAveragedOverScores"%string, [fun new =>
               det_mar_avg new (or_nan (qmean_all (map (fun s => rep_mar eps e datums ious s) scores))) sl il]);
           ("PrecisionRecallCurve"%string, labelled ious (fun t l k new =>
               det_curve new (rep_pr_curve eps e datums t k) (rep_pr_scores eps e datums t k) t l))] ++
          appended
           [("Counts"%string, det_labelled_makers ious scores (fun t s k => (rep_tp eps e datums t s k, rep_fp eps e datums t s k, rep_fn eps e datums t s k))
               (fun c l t s new => det_count new (Z.of_nat (fst (fst c))) (Z.of_nat (snd (fst c))) (snd c) l t s));
            ("Precision"%string, det_labelled_makers ious scores (rep_precision eps e datums) (fun v l t s new => det_labelled new "Precision" (PyFloat v) l t s));
            ("Recall"%string, det_labelled_makers ious scores (rep_recall eps e datums) (fun v l t s new => det_labelled new "Recall" (PyFloat v) l t s));
            ("F1"%string, det_labelled_makers ious scores (rep_f1 eps e datums) (fun v l t s new => det_labelled new "F1" (PyFloat v) l t s))])
      end.
  End Det.

  (* models: object_detection/utilities.py:153-189 unpack_confusion_matrix: a list of metrics *)
  Definition det_confusion_report (eps : Z) (ious scores : list Z) (datums : drow -> bool) (e : deval) : option (list (metric I)) :=
    match det_confusion_metrics eps ious scores datums e with
    | None => None
    | Some l => listing new "ConfusionMatrix" (map (fun x new =>
        det_matrix new "ConfusionMatrix" (count_table (new // "value" // "confusion_matrix") (dc_cells (snd x)))
          (count_dict (new // "value" // "unmatched_predictions") (dc_pds (snd x)))
          (count_dict (new // "value" // "unmatched_ground_truths") (dc_gts (snd x))) (snd (fst x)) (fst (fst x))) l)
    end.
  (* a stored uid: a string or null; the outer [None] is a failed lookup *)
  Definition uid_value (u : option (option string)) : option (pyval I) :=
    match u with Some (Some s) => Some (PyStr s) | Some None => Some PyNone | None => None end.
  Definition uid_list (new : supply I) (l : list (option (option string))) : option (pyval I) :=
    option_map (PyList (new [])) (SegModel.all_some (map uid_value l)).
  (* models: object_detection/utilities.py:241-250: pairs are tuples *)
  Definition uid_pair (x : option (option string) * option (option string)) : option (pyval I) :=
    match uid_value (fst x), uid_value (snd x) with Some a, Some b => Some (PyTuple [a; b]) | _, _ => None end.
  Definition pair_list (new : supply I) (l : list (option (option string) * option (option string))) : option (pyval I) :=
    option_map (PyList (new [])) (SegModel.all_some (map uid_pair l)).
  (* models: object_detection/utilities.py:207-260 unpack_examples: a list of metrics *)
  Definition det_examples_report (eps : Z) (ious scores : list Z) (datums : drow -> bool) (limit : option nat) (offset : nat) (e : deval)
      : option (list (metric I)) :=
    match det_examples eps ious scores datums limit offset e with
    | None => None
    | Some l => listing new "Examples" (map (fun x new => let '(u, t, s, ex) := x in
        match u, pair_list (new // "value" // "true_positives") (dx_tp ex), uid_list (new // "value" // "false_positives") (dx_fp ex),
              uid_list (new // "value" // "false_negatives") (dx_fn ex) with
        | Some u, Some tp, Some fp, Some fn => det_exmetric new (PyStr u) tp fp fn s t
        | _, _, _, _ => None
        end) l)
    end.
  Definition key_value (u : option string) : pyval I := match u with Some s => PyStr s | None => PyNone end.
  Definition det_match_example (new : supply I) (x : string * option string * option string) : option (pyval I) :=
    Some (PyDict (new []) ["datum_id" ~> PyStr (fst (fst x)); "ground_truth_id" ~> key_value (snd (fst x)); "prediction_id" ~> key_value (snd x)]).
  Definition det_gt_example (new : supply I) (x : string * option string) : option (pyval I) :=
    Some (PyDict (new []) ["datum_id" ~> PyStr (fst x); "ground_truth_id" ~> key_value (snd x)]).
  Definition det_pd_example (new : supply I) (x : string * option string) : option (pyval I) :=
    Some (PyDict (new []) ["datum_id" ~> PyStr (fst x); "prediction_id" ~> key_value (snd x)]).
  (* models: object_detection/evaluator.py:708-810, utilities.py:263-396 *)
  Definition det_confusion_examples_report (eps : Z) (ious scores : list Z) (datums : drow -> bool) (e : deval) : option (list (metric I)) :=
    match det_confusion_examples eps ious scores datums e with
    | None => None
    | Some l => listing new "ConfusionMatrixWithExamples" (map (fun x new =>
        match snd x with
        | None => None
        | Some M =>
            match cells_table (new // "value" // "confusion_matrix") det_match_example (dx_cells M),
                  cells_dict (new // "value" // "unmatched_predictions") det_pd_example (dx_pds M),
                  cells_dict (new // "value" // "unmatched_ground_truths") det_gt_example (dx_gts M) with
            | Some cm, Some pds, Some gts => det_matrix new "ConfusionMatrixWithExamples" cm pds gts (snd (fst x)) (fst (fst x))
            | _, _, _ => None
            end
        end) l)
    end.

  (** ** semantic segmentation *)
  Definition rate_dict (new : supply I) (key : string) (d : list (pkey * Q)) : pyval I :=
    PyDict (new []) (map (fun x => (fst x, PyDict (below new (Key (fst x)) []) [(Some key, PyFloat (snd x))])) d).
  Definition seg_labelled_makers (ty : string) (l : list (pkey * Q)) : list (maker I) :=
    map (fun x new => seg_labelled new ty (PyFloat (snd x)) (fst x)) l.
  (* models: semantic_segmentation/utilities.py:6-88 on the values of [seg_report];
     [None] is a KeyError or IndexError *)
  Definition seg_metrics (ed : SegModel.expr) (e : SegModel.seval) : option (report I) :=
    match SegModel.seg_compute e ed with
    | None => None
    | Some r => realise new
        ([("Accuracy"%string, [fun new => seg_overall new "Accuracy" (PyFloat (SegModel.sr_accuracy r))]);
          ("ConfusionMatrix"%string, [fun new => seg_matrix_metric new
             (PyDict ((new // "value" // "confusion_matrix") [])
               (map (fun x => (fst x, rate_dict (below (new // "value" // "confusion_matrix") (Key (fst x))) "iou" (snd x))) (SegModel.sr_confusion r)))
             (rate_dict (new // "value" // "unmatched_predictions") "ratio" (SegModel.sr_unmatched_pd r))
             (rate_dict (new // "value" // "unmatched_ground_truths") "ratio" (SegModel.sr_unmatched_gt r))]);
          ("mIOU"%string, [fun new => seg_overall new "mIOU" (or_nan (SegModel.sr_miou r))])] ++
         appended
          [("Precision"%string, seg_labelled_makers "Precision" (SegModel.sr_precision r));
           ("Recall"%string, seg_labelled_makers "Recall" (SegModel.sr_recall r));
           ("F1"%string, seg_labelled_makers "F1" (SegModel.sr_f1 r));
           ("IOU"%string, seg_labelled_makers "IOU" (SegModel.sr_iou r))])
    end.
End Reports.

(* ------------------------------------------------------------------ *)
(** * to_dict, in-place changes, JSON *)

(* dataclasses.asdict: dictionaries, lists and tuples are rebuilt, atoms are kept *)
Fixpoint copy {I J} (new : supply J) (v : pyval I) : pyval J :=
  match v with
  | PyNone => PyNone
  | PyBool b => PyBool b
  | PyInt z => PyInt z
  | PyFloat q => PyFloat q
  | PyScore z => PyScore z
  | PyNan => PyNan
  | PyStr s => PyStr s
  | PyTuple l => PyTuple ((fix go (n : nat) (l : list (pyval I)) : list (pyval J) :=
      match l with [] => [] | x :: t => copy (below new (At n)) x :: go (S n) t end) 0 l)
  | PyList _ l => PyList (new []) ((fix go (n : nat) (l : list (pyval I)) : list (pyval J) :=
      match l with [] => [] | x :: t => copy (below new (At n)) x :: go (S n) t end) 0 l)
  | PyDict _ d => PyDict (new []) ((fix go (d : list (pkey * pyval I)) : list (pkey * pyval J) :=
      match d with [] => [] | (k, x) :: t => (k, copy (below new (Key k)) x) :: go t end) d)
  end.
(* models: schemas.py:10-11 to_dict *)
Definition to_dict {I J} (new : supply J) (m : metric I) : pyval J :=
  PyDict (new []) ["type" ~> PyStr (me_type m); "value" ~> copy (new // "value") (me_value m);
                   "parameters" ~> copy (new // "parameters") (me_parameters m)].

(* identities: an object of the caller, or one created by the call numbered [c] *)
Inductive oid : Type := Mine (n : nat) | Made (c : nat) (p : list pstep).
Definition oid_dec : forall a b : oid, {a = b} + {a <> b}.
Proof. repeat decide equality. Defined.
(* an in-place change gives a list or a dictionary new contents, seen wherever the object
   is referenced *)
Inductive change : Type := SetList (l : list (pyval oid)) | SetDict (d : list (pkey * pyval oid)).
Fixpoint edit (i : oid) (c : change) (v : pyval oid) : pyval oid :=
  match v with
  | PyTuple l => PyTuple (map (edit i c) l)
  | PyList j l => if oid_dec i j then match c with SetList l' => PyList j l' | SetDict _ => PyList j l end else PyList j (map (edit i c) l)
  | PyDict j d => if oid_dec i j then match c with SetDict d' => PyDict j d' | SetList _ => PyDict j d end
                  else PyDict j (map (fun kv => (fst kv, edit i c (snd kv))) d)
  | _ => v
  end.
Definition edit_metric (i : oid) (c : change) (m : metric oid) : metric oid :=
  MkMetric (me_type m) (edit i c (me_value m)) (edit i c (me_parameters m)).
Definition edits (l : list (oid * change)) (v : pyval oid) : pyval oid := fold_left (fun v ic => edit (fst ic) (snd ic) v) l v.
Definition edits_metric (l : list (oid * change)) (m : metric oid) : metric oid := fold_left (fun m ic => edit_metric (fst ic) (snd ic) m) l m.

(* json.loads(json.dumps(v)): tuples come back as lists, the key None as "null"; the
   decimal form of a float is read back exactly *)
Fixpoint json_trip {I} (v : pyval I) : pyval unit :=
  match v with
  | PyNone => PyNone
  | PyBool b => PyBool b
  | PyInt z => PyInt z
  | PyFloat q => PyFloat q
  | PyScore z => PyScore z
  | PyNan => PyNan
  | PyStr s => PyStr s
  | PyTuple l | PyList _ l => PyList tt (map json_trip l)
  | PyDict _ d => PyDict tt (map (fun kv => (Some (match fst kv with Some s => s | None => "null"%string end), json_trip (snd kv))) d)
  end.
(* Python's == (dictionaries with their keys in the same order); NaN equals nothing *)
Fixpoint py_eq {I J} (v : pyval I) (w : pyval J) : Prop :=
  match v, w with
  | PyNone, PyNone => True
  | PyBool b, PyBool b' => b = b'
  | PyInt z, PyInt z' => z = z'
  | PyFloat q, PyFloat q' => (q == q')%Q
  | PyScore z, PyScore z' => z = z'
  | PyStr s, PyStr s' => s = s'
  | PyTuple l, PyTuple l' | PyList _ l, PyList _ l' =>
      (fix go (l : list (pyval I)) (l' : list (pyval J)) : Prop :=
        match l, l' with [], [] => True | x :: t, x' :: t' => py_eq x x' /\ go t t' | _, _ => False end) l l'
  | PyDict _ d, PyDict _ d' =>
      (fix go (d : list (pkey * pyval I)) (d' : list (pkey * pyval J)) : Prop :=
        match d, d' with [], [] => True | (k, x) :: t, (k', x') :: t' => k = k' /\ py_eq x x' /\ go t t' | _, _ => False end) d d'
  | _, _ => False
  end.
