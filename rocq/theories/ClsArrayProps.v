(* C132: the arrays of the classification evaluator.
   Vocabulary: ClsSpec.v, ClsFilterSpec.v, ClsArraySpec.v; model: ClsArrayModel.v,
   DetArrayModel.v, ClsModel.v, RocModel.v, FlowModel.v, ClsFilterModel.v,
   ClsReportModel.v. *)
From Verif Require Import Prelude CacheModel CacheSpec Counting DetArrayModel ClsModel ClsSpec ClsLemmas ClsDemo RocModel FlowModel
  ClsFilterModel ClsFilterSpec ClsFilterMain ClsFilterProps ClsReportModel ClsArrayModel ClsArraySpec ClsArrayMain.
From Coq Require Import String QArith Lia.
Local Notation length := List.length (only parsing).
Local Open Scope nat_scope.
Local Open Scope list_scope.

(* ---------------------------------------------------------------- C132 *)
(* compute_precision_recall of an evaluator that was built or filtered, in memory or on
   disk, never reads or writes outside its arrays, for every list of thresholds and every
   selection of datums; it returns the report of ClsReportModel.v *)
Theorem C132_metrics :
  forall cs, Forall distinct_candidates cs -> forall w e, cls_evaluator cs w e ->
  forall tol hardmax thrs datums, thrs <> [] ->
  exists m, np_metrics tol hardmax thrs datums e = AOk m /\ report_metrics e tol hardmax thrs datums = Some m.
Proof. exact ev_metrics_arrays. Qed.
Print Assumptions C132_metrics.
(* the same for compute_confusion_matrix *)
Theorem C132_confusion :
  forall cs, Forall distinct_candidates cs -> forall w e, cls_evaluator cs w e ->
  forall tol9 hardmax thrs datums, thrs <> [] ->
  exists r, np_confusion tol9 hardmax thrs datums e = AOk r /\ report_confusion e tol9 hardmax thrs datums = Some r.
Proof. exact ev_confusion_arrays. Qed.
Print Assumptions C132_confusion.
(* for compute_rocauc *)
Theorem C132_rocauc :
  forall cs, Forall distinct_candidates cs -> forall w e, cls_evaluator cs w e -> np_rocauc e = AOk (report_rocauc e).
Proof. exact ev_rocauc_arrays. Qed.
Print Assumptions C132_rocauc.
(* and for the ROC curve that finalize computes from the sorted rows *)
Theorem C132_curve :
  forall cs, Forall distinct_candidates cs -> forall w e, cls_evaluator cs w e ->
  forall sorted, np_roc_curve (label_keys (ce_labels e)) sorted = AOk (roc_curve (label_keys (ce_labels e)) sorted).
Proof. exact ev_curve_arrays. Qed.
Print Assumptions C132_curve.
Definition animals (e : ceval) : option (list (string * Z * option counts)) :=
  match np_metrics 0 true [4]%Z (fun _ => true) e with AOk m => Some (mt_counts m) | ARaise _ => None end.
Example C132_example :
  Forall distinct_candidates demo /\ cls_evaluator demo cats_view cats_cmem /\ cls_evaluator demo cats_view cats_cfile /\
  animals cats_cmem = Some [("cat"%string, 4%Z, Some (MkCounts 2 1 0 1)); ("dog"%string, 4%Z, Some (MkCounts 0 0 1 0))] /\
  animals cats_cfile = animals cats_cmem /\
  succeeds (np_rocauc cats_cmem).
Proof.
  split; [exact demo_distinct|]. split; [exact cats_cmem_ok|]. split; [exact cats_cfile_ok|].
  split; [vm_compute; reflexivity|]. split; [vm_compute; reflexivity|]. eexists. vm_compute. reflexivity.
Qed.

(* A filtered cache loaded without giving its labels counts only the labels of the
   remaining data, which keep their numbers.  Each of the three computations succeeds
   exactly when those numbers are the lowest ones; otherwise it raises. *)
Theorem C132_unlabelled :
  forall cs, Forall distinct_candidates cs -> forall w sel sg sp e, cls_evaluator cs w e ->
  forall datums gts pds, expresses cs datums sel -> opt_expresses cs gts sg -> opt_expresses cs pds sp ->
  forall bs rpf rb b labels rows curve, batching_ok rb ->
  cls_filter_build bs rpf rb e datums gts pds = (b, Done labels) ->
  Permutation rows (f_dir (fb_writer b)) -> Permutation curve (f_dir (fb_curve b)) ->
  let loaded := cls_load rows curve None in
  let remaining := labels_of (reduced (crestrict w sel sg sp) cs) in
  let lowest := forall l i, In l remaining -> has_number e l i -> i < length remaining in
  length (ce_labels loaded) = length remaining /\
  (forall tol hardmax thrs chosen, thrs <> [] -> (succeeds (np_metrics tol hardmax thrs chosen loaded) <-> lowest)) /\
  (forall tol9 hardmax thrs chosen, thrs <> [] -> (succeeds (np_confusion tol9 hardmax thrs chosen loaded) <-> lowest)) /\
  (succeeds (np_rocauc loaded) <-> lowest).
Proof. exact load_unlabelled. Qed.
Print Assumptions C132_unlabelled.
(* keeping the cats, whose number is 0, works; keeping the dogs, whose number is 1, does
   not, whereas with the labels given it does *)
Definition cat_only_row (r : crow) : bool := String.eqb (r_gt_label r) "cat" && String.eqb (r_pd_label r) "cat".
Definition reloaded (keep : crow -> bool) (given : bool) : option ceval :=
  match cls_filter_build 3 2 one_by_one (cfile demo) (fun _ => true) None (Some keep) with
  | (b, Done labels) => Some (cls_load (f_dir (fb_writer b)) (f_dir (fb_curve b)) (if given then Some labels else None))
  | _ => None
  end.
Example C132_unlabelled_example :
  option_map animals (reloaded cat_only_row false) = Some (Some [("cat"%string, 4%Z, Some (MkCounts 2 0 0 0))]) /\
  option_map np_rocauc (reloaded dog_row false) = Some (ARaise OutOfBounds) /\
  option_map (np_metrics 0 true [4]%Z (fun _ => true)) (reloaded dog_row false) = Some (ARaise BadValue) /\
  option_map (np_confusion 0 true [4]%Z (fun _ => true)) (reloaded dog_row false) = Some (ARaise OutOfBounds) /\
  option_map animals (reloaded dog_row true)
    = Some (Some [("cat"%string, 4%Z, Some (MkCounts 0 0 0 0)); ("dog"%string, 4%Z, Some (MkCounts 1 0 1 0))]).
Proof. split; [vm_compute; reflexivity|]. split; [vm_compute; reflexivity|]. split; [vm_compute; reflexivity|]. split; vm_compute; reflexivity. Qed.
