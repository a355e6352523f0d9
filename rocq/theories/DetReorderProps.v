(* C86-C88: object detection reports about the same images added in another order, and
   about images evaluated in parts.  Vocabulary: DetSpec.v, DetReorderSpec.v,
   [det_evaluator] and [label_no] as in DetProps.v; the evaluators that are compared
   may use different back ends, batch sizes and numbers of calls.  Model: DetModel.v,
   DetFlowModel.v, DetReportModel.v, DetExModel.v. *)
From Verif Require Import Prelude Counting CacheModel CacheSpec ClsModel FlowModel
  DetModel DetSpec DetFlowModel DetExModel DetExampleProofs DetReportModel DetEnd DetMore DetDemo DetReorderSpec DetReorderProofs.
From Coq Require Import String QArith Lqa Lia.
Local Open Scope nat_scope.
Local Open Scope list_scope.

(* ---------------------------------------------------------------- C86 *)
Theorem C86_labels :
  forall eps unit ds1 ds2, det_input unit ds1 -> Permutation ds1 ds2 ->
  forall e1 e2, det_evaluator eps unit ds1 e1 -> det_evaluator eps unit ds2 e2 ->
  forall v, (exists k, label_no e1 v k) <-> (exists k, label_no e2 v k).
Proof. exact reorder_labels. Qed.
Print Assumptions C86_labels.
Theorem C86_groundtruths :
  forall eps unit ds1 ds2, det_input unit ds1 -> Permutation ds1 ds2 ->
  forall sel datums1 datums2 e1 e2, det_selects ds1 datums1 sel -> det_selects ds2 datums2 sel ->
  det_evaluator eps unit ds1 e1 -> det_evaluator eps unit ds2 e2 ->
  forall v i1 i2, label_no e1 v i1 -> label_no e2 v i2 ->
  rep_gts e1 datums1 (Z.of_nat i1) = rep_gts e2 datums2 (Z.of_nat i2).
Proof. exact reorder_gts. Qed.
Print Assumptions C86_groundtruths.
Theorem C86_metrics :
  forall eps unit ds1 ds2, (0 <= unit)%Z -> det_input unit ds1 -> few_det_labels ds1 -> Permutation ds1 ds2 ->
  forall sel datums1 datums2 e1 e2, det_selects ds1 datums1 sel -> det_selects ds2 datums2 sel ->
  det_evaluator eps unit ds1 e1 -> det_evaluator eps unit ds2 e2 ->
  forall v i1 i2, label_no e1 v i1 -> label_no e2 v i2 -> forall t s, (0 < t)%Z ->
    rep_tp eps e1 datums1 t s (Z.of_nat i1) = rep_tp eps e2 datums2 t s (Z.of_nat i2) /\
    rep_fp eps e1 datums1 t s (Z.of_nat i1) = rep_fp eps e2 datums2 t s (Z.of_nat i2) /\
    rep_fn eps e1 datums1 t s (Z.of_nat i1) = rep_fn eps e2 datums2 t s (Z.of_nat i2) /\
    rep_precision eps e1 datums1 t s (Z.of_nat i1) = rep_precision eps e2 datums2 t s (Z.of_nat i2) /\
    rep_recall eps e1 datums1 t s (Z.of_nat i1) = rep_recall eps e2 datums2 t s (Z.of_nat i2) /\
    rep_f1 eps e1 datums1 t s (Z.of_nat i1) = rep_f1 eps e2 datums2 t s (Z.of_nat i2).
Proof. exact reorder_metrics. Qed.
Print Assumptions C86_metrics.
(* the whole list of reported counts, up to the order of its entries *)
Theorem C86_report :
  forall eps unit ds1 ds2, (0 <= unit)%Z -> det_input unit ds1 -> few_det_labels ds1 -> Permutation ds1 ds2 ->
  forall sel datums1 datums2 e1 e2, det_selects ds1 datums1 sel -> det_selects ds2 datums2 sel ->
  det_evaluator eps unit ds1 e1 -> det_evaluator eps unit ds2 e2 ->
  forall ious scores, Forall (fun t => 0 < t)%Z ious ->
    match report_counts eps e1 datums1 ious scores, report_counts eps e2 datums2 ious scores with
    | Some r1, Some r2 => Permutation r1 r2
    | None, None => True
    | _, _ => False
    end.
Proof. exact reorder_report. Qed.
Print Assumptions C86_report.
Theorem C86_average_recall :
  forall eps unit ds1 ds2, (0 <= unit)%Z -> det_input unit ds1 -> few_det_labels ds1 -> Permutation ds1 ds2 ->
  forall sel datums1 datums2 e1 e2, det_selects ds1 datums1 sel -> det_selects ds2 datums2 sel ->
  det_evaluator eps unit ds1 e1 -> det_evaluator eps unit ds2 e2 ->
  forall v i1 i2, label_no e1 v i1 -> label_no e2 v i2 -> forall ious s, Forall (fun t => 0 < t)%Z ious ->
    rep_ar eps e1 datums1 ious s (Z.of_nat i1) = rep_ar eps e2 datums2 ious s (Z.of_nat i2).
Proof. exact reorder_ar. Qed.
Print Assumptions C86_average_recall.
Theorem C86_mean_average_recall :
  forall eps unit ds1 ds2, (0 <= unit)%Z -> det_input unit ds1 -> few_det_labels ds1 -> Permutation ds1 ds2 ->
  forall sel datums1 datums2 e1 e2, det_selects ds1 datums1 sel -> det_selects ds2 datums2 sel ->
  det_evaluator eps unit ds1 e1 -> det_evaluator eps unit ds2 e2 ->
  forall ious s, Forall (fun t => 0 < t)%Z ious -> same_number (rep_mar eps e1 datums1 ious s) (rep_mar eps e2 datums2 ious s).
Proof. exact reorder_mar. Qed.
Print Assumptions C86_mean_average_recall.
Theorem C86_confusion :
  forall eps unit ds1 ds2, det_input unit ds1 -> few_det_labels ds1 -> Permutation ds1 ds2 ->
  forall sel datums1 datums2 e1 e2, det_selects ds1 datums1 sel -> det_selects ds2 datums2 sel ->
  det_evaluator eps unit ds1 e1 -> det_evaluator eps unit ds2 e2 -> few_annotations ds1 -> Forall distinct_pd_labels ds1 ->
  forall t s,
    (forall gl g1 g2 pl p1 p2, label_no e1 gl g1 -> label_no e2 gl g2 -> label_no e1 pl p1 -> label_no e2 pl p2 ->
      dm (rep_matrix eps e1 datums1 t s) (Z.of_nat g1) (Z.of_nat p1) = dm (rep_matrix eps e2 datums2 t s) (Z.of_nat g2) (Z.of_nat p2)) /\
    (forall v i1 i2, label_no e1 v i1 -> label_no e2 v i2 ->
      dm_gt (rep_matrix eps e1 datums1 t s) (Z.of_nat i1) = dm_gt (rep_matrix eps e2 datums2 t s) (Z.of_nat i2) /\
      dm_pd (rep_matrix eps e1 datums1 t s) (Z.of_nat i1) = dm_pd (rep_matrix eps e2 datums2 t s) (Z.of_nat i2)).
Proof. exact reorder_confusion. Qed.
Print Assumptions C86_confusion.
(* every image with annotations has, at every threshold pair, the same example lists *)
Theorem C86_examples :
  forall eps unit ds1 ds2, det_input unit ds1 -> Permutation ds1 ds2 ->
  forall sel datums1 datums2 e1 e2, det_selects ds1 datums1 sel -> det_selects ds2 datums2 sel ->
  det_evaluator eps unit ds1 e1 -> det_evaluator eps unit ds2 e2 ->
  few_det_labels ds1 -> few_annotations ds1 -> Forall distinct_pd_labels ds1 ->
  forall ious scores t s d, In d ds1 -> sel d = true -> has_rows d -> In t ious -> In s scores ->
  exists x1 x2, In (Some (t_uid d), t, s, x1) (det_eval_examples eps ious scores (map (filter datums1) (de_detailed e1))) /\
    In (Some (t_uid d), t, s, x2) (det_eval_examples eps ious scores (map (filter datums2) (de_detailed e2))) /\
    Permutation (dx_tp x1) (dx_tp x2) /\ Permutation (dx_fp x1) (dx_fp x2) /\ Permutation (dx_fn x1) (dx_fn x2).
Proof. exact reorder_examples. Qed.
Print Assumptions C86_examples.

(* the demo images, the last first, in files; the labels get other numbers *)
Definition swapped : list detection := [nth 2 ddemo (MkDet "" [] [] (fun _ _ => 0%Z)); nth 1 ddemo (MkDet "" [] [] (fun _ _ => 0%Z)); nth 0 ddemo (MkDet "" [] [] (fun _ _ => 0%Z))].
Definition swapped_file : deval := Eval vm_compute in get_eval (file_eval 1 one 2 1 singles [firstn 1 swapped; skipn 1 swapped]).
Lemma swapped_ok : det_evaluator 1 one swapped swapped_file.
Proof. apply (file_eval_ok 1 one 2 1 singles [firstn 1 swapped; skipn 1 swapped] _ singles_ok). vm_compute. reflexivity. Qed.
Lemma swapped_perm : Permutation ddemo swapped.
Proof. apply (Permutation_rev ddemo). Qed.
Example C86_example : det_input one ddemo /\ few_det_labels ddemo /\ few_annotations ddemo /\ Forall distinct_pd_labels ddemo /\
  Permutation ddemo swapped /\ det_evaluator 1 one ddemo ddemo_mem /\ det_evaluator 1 one swapped swapped_file /\
  label_no ddemo_mem "cat" 0 /\ label_no swapped_file "cat" 0 /\
  rep_tp 1 ddemo_mem (fun _ => true) 500000000 100000000 0 = 1 /\ rep_fp 1 ddemo_mem (fun _ => true) 500000000 100000000 0 = 2 /\
  List.concat (de_ranked ddemo_mem) <> List.concat (de_ranked swapped_file).
Proof.
  split; [apply ddemo_input|]. split; [apply ddemo_few|]. split; [apply ddemo_ann|]. split; [apply ddemo_distinct|]. split; [apply swapped_perm|].
  split; [apply ddemo_mem_ok|]. split; [apply swapped_ok|]. do 4 (split; [reflexivity|]). vm_compute. discriminate.
Qed.

(* ---------------------------------------------------------------- C87 *)
(* average precision and the precision-recall curve do not depend on the order when no
   score is given to the label in two selected images.  Without this they do. *)
Theorem C87_average_precision_partial :
  forall eps unit ds1 ds2, (0 <= unit)%Z -> det_input unit ds1 -> few_det_labels ds1 -> Permutation ds1 ds2 ->
  forall sel datums1 datums2 e1 e2, det_selects ds1 datums1 sel -> det_selects ds2 datums2 sel ->
  det_evaluator eps unit ds1 e1 -> det_evaluator eps unit ds2 e2 ->
  forall v i1 i2, label_no e1 v i1 -> label_no e2 v i2 -> forall t, (0 < t)%Z -> apart sel v ds1 ->
    (rep_ap eps e1 datums1 t (Z.of_nat i1) == rep_ap eps e2 datums2 t (Z.of_nat i2))%Q.
Proof. exact reorder_ap. Qed.
Print Assumptions C87_average_precision_partial.
Theorem C87_pr_curve_partial :
  forall eps unit ds1 ds2, (0 <= unit)%Z -> det_input unit ds1 -> few_det_labels ds1 -> Permutation ds1 ds2 ->
  forall sel datums1 datums2 e1 e2, det_selects ds1 datums1 sel -> det_selects ds2 datums2 sel ->
  det_evaluator eps unit ds1 e1 -> det_evaluator eps unit ds2 e2 ->
  forall v i1 i2, label_no e1 v i1 -> label_no e2 v i2 -> forall t, (0 < t)%Z -> apart sel v ds1 ->
    same_curve (rep_pr_curve eps e1 datums1 t (Z.of_nat i1)) (rep_pr_curve eps e2 datums2 t (Z.of_nat i2)).
Proof. exact reorder_curve. Qed.
Print Assumptions C87_pr_curve_partial.
Theorem C87_mean_average_precision_partial :
  forall eps unit ds1 ds2, (0 <= unit)%Z -> det_input unit ds1 -> few_det_labels ds1 -> Permutation ds1 ds2 ->
  forall sel datums1 datums2 e1 e2, det_selects ds1 datums1 sel -> det_selects ds2 datums2 sel ->
  det_evaluator eps unit ds1 e1 -> det_evaluator eps unit ds2 e2 ->
  forall t, (0 < t)%Z -> (forall v, apart sel v ds1) -> same_number (rep_map eps e1 datums1 t) (rep_map eps e2 datums2 t).
Proof. exact reorder_map. Qed.
Print Assumptions C87_mean_average_precision_partial.
Theorem C87_mean_over_ious_partial :
  forall eps unit ds1 ds2, (0 <= unit)%Z -> det_input unit ds1 -> few_det_labels ds1 -> Permutation ds1 ds2 ->
  forall sel datums1 datums2 e1 e2, det_selects ds1 datums1 sel -> det_selects ds2 datums2 sel ->
  det_evaluator eps unit ds1 e1 -> det_evaluator eps unit ds2 e2 ->
  forall ious, Forall (fun t => 0 < t)%Z ious -> (forall v, apart sel v ds1) ->
    same_number (rep_map_over_ious eps e1 datums1 ious) (rep_map_over_ious eps e2 datums2 ious).
Proof. exact reorder_map_over. Qed.
Print Assumptions C87_mean_over_ious_partial.
(* a hit and a duplicate with the same score and IoU in two images: the image added
   first is ranked first *)
Definition hit_image : detection :=
  MkDet "hit" [gt "a" "cat"] [pd "x" "cat" 500000000] (iou_of [ov 0 0 700000000]).
Definition dup_image : detection :=
  MkDet "dup" [gt "b" "cat"] [pd "y" "cat" 900000000; pd "z" "cat" 500000000] (iou_of [ov 0 0 800000000; ov 1 0 700000000]).
Definition hit_first : deval := Eval vm_compute in get_eval (mem_eval 1 one 4 singles [[hit_image; dup_image]]).
Definition dup_first : deval := Eval vm_compute in get_eval (mem_eval 1 one 4 singles [[dup_image; hit_image]]).
Theorem C87_order_matters_refuted : exists ds1 ds2 e1 e2 t, det_input one ds1 /\ few_det_labels ds1 /\ Permutation ds1 ds2 /\
  det_evaluator 1 one ds1 e1 /\ det_evaluator 1 one ds2 e2 /\ label_no e1 "cat" 0 /\ label_no e2 "cat" 0 /\ (0 < t)%Z /\
  Forall single_pd_labels ds1 /\ ~ (rep_ap 1 e1 (fun _ => true) t 0 == rep_ap 1 e2 (fun _ => true) t 0)%Q.
Proof.
  exists [hit_image; dup_image], [dup_image; hit_image], hit_first, dup_first, 500000000%Z.
  split; [unfold det_input, hit_image, dup_image; inputs|]. split; [unfold few_det_labels, few; vm_compute; discriminate|]. split; [apply perm_swap|].
  split; [apply (mem_eval_ok 1 one 4 singles [[hit_image; dup_image]]); vm_compute; reflexivity|].
  split; [apply (mem_eval_ok 1 one 4 singles [[dup_image; hit_image]]); vm_compute; reflexivity|].
  split; [reflexivity|]. split; [reflexivity|]. split; [reflexivity|].
  split; [unfold single_pd_labels; each; intros a Ha; cbn in Ha; intuition subst; reflexivity|]. vm_compute. discriminate.
Qed.
Print Assumptions C87_order_matters_refuted.
Example C87_example : apart (fun _ => true) "cat" ddemo /\ apart (fun _ => true) "dog" ddemo /\
  (rep_ap 1 swapped_file (fun _ => true) 500000000 0 == 51 # 101)%Q.
Proof.
  split; [|split; [|vm_compute; reflexivity]]; intros c; unfold scores_at, ddemo; cbn -[Z.eqb];
  repeat match goal with |- context [(?a =? c)%Z] => destruct (Z.eqb_spec a c); subst; cbn -[Z.eqb] end; try lia; cbn; lia.
Qed.

(* ---------------------------------------------------------------- C88 *)
Theorem C88_labels :
  forall eps unit ds1 ds2, det_input unit (ds1 ++ ds2) ->
  forall e1 e2 e, det_evaluator eps unit ds1 e1 -> det_evaluator eps unit ds2 e2 -> det_evaluator eps unit (ds1 ++ ds2) e ->
  forall v, (exists k, label_no e v k) <-> (exists k, label_no e1 v k) \/ (exists k, label_no e2 v k).
Proof. exact parts_known. Qed.
Print Assumptions C88_labels.
Theorem C88_groundtruths :
  forall eps unit ds1 ds2, det_input unit (ds1 ++ ds2) ->
  forall sel datums1 datums2 datums e1 e2 e, det_selects ds1 datums1 sel -> det_selects ds2 datums2 sel -> det_selects (ds1 ++ ds2) datums sel ->
  det_evaluator eps unit ds1 e1 -> det_evaluator eps unit ds2 e2 -> det_evaluator eps unit (ds1 ++ ds2) e ->
  forall v k, label_no e v k -> forall n1 n2,
    reported 0 e1 v (rep_gts e1 datums1) n1 -> reported 0 e2 v (rep_gts e2 datums2) n2 ->
    rep_gts e datums (Z.of_nat k) = n1 + n2.
Proof. exact parts_gts. Qed.
Print Assumptions C88_groundtruths.
Theorem C88_true_positives :
  forall eps unit ds1 ds2, (0 <= unit)%Z -> det_input unit (ds1 ++ ds2) -> few_det_labels (ds1 ++ ds2) ->
  forall sel datums1 datums2 datums e1 e2 e, det_selects ds1 datums1 sel -> det_selects ds2 datums2 sel -> det_selects (ds1 ++ ds2) datums sel ->
  det_evaluator eps unit ds1 e1 -> det_evaluator eps unit ds2 e2 -> det_evaluator eps unit (ds1 ++ ds2) e ->
  forall v k, label_no e v k -> forall t s, (0 < t)%Z -> forall n1 n2,
    reported 0 e1 v (rep_tp eps e1 datums1 t s) n1 -> reported 0 e2 v (rep_tp eps e2 datums2 t s) n2 ->
    rep_tp eps e datums t s (Z.of_nat k) = n1 + n2.
Proof. exact parts_tp. Qed.
Print Assumptions C88_true_positives.
Theorem C88_false_positives :
  forall eps unit ds1 ds2, (0 <= unit)%Z -> det_input unit (ds1 ++ ds2) -> few_det_labels (ds1 ++ ds2) ->
  forall sel datums1 datums2 datums e1 e2 e, det_selects ds1 datums1 sel -> det_selects ds2 datums2 sel -> det_selects (ds1 ++ ds2) datums sel ->
  det_evaluator eps unit ds1 e1 -> det_evaluator eps unit ds2 e2 -> det_evaluator eps unit (ds1 ++ ds2) e ->
  forall v k, label_no e v k -> forall t s, (0 < t)%Z -> forall n1 n2,
    reported 0 e1 v (rep_fp eps e1 datums1 t s) n1 -> reported 0 e2 v (rep_fp eps e2 datums2 t s) n2 ->
    rep_fp eps e datums t s (Z.of_nat k) = n1 + n2.
Proof. exact parts_fp. Qed.
Print Assumptions C88_false_positives.
Theorem C88_false_negatives :
  forall eps unit ds1 ds2, (0 <= unit)%Z -> det_input unit (ds1 ++ ds2) -> few_det_labels (ds1 ++ ds2) ->
  forall sel datums1 datums2 datums e1 e2 e, det_selects ds1 datums1 sel -> det_selects ds2 datums2 sel -> det_selects (ds1 ++ ds2) datums sel ->
  det_evaluator eps unit ds1 e1 -> det_evaluator eps unit ds2 e2 -> det_evaluator eps unit (ds1 ++ ds2) e ->
  forall v k, label_no e v k -> forall t s, (0 < t)%Z -> few_annotations (ds1 ++ ds2) -> forall n1 n2,
    reported 0%Z e1 v (rep_fn eps e1 datums1 t s) n1 -> reported 0%Z e2 v (rep_fn eps e2 datums2 t s) n2 ->
    rep_fn eps e datums t s (Z.of_nat k) = (n1 + n2)%Z.
Proof. exact parts_fn. Qed.
Print Assumptions C88_false_negatives.
Theorem C88_confusion :
  forall eps unit ds1 ds2, det_input unit (ds1 ++ ds2) -> few_det_labels (ds1 ++ ds2) ->
  forall sel datums1 datums2 datums e1 e2 e, det_selects ds1 datums1 sel -> det_selects ds2 datums2 sel -> det_selects (ds1 ++ ds2) datums sel ->
  det_evaluator eps unit ds1 e1 -> det_evaluator eps unit ds2 e2 -> det_evaluator eps unit (ds1 ++ ds2) e ->
  forall gl k, label_no e gl k -> few_annotations (ds1 ++ ds2) -> Forall distinct_pd_labels (ds1 ++ ds2) ->
  forall t s pl p n1 n2, label_no e pl p ->
    reported_cell e1 gl pl (dm (rep_matrix eps e1 datums1 t s)) n1 -> reported_cell e2 gl pl (dm (rep_matrix eps e2 datums2 t s)) n2 ->
    dm (rep_matrix eps e datums t s) (Z.of_nat k) (Z.of_nat p) = n1 + n2.
Proof. exact parts_cells. Qed.
Print Assumptions C88_confusion.
Theorem C88_missed :
  forall eps unit ds1 ds2, det_input unit (ds1 ++ ds2) -> few_det_labels (ds1 ++ ds2) ->
  forall sel datums1 datums2 datums e1 e2 e, det_selects ds1 datums1 sel -> det_selects ds2 datums2 sel -> det_selects (ds1 ++ ds2) datums sel ->
  det_evaluator eps unit ds1 e1 -> det_evaluator eps unit ds2 e2 -> det_evaluator eps unit (ds1 ++ ds2) e ->
  forall v k, label_no e v k -> few_annotations (ds1 ++ ds2) -> Forall distinct_pd_labels (ds1 ++ ds2) -> forall t s n1 n2,
    reported 0 e1 v (dm_gt (rep_matrix eps e1 datums1 t s)) n1 -> reported 0 e2 v (dm_gt (rep_matrix eps e2 datums2 t s)) n2 ->
    dm_gt (rep_matrix eps e datums t s) (Z.of_nat k) = n1 + n2.
Proof. exact parts_missed. Qed.
Print Assumptions C88_missed.
Theorem C88_unmatched :
  forall eps unit ds1 ds2, det_input unit (ds1 ++ ds2) -> few_det_labels (ds1 ++ ds2) ->
  forall sel datums1 datums2 datums e1 e2 e, det_selects ds1 datums1 sel -> det_selects ds2 datums2 sel -> det_selects (ds1 ++ ds2) datums sel ->
  det_evaluator eps unit ds1 e1 -> det_evaluator eps unit ds2 e2 -> det_evaluator eps unit (ds1 ++ ds2) e ->
  forall v k, label_no e v k -> few_annotations (ds1 ++ ds2) -> Forall distinct_pd_labels (ds1 ++ ds2) -> forall t s n1 n2,
    reported 0 e1 v (dm_pd (rep_matrix eps e1 datums1 t s)) n1 -> reported 0 e2 v (dm_pd (rep_matrix eps e2 datums2 t s)) n2 ->
    dm_pd (rep_matrix eps e datums t s) (Z.of_nat k) = n1 + n2.
Proof. exact parts_unmatched. Qed.
Print Assumptions C88_unmatched.
(* the first image alone, and the two others: the second part does not know "dog" *)
Definition part1 : deval := Eval vm_compute in get_eval (mem_eval 1 one 4 singles [firstn 1 ddemo]).
Definition part2 : deval := Eval vm_compute in get_eval (mem_eval 1 one 4 singles [skipn 1 ddemo]).
Example C88_example : det_evaluator 1 one (firstn 1 ddemo) part1 /\ det_evaluator 1 one (skipn 1 ddemo) part2 /\
  det_evaluator 1 one (firstn 1 ddemo ++ skipn 1 ddemo) ddemo_mem /\
  reported 0 part1 "dog" (rep_gts part1 (fun _ => true)) 1 /\ reported 0 part2 "dog" (rep_gts part2 (fun _ => true)) 0 /\
  reported 0 part1 "cat" (rep_fp 1 part1 (fun _ => true) 500000000 100000000) 1 /\ reported 0 part2 "cat" (rep_fp 1 part2 (fun _ => true) 500000000 100000000) 1.
Proof.
  split; [apply (mem_eval_ok 1 one 4 singles [firstn 1 ddemo]); vm_compute; reflexivity|].
  split; [apply (mem_eval_ok 1 one 4 singles [skipn 1 ddemo]); vm_compute; reflexivity|]. split; [apply ddemo_mem_ok|].
  split; [left; exists 1; split; vm_compute; reflexivity|]. split; [right; split; [|reflexivity]|].
  - intros k. unfold label_no. destruct k as [|k]; [vm_compute; discriminate|]. unfold ldict_get. cbn. discriminate.
  - split; left; exists 0; split; vm_compute; reflexivity.
Qed.
