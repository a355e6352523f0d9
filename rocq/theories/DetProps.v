(* C25-C36, C47, C49, C53-C55: properties of the object detection evaluator.
   Vocabulary: DetSpec.v; [det_evaluator eps unit ds e]: [e] is an evaluator obtained
   by loading the data [ds] (in memory or in files, in any number of calls, for any
   batch and file sizes) and finalizing; [label_no e v vi]: label [v] has number
   [vi] in [e].  Model: DetModel.v, DetFlowModel.v, DetReportModel.v, DetExModel.v. *)
From Verif Require Import Prelude Counting CacheModel CacheSpec ClsModel FlowModel
  DetModel DetSpec DetGeomProofs DetMatchProofs DetRankProofs DetCountProofs DetApProofs DetFlowModel DetOrderProofs
  DetConfOrder DetExModel DetExampleProofs DetReportModel DetEnd DetMore DetDemo.
From Verif Require Import DetImage.
From Coq Require Import String QArith Lqa Lia.
Local Open Scope nat_scope.
Local Open Scope list_scope.

(* ---------------------------------------------------------------- C25 *)
(* IoU = area of the intersection / area of the union, when the union is not tiny *)
Theorem C25_formula : forall a b c, is_intersection a b c -> (epsQ <= area a + area b - area c)%Q ->
  (bbox_iou a b == area c / (area a + area b - area c))%Q.
Proof. exact bbox_formula. Qed.
Print Assumptions C25_formula.
Theorem C25_symmetric : forall a b, (bbox_iou a b == bbox_iou b a)%Q.
Proof. exact bbox_sym. Qed.
Print Assumptions C25_symmetric.
Theorem C25_range : forall a b, (0 <= bbox_iou a b <= 1)%Q.
Proof. exact bbox_range. Qed.
Print Assumptions C25_range.
Theorem C25_disjoint : forall a b, disjoint_interiors a b -> (bbox_iou a b == 0)%Q.
Proof. exact bbox_disjoint. Qed.
Print Assumptions C25_disjoint.
(* 1 for identical boxes whose area is at least 1e-9 *)
Theorem C25_self_partial : forall a, wf_box a -> (epsQ <= area a)%Q -> (bbox_iou a a == 1)%Q.
Proof. exact bbox_self. Qed.
Print Assumptions C25_self_partial.
(* only identical boxes have IoU 1 *)
Theorem C25_one : forall a b, (bbox_iou a b == 1)%Q ->
  (b_xmin a == b_xmin b /\ b_xmax a == b_xmax b /\ b_ymin a == b_ymin b /\ b_ymax a == b_ymax b)%Q.
Proof. exact bbox_one. Qed.
Print Assumptions C25_one.
(* the full claim, IoU 1 for identical boxes of positive area, fails for tiny boxes *)
Theorem C25_tiny_box_refuted : exists a, wf_box a /\ (0 < area a)%Q /\ (bbox_iou a a == 0)%Q.
Proof.
  exists (MkBox 0 (1 # 100000) 0 (1 # 100000)). split; [split; discriminate|]. split; [reflexivity|]. vm_compute. reflexivity.
Qed.
Print Assumptions C25_tiny_box_refuted.
(* the flat list of IoUs is read back with predictions as rows and ground truths as columns *)
Theorem C25_matrix : forall (G P V : Type) (f : G -> P -> V) gts pds i j,
  reshaped (iou_list f gts pds) (List.length gts) i j
  = match nth_error pds i, nth_error gts j with Some p, Some g => Some (f g p) | _, _ => None end.
Proof. exact @iou_matrix. Qed.
Print Assumptions C25_matrix.
Example C25_example :
  let a := MkBox 0 2 0 2 in let b := MkBox 1 3 0 2 in let c := MkBox 1 2 0 2 in
  (bbox_iou a b == 1 # 3)%Q /\ is_intersection a b c /\ (epsQ <= area a + area b - area c)%Q.
Proof.
  cbn. split; [vm_compute; reflexivity|]. split; [|vm_compute; discriminate].
  split; [split; discriminate|]. intros x y. unfold inside. cbn. split; intros H; repeat split; lra.
Qed.

(* ---------------------------------------------------------------- C26 *)
Theorem C26_formula : forall a b, List.length a = List.length b ->
  let n := List.length a in
  let inter := pixels_where n (fun i => pixel a i && pixel b i) in
  let union := pixels_where n (fun i => pixel a i || pixel b i) in
  (bitmask_iou a b == if Nat.eqb union 0 then 0 else qnat inter / qnat union)%Q.
Proof. exact bitmask_formula. Qed.
Print Assumptions C26_formula.
Theorem C26_range : forall a b, List.length a = List.length b -> (0 <= bitmask_iou a b <= 1)%Q.
Proof. exact bitmask_range. Qed.
Print Assumptions C26_range.
Theorem C26_symmetric : forall a b, List.length a = List.length b -> (bitmask_iou a b == bitmask_iou b a)%Q.
Proof. exact bitmask_sym. Qed.
Print Assumptions C26_symmetric.
Example C26_example : (bitmask_iou [true; true; false] [true; false; true] == 1 # 3)%Q.
Proof. vm_compute. reflexivity. Qed.

(* ---------------------------------------------------------------- C27 *)
(* every prediction is counted at most once under each of its labels, and exactly
   once when it takes part: TP + FP is the number of (prediction, label) with a
   sufficient score that take part.  A prediction takes part under a label if it
   overlaps a ground truth with this label, or overlaps none with any of its labels.
   The full claim, that it takes part under all its labels, is refuted below. *)
Theorem C27_counted_once_partial :
  forall eps unit ds, det_input unit ds -> forall sel datums, det_selects ds datums sel ->
  forall e, (0 <= unit)%Z -> det_evaluator eps unit ds e -> few_det_labels ds ->
  forall v vi, label_no e v vi -> forall t s, (0 < t)%Z -> Forall distinct_pd_labels ds ->
    rep_tp eps e datums t s (Z.of_nat vi) + rep_fp eps e datums t s (Z.of_nat vi)
    = pds_where sel (fun d p a sc => (eps <? sc)%Z && (s <=? sc)%Z && takes_part eps d p a v) ds v.
Proof. exact end_pd_count. Qed.
Print Assumptions C27_counted_once_partial.
Theorem C27_multi_label_refuted :
  exists eps unit ds e v vi t s, det_input unit ds /\ det_evaluator eps unit ds e /\ few_det_labels ds /\ label_no e v vi /\ (0 < t)%Z /\
    Forall distinct_pd_labels ds /\
    rep_tp eps e (fun _ => true) t s (Z.of_nat vi) + rep_fp eps e (fun _ => true) t s (Z.of_nat vi)
    <> pds_with (fun _ => true) (fun sc => (eps <? sc)%Z && (s <=? sc)%Z) ds v.
Proof.
  exists 1%Z, one, multi, multi_mem, "dog"%string, 1, 500000000%Z, 500000000%Z.
  split; [apply multi_input|]. split; [apply multi_mem_ok|]. split; [apply multi_few|]. split; [reflexivity|]. split; [reflexivity|].
  split; [apply multi_distinct|]. vm_compute. discriminate.
Qed.
Print Assumptions C27_multi_label_refuted.
(* the table level: one row per (datum, prediction, label) ... *)
Theorem C27_one_row : forall t, NoDup (map pd_key (rank_pairs (table_sort_by det_sorting t))).
Proof. intros t. apply rank_pairs_NoDup_keys. Qed.
Print Assumptions C27_one_row.
(* ... taken from the table, and if any row of the prediction with this label and
   score matches a ground truth of the label, the kept row does so with the largest IoU *)
Theorem C27_best_row : forall t r, labels_small t -> In r (rank_pairs (table_sort_by det_sorting t)) ->
  In r t /\ forall r', In r' t -> pd_key r' = pd_key r -> d_score r' = d_score r -> d_gl r' = d_pl r' ->
    d_gl r = d_pl r /\ (d_iou r' <= d_iou r)%Z.
Proof. exact best_row. Qed.
Print Assumptions C27_best_row.
(* ... and every prediction with a matching row is kept under its label *)
Theorem C27_kept : forall t r, labels_small t -> In r t -> (0 <= d_pd r)%Z -> d_gl r = d_pl r ->
  exists r0, In r0 (rank_pairs (table_sort_by det_sorting t)) /\ pd_key r0 = pd_key r.
Proof. exact kept_row. Qed.
Print Assumptions C27_kept.
Example C27_example :
  map (fun r => (d_pd r, d_gt r, d_iou r)) (List.concat (de_ranked ddemo_mem))
  = [(0, 0, 800000000); (2, -1, 0); (1, 0, 600000000); (3, -1, 0)]%Z
  /\ labels_small (List.concat (de_detailed ddemo_mem)).
Proof. split; [reflexivity|]. intros r Hr. cbn in Hr. intuition subst; cbn; lia. Qed.

(* ---------------------------------------------------------------- C28 *)
(* the true positives of a label are the ground truths of the label that some
   prediction detects: same label, sufficient score, sufficient overlap, and this
   ground truth is the one of the label it overlaps most; each counts once *)
Theorem C28_true_positives :
  forall eps unit ds, det_input unit ds -> forall sel datums, det_selects ds datums sel ->
  forall e, (0 <= unit)%Z -> det_evaluator eps unit ds e -> few_det_labels ds ->
  forall v vi, label_no e v vi -> forall t s, (0 < t)%Z -> (0 <= eps)%Z -> Forall distinct_pd_labels ds -> Forall (no_ties eps) ds ->
    rep_tp eps e datums t s (Z.of_nat vi) = gts_where sel (fun d g => detected eps t s d v g) ds v.
Proof. exact end_tp_spec. Qed.
Print Assumptions C28_true_positives.
(* never more true positives than ground truths, ties or not *)
Theorem C28_bounded :
  forall eps unit ds, det_input unit ds -> forall sel datums, det_selects ds datums sel ->
  forall e, (0 <= unit)%Z -> det_evaluator eps unit ds e -> few_det_labels ds ->
  forall v vi, label_no e v vi -> forall t s, (0 < t)%Z -> rep_tp eps e datums t s (Z.of_nat vi) <= gts_with sel ds v.
Proof. exact end_tp_le. Qed.
Print Assumptions C28_bounded.
(* an IoU threshold of 0 must be excluded: nothing is a true positive there *)
Theorem C28_zero_threshold_refuted :
  exists eps unit ds e v vi s, det_input unit ds /\ det_evaluator eps unit ds e /\ few_det_labels ds /\ label_no e v vi /\ (0 <= eps)%Z /\
    Forall distinct_pd_labels ds /\ Forall (no_ties eps) ds /\
    rep_tp eps e (fun _ => true) 0 s (Z.of_nat vi) = 0 /\
    gts_where (fun _ => true) (fun d g => detected eps 0 s d v g) ds v = 1.
Proof.
  exists 1%Z, one, ddemo, ddemo_mem, "cat"%string, 0, 500000000%Z.
  split; [apply ddemo_input|]. split; [apply ddemo_mem_ok|]. split; [apply ddemo_few|]. split; [reflexivity|]. split; [discriminate|].
  split; [apply ddemo_distinct|]. split; [apply ddemo_no_ties|]. split; vm_compute; reflexivity.
Qed.
Print Assumptions C28_zero_threshold_refuted.
Example C28_example :
  rep_tp 1 ddemo_mem (fun _ => true) 500000000 500000000 0 = 1 /\ rep_fp 1 ddemo_mem (fun _ => true) 500000000 500000000 0 = 1 /\
  gts_where (fun _ => true) (fun d g => detected 1 500000000 500000000 d "cat" g) ddemo "cat" = 1 /\
  det_input one ddemo /\ det_evaluator 1 one ddemo ddemo_mem /\ few_det_labels ddemo /\ label_no ddemo_mem "cat" 0 /\
  Forall distinct_pd_labels ddemo /\ Forall (no_ties 1) ddemo /\ det_selects ddemo first_rows first_image.
Proof.
  split; [vm_compute; reflexivity|]. split; [vm_compute; reflexivity|]. split; [vm_compute; reflexivity|]. split; [apply ddemo_input|].
  split; [apply ddemo_mem_ok|]. split; [apply ddemo_few|]. split; [apply cat_no|]. split; [apply ddemo_distinct|].
  split; [apply ddemo_no_ties|apply first_selects].
Qed.

(* ---------------------------------------------------------------- C29 *)
Theorem C29_groundtruths :
  forall eps unit ds, det_input unit ds -> forall sel datums, det_selects ds datums sel ->
  forall e, det_evaluator eps unit ds e -> forall v vi, label_no e v vi ->
    rep_gts e datums (Z.of_nat vi) = gts_with sel ds v.
Proof. exact end_gts. Qed.
Print Assumptions C29_groundtruths.
(* TP + FN = number of ground truths, FN >= 0 *)
Theorem C29_tp_fn :
  forall eps unit ds, det_input unit ds -> forall sel datums, det_selects ds datums sel ->
  forall e, (0 <= unit)%Z -> det_evaluator eps unit ds e -> few_det_labels ds ->
  forall v vi, label_no e v vi -> forall t s, (0 < t)%Z -> few_annotations ds ->
    (Z.of_nat (rep_tp eps e datums t s (Z.of_nat vi)) + rep_fn eps e datums t s (Z.of_nat vi) = Z.of_nat (gts_with sel ds v)
     /\ 0 <= rep_fn eps e datums t s (Z.of_nat vi))%Z.
Proof.
  intros eps unit ds Hin sel datums Hsel e Hu He Hf v vi Hv t s Ht Ha.
  assert (X := end_fn eps unit ds Hin sel datums Hsel e Hu He Hf v vi Hv t s Ht Ha).
  assert (Y := end_tp_le eps unit ds Hin sel datums Hsel e Hu He Hf v vi Hv t s Ht). rewrite X. lia.
Qed.
Print Assumptions C29_tp_fn.
(* TP + FP = number of predictions of the label with a sufficient score, for
   single-label predictions (C27_counted_once_partial in general) *)
Theorem C29_tp_fp :
  forall eps unit ds, det_input unit ds -> forall sel datums, det_selects ds datums sel ->
  forall e, (0 <= unit)%Z -> det_evaluator eps unit ds e -> few_det_labels ds ->
  forall v vi, label_no e v vi -> forall t s, (0 < t)%Z -> Forall single_pd_labels ds ->
    rep_tp eps e datums t s (Z.of_nat vi) + rep_fp eps e datums t s (Z.of_nat vi)
    = pds_with sel (fun sc => (eps <? sc)%Z && (s <=? sc)%Z) ds v.
Proof. exact end_pd_count_single. Qed.
Print Assumptions C29_tp_fp.
Example C29_example :
  rep_gts ddemo_mem (fun _ => true) 0 = 2 /\ rep_fn 1 ddemo_mem (fun _ => true) 500000000 500000000 0 = 1%Z /\
  rep_gts ddemo_mem first_rows 0 = 1 /\ Forall single_pd_labels ddemo /\ few_annotations ddemo.
Proof. split; [reflexivity|]. split; [reflexivity|]. split; [reflexivity|]. split; [apply ddemo_single|apply ddemo_ann]. Qed.

(* ---------------------------------------------------------------- C30 *)
Theorem C30_true_positives :
  forall eps unit ds, det_input unit ds -> forall sel datums, det_selects ds datums sel ->
  forall e, (0 <= unit)%Z -> det_evaluator eps unit ds e -> few_det_labels ds ->
  forall vi t t' s s', (0 < t)%Z -> (t <= t')%Z -> (s <= s')%Z ->
    rep_tp eps e datums t' s' (Z.of_nat vi) <= rep_tp eps e datums t s (Z.of_nat vi).
Proof. exact end_tp_mono. Qed.
Print Assumptions C30_true_positives.
Theorem C30_predictions :
  forall eps unit ds, det_input unit ds -> forall sel datums, det_selects ds datums sel ->
  forall e, (0 <= unit)%Z -> det_evaluator eps unit ds e -> few_det_labels ds ->
  forall vi t t' s s', (0 < t)%Z -> (0 < t')%Z -> (s <= s')%Z ->
    rep_tp eps e datums t' s' (Z.of_nat vi) + rep_fp eps e datums t' s' (Z.of_nat vi)
    <= rep_tp eps e datums t s (Z.of_nat vi) + rep_fp eps e datums t s (Z.of_nat vi).
Proof. exact end_total_mono. Qed.
Print Assumptions C30_predictions.
Example C30_example :
  rep_tp 1 ddemo_mem (fun _ => true) 900000000 500000000 0 = 0 /\ rep_tp 1 ddemo_mem (fun _ => true) 500000000 500000000 0 = 1.
Proof. split; vm_compute; reflexivity. Qed.

(* ---------------------------------------------------------------- C31 *)
(* any two evaluators of the same data report the same: counts, ... *)
Theorem C31_counts :
  forall eps unit ds, det_input unit ds -> forall sel datums, det_selects ds datums sel -> (0 <= unit)%Z -> few_det_labels ds ->
  forall e1 e2, det_evaluator eps unit ds e1 -> det_evaluator eps unit ds e2 ->
  forall t s l, (0 < t)%Z -> rep_counts eps e1 datums t s l = rep_counts eps e2 datums t s l.
Proof. exact same_counts. Qed.
Print Assumptions C31_counts.
Theorem C31_false_negatives :
  forall eps unit ds, det_input unit ds -> forall sel datums, det_selects ds datums sel -> (0 <= unit)%Z -> few_det_labels ds ->
  forall e1 e2, det_evaluator eps unit ds e1 -> det_evaluator eps unit ds e2 ->
  forall v vi t s, label_no e1 v vi -> (0 < t)%Z -> rep_fn eps e1 datums t s (Z.of_nat vi) = rep_fn eps e2 datums t s (Z.of_nat vi).
Proof. exact same_fn. Qed.
Print Assumptions C31_false_negatives.
(* ... precision-recall curve, AP, mAP and label numbers *)
Theorem C31_pr_curve :
  forall eps unit ds, det_input unit ds -> forall sel datums, det_selects ds datums sel -> (0 <= unit)%Z -> few_det_labels ds ->
  forall e1 e2, det_evaluator eps unit ds e1 -> det_evaluator eps unit ds e2 ->
  forall v vi t, label_no e1 v vi ->
    rep_pr_curve eps e1 datums t (Z.of_nat vi) = rep_pr_curve eps e2 datums t (Z.of_nat vi)
    /\ rep_ap eps e1 datums t (Z.of_nat vi) = rep_ap eps e2 datums t (Z.of_nat vi).
Proof.
  intros eps unit ds Hin sel datums Hsel Hu Hf e1 e2 H1 H2 v vi t Hv. split.
  - exact (same_pr_curve eps unit ds Hin sel datums Hsel Hu Hf e1 e2 H1 H2 v vi t Hv).
  - exact (same_ap eps unit ds Hin sel datums Hsel Hu Hf e1 e2 H1 H2 v vi t Hv).
Qed.
Print Assumptions C31_pr_curve.
Theorem C31_mean_ap :
  forall eps unit ds, det_input unit ds -> forall sel datums, det_selects ds datums sel -> (0 <= unit)%Z -> few_det_labels ds ->
  forall e1 e2, det_evaluator eps unit ds e1 -> det_evaluator eps unit ds e2 ->
  forall t, rep_map eps e1 datums t = rep_map eps e2 datums t.
Proof. exact same_map. Qed.
Print Assumptions C31_mean_ap.
Theorem C31_label_numbers :
  forall eps unit ds, det_input unit ds -> forall e1 e2 v vi, det_evaluator eps unit ds e1 -> det_evaluator eps unit ds e2 ->
    label_no e1 v vi <-> label_no e2 v vi.
Proof. exact end_same_labels. Qed.
Print Assumptions C31_label_numbers.
Example C31_example :
  det_evaluator 1 one ddemo ddemo_mem /\ det_evaluator 1 one ddemo ddemo_file
  /\ List.length (de_ranked ddemo_mem) = 1 /\ List.length (de_ranked ddemo_file) = 2.
Proof. split; [apply ddemo_mem_ok|]. split; [apply ddemo_file_ok|]. split; reflexivity. Qed.

(* ---------------------------------------------------------------- C32 *)
(* AP and the precision-recall curve are the 101-point interpolation of the ranking
   of the predictions of the label, the same ranking for all IoU thresholds *)
Theorem C32_average_precision :
  forall eps unit ds, det_input unit ds -> forall sel datums, det_selects ds datums sel ->
  forall e, (0 <= unit)%Z -> det_evaluator eps unit ds e -> few_det_labels ds ->
  forall v vi, label_no e v vi -> Forall distinct_pd_labels ds -> Forall (no_ties eps) ds ->
    exists P, ap_ranking eps sel ds v P /\
      forall t, (0 < t)%Z -> exists hits, ap_hits eps t ds v P hits /\
        (rep_ap eps e datums t (Z.of_nat vi) == ap_spec (gts_with sel ds v) hits)%Q /\
        List.length (rep_pr_curve eps e datums t (Z.of_nat vi)) = 101 /\
        forall k q, nth_error (rep_pr_curve eps e datums t (Z.of_nat vi)) k = Some q -> (q == interpolated (gts_with sel ds v) hits k)%Q.
Proof. exact end_pr_curve. Qed.
Print Assumptions C32_average_precision.
(* the specification: 1 when the ranking is perfect *)
Theorem C32_perfect : forall G, 0 < G -> (ap_spec G (repeat true G) == 1)%Q.
Proof. exact ap_spec_perfect. Qed.
Print Assumptions C32_perfect.
Theorem C32_range :
  forall eps unit ds, det_input unit ds -> forall sel datums, det_selects ds datums sel ->
  forall e, (0 <= unit)%Z -> det_evaluator eps unit ds e -> few_det_labels ds ->
  forall v vi, label_no e v vi -> forall t, (0 < t)%Z -> (0 <= rep_ap eps e datums t (Z.of_nat vi) <= 1)%Q.
Proof. exact end_ap_range. Qed.
Print Assumptions C32_range.
Example C32_example :
  (rep_ap 1 ddemo_mem (fun _ => true) 500000000 0 == 51 # 101)%Q
  /\ (ap_spec 2 [true; false; false] == 51 # 101)%Q
  /\ ap_hits 1 500000000 ddemo "cat" [(0, 0, 900000000%Z); (0, 1, 700000000%Z); (2, 0, 300000000%Z)] [true; false; false].
Proof.
  split; [vm_compute; reflexivity|]. split; [vm_compute; reflexivity|]. split; [reflexivity|].
  intros P1 x P2 E.
  destruct P1 as [|y1 [|y2 [|y3 P1]]]; cbn in E.
  - injection E as <- <-. split; [|reflexivity]. intros _. split; [reflexivity|]. exists 0, 0. split; [|intros y []].
    split; [reflexivity|]. eexists. exists (gt "a" "cat"). split; [reflexivity|]. split; [reflexivity|]. split; [reflexivity|].
    split; [discriminate|]. split; [discriminate|reflexivity].
  - injection E as <- <- <-. split; [discriminate|]. intros (_ & i & g & (Ei & d & ga & Hd & Hg & Hl & H1 & H2 & H3) & H). exfalso.
    cbn in Ei. subst i. cbn in Hd. injection Hd as <-. destruct g as [|[|g]]; [| |destruct g; discriminate].
    + apply (H (0, 0, 900000000%Z) (or_introl eq_refl)). split; [reflexivity|].
      eexists. exists (gt "a" "cat"). split; [reflexivity|]. split; [reflexivity|]. split; [reflexivity|].
      split; [discriminate|]. split; [discriminate|reflexivity].
    + cbn in H2. vm_compute in H2. apply H2. reflexivity.
  - injection E as <- <- <- <-. split; [discriminate|]. intros (_ & i & g & (Ei & d & ga & Hd & Hg & _) & _). exfalso.
    cbn in Ei. subst i. cbn in Hd. injection Hd as <-. destruct g; discriminate.
  - destruct P1; discriminate.
Qed.

(* ---------------------------------------------------------------- C33 *)
(* the confusion matrix and the examples use, per image, one one-to-one matching of
   predictions with ground truths, obtained by taking overlapping pairs best first and
   determined by the image alone (the same in every data set, order and back end);
   the cells at all thresholds are the matched pairs that reach them *)
Theorem C33_matching : forall eps, exists M : detection -> nat -> nat -> bool,
  forall unit ds, det_input unit ds -> forall sel datums, det_selects ds datums sel ->
  forall e, det_evaluator eps unit ds e -> few_det_labels ds -> few_annotations ds -> Forall distinct_pd_labels ds ->
  (forall d, In d ds -> sel d = true -> best_first eps d (M d)) /\
  (forall t s gl gi pl pi, label_no e gl gi -> label_no e pl pi ->
    dm (rep_matrix eps e datums t s) (Z.of_nat gi) (Z.of_nat pi)
    = list_sum_nat (map (fun d => if sel d then count_pairs gl pl d (fun g p sc => M d p g && reaches eps t s d p g sc) else 0) ds)) /\
  (forall t s gl gi, label_no e gl gi ->
    dm_gt (rep_matrix eps e datums t s) (Z.of_nat gi)
    = list_sum_nat (map (fun d => if sel d then count_gts gl d (fun g => negb (gt_covered eps t s d (M d) g)) else 0) ds)) /\
  (forall t s pl pi, label_no e pl pi ->
    dm_pd (rep_matrix eps e datums t s) (Z.of_nat pi)
    = list_sum_nat (map (fun d => if sel d then count_pds pl d (fun p sc => (eps <? sc)%Z && (s <=? sc)%Z && negb (pd_covered eps t s d (M d) p)) else 0) ds)) /\
  (forall t s ious scores ex u, In (u, t, s, ex) (det_eval_examples eps ious scores (map (filter datums) (de_detailed e))) ->
    exists d, In d ds /\ sel d = true /\ u = Some (t_uid d) /\ In t ious /\ In s scores /\ det_example_ok eps t s d (M d) ex) /\
  (forall t s ious scores d, In d ds -> sel d = true -> has_rows d -> In t ious -> In s scores ->
    exists ex, In (Some (t_uid d), t, s, ex) (det_eval_examples eps ious scores (map (filter datums) (de_detailed e))) /\
      det_example_ok eps t s d (M d) ex).
Proof. exact (fun eps => ex_intro _ (image_matching eps) (image_end_matching eps)). Qed.
Print Assumptions C33_matching.
(* the matching is determined by the image when no two competing pairs tie *)
Theorem C33_unique : forall eps d, no_pair_ties eps d -> forall M M', best_first eps d M -> best_first eps d M' ->
  forall p g, M p g = M' p g.
Proof. exact best_first_unique. Qed.
Print Assumptions C33_unique.
Example C33_example :
  best_first 1 (nth 0 ddemo (MkDet "" [] [] (fun _ _ => 0%Z))) (fun p g => (Nat.eqb p 0 && Nat.eqb g 0) || (Nat.eqb p 1 && Nat.eqb g 1)).
Proof.
  constructor.
  - intros p g H. destruct p as [|[|p]], g as [|[|g]]; try discriminate; eexists; (split; [reflexivity|]); (split; [discriminate|]);
    (split; [cbn; lia|discriminate]).
  - intros p g g' H H'. destruct p as [|[|p]], g as [|[|g]], g' as [|[|g']]; try discriminate; reflexivity.
  - intros p p' g H H'. destruct p as [|[|p]], p' as [|[|p']], g as [|[|g]]; try discriminate; reflexivity.
  - intros p pa g Hp _ Hg Hi. cbn in Hg.
    destruct p as [|[|[|p]]]; [| | |destruct p; discriminate]; (destruct g as [|[|g]]; [| |lia]); try (left; reflexivity);
    vm_compute in Hi; try (exfalso; apply Hi; reflexivity).
    right. exists 0, (pd "x" "cat" 900000000), 0. split; [reflexivity|]. split; [reflexivity|]. split; [right; reflexivity|].
    left. cbn in Hp. injection Hp as <-. reflexivity.
Qed.

(* ---------------------------------------------------------------- C34 *)
(* the packed membership test is exact when the tested set holds ids of existing
   annotations below 2^31 ([isin] is only called that way, see C33_matching) *)
Theorem C34_membership_partial : forall subset p,
  (forall c d, In (c, d) subset -> id_ok c /\ id_ok d) -> id_or_absent (fst p) -> id_or_absent (snd p) ->
  isin subset p = true <-> In p subset.
Proof. exact isin_spec. Qed.
Print Assumptions C34_membership_partial.
(* the full claim would allow absent ids in the set *)
Theorem C34_absent_ids_refuted : exists subset p,
  (forall c d, In (c, d) subset -> id_or_absent c /\ id_or_absent d) /\ id_or_absent (fst p) /\ id_or_absent (snd p) /\
  isin subset p = true /\ ~ In p subset.
Proof.
  exists [(0, -1)%Z], (5, -1)%Z. split.
  - intros c d [E|[]]. injection E as <- <-. split; split; discriminate || reflexivity.
  - split; [split; discriminate || reflexivity|]. split; [split; discriminate || reflexivity|]. split; [vm_compute; reflexivity|].
    intros [E|[]]. discriminate.
Qed.
Print Assumptions C34_absent_ids_refuted.
Example C34_example : isin [(0, 1); (3, 2)]%Z (3, 2)%Z = true /\ isin [(0, 1); (3, 2)]%Z (0, -1)%Z = false /\ id_ok 3 /\ id_or_absent (-1).
Proof. split; [vm_compute; reflexivity|]. split; [vm_compute; reflexivity|]. split; split; discriminate || reflexivity. Qed.

(* ---------------------------------------------------------------- C35 *)
(* column: every prediction of the label with a sufficient score is in one cell or
   among the unmatched predictions *)
Theorem C35_column :
  forall eps unit ds, det_input unit ds -> forall sel datums, det_selects ds datums sel ->
  forall e, det_evaluator eps unit ds e -> forall v vi, label_no e v vi -> few_annotations ds -> Forall distinct_pd_labels ds ->
  forall t s,
    list_sum_nat (map (fun g => dm (rep_matrix eps e datums t s) g (Z.of_nat vi)) (label_axis e)) + dm_pd (rep_matrix eps e datums t s) (Z.of_nat vi)
    = pds_with sel (fun sc => (eps <? sc)%Z && (s <=? sc)%Z) ds v.
Proof. exact end_column. Qed.
Print Assumptions C35_column.
(* row: the same for ground truths, if every prediction has one label.  Missing for
   the full claim: predictions with several labels, for which it is refuted. *)
Theorem C35_row_partial :
  forall eps unit ds, det_input unit ds -> forall sel datums, det_selects ds datums sel ->
  forall e, det_evaluator eps unit ds e -> forall v vi, label_no e v vi -> few_annotations ds -> Forall distinct_pd_labels ds ->
  forall t s, Forall single_pd_labels ds ->
    list_sum_nat (map (fun p => dm (rep_matrix eps e datums t s) (Z.of_nat vi) p) (label_axis e)) + dm_gt (rep_matrix eps e datums t s) (Z.of_nat vi)
    = gts_with sel ds v.
Proof. exact end_row. Qed.
Print Assumptions C35_row_partial.
Theorem C35_row_refuted :
  exists eps unit ds e v vi t s, det_input unit ds /\ det_evaluator eps unit ds e /\ label_no e v vi /\ few_annotations ds /\
    Forall distinct_pd_labels ds /\
    list_sum_nat (map (fun p => dm (rep_matrix eps e (fun _ => true) t s) (Z.of_nat vi) p) (label_axis e))
      + dm_gt (rep_matrix eps e (fun _ => true) t s) (Z.of_nat vi)
    <> gts_with (fun _ => true) ds v.
Proof.
  exists 1%Z, one, multi, multi_mem, "cat"%string, 0, 500000000%Z, 500000000%Z.
  split; [apply multi_input|]. split; [apply multi_mem_ok|]. split; [reflexivity|]. split; [apply multi_ann|]. split; [apply multi_distinct|].
  vm_compute. discriminate.
Qed.
Print Assumptions C35_row_refuted.
(* the diagonal of the matrix need not be the number of true positives of the
   precision-recall report: the matching is done before the thresholds are applied *)
Theorem C35_diagonal_refuted :
  exists eps unit ds e v vi t s, det_input unit ds /\ det_evaluator eps unit ds e /\ label_no e v vi /\ few_det_labels ds /\ (0 < t)%Z /\
    rep_tp eps e (fun _ => true) t s (Z.of_nat vi) = 1 /\
    dm (rep_matrix eps e (fun _ => true) t s) (Z.of_nat vi) (Z.of_nat vi) = 0.
Proof.
  exists 1%Z, one, steal, steal_mem, "cat"%string, 0, 500000000%Z, 500000000%Z.
  split; [apply steal_input|]. split; [apply steal_mem_ok|]. split; [reflexivity|]. split; [apply steal_few|]. split; [reflexivity|].
  split; vm_compute; reflexivity.
Qed.
Print Assumptions C35_diagonal_refuted.
Example C35_example :
  let m := rep_matrix 1 ddemo_mem (fun _ => true) 500000000 500000000 in
  (dm m 0 0, dm m 0 1, dm m 1 0, dm m 1 1, dm_gt m 0, dm_gt m 1, dm_pd m 0, dm_pd m 1)%Z = (1, 0, 0, 0, 1, 1, 1, 1).
Proof. vm_compute. reflexivity. Qed.

(* ---------------------------------------------------------------- C36 *)
(* data with at least one annotation can be evaluated, in memory and in files *)
Theorem C36_evaluator_exists :
  forall eps unit ds, det_input unit ds -> Exists has_rows ds -> forall calls, List.concat calls = ds ->
    (forall bs rb, exists e, mem_evaluates eps unit bs rb calls e) /\
    (forall bs rpf rb, batching_ok rb -> exists e, file_evaluates eps unit bs rpf rb calls e).
Proof.
  intros eps unit ds Hin Hex calls Ec. split; intros.
  - apply (mem_exists eps unit ds Hin Hex). exact Ec.
  - apply (file_exists eps unit ds Hin Hex); assumption.
Qed.
Print Assumptions C36_evaluator_exists.
(* the rows of an evaluator are exactly those that describe the data, and its labels
   are exactly the labels of the data *)
Theorem C36_rows :
  forall eps unit ds e, det_input unit ds -> det_evaluator eps unit ds e ->
  exists L, NoDup L /\ (forall v, In v L <-> In v (det_labels ds)) /\ (forall v vi, label_no e v vi <-> nth_error L vi = Some v) /\
    forall r, In r (List.concat (de_detailed e)) <-> described eps ds L r.
Proof. exact end_rows. Qed.
Print Assumptions C36_rows.
(* every ground truth and every label of every prediction is in some such row *)
Theorem C36_nothing_lost :
  forall eps unit ds e, det_input unit ds -> det_evaluator eps unit ds e ->
    (forall i d g ga, nth_error ds i = Some d -> nth_error (t_gts d) g = Some ga ->
       exists r, In r (List.concat (de_detailed e)) /\ d_uid r = t_uid d /\ d_gt_uid r = Some (a_uid ga) /\ In (d_gt_label r) (map Some (a_labels ga))) /\
    (forall i d p pa k pl s, nth_error ds i = Some d -> nth_error (t_pds d) p = Some pa ->
       nth_error (a_labels pa) k = Some pl -> nth_error (a_scores pa) k = Some s ->
       exists r, In r (List.concat (de_detailed e)) /\ d_uid r = t_uid d /\ d_pd_uid r = Some (a_uid pa) /\ d_pd_label r = Some pl /\ d_score r = s) /\
    (forall i d g ga p pa k pl s, nth_error ds i = Some d -> nth_error (t_gts d) g = Some ga -> nth_error (t_pds d) p = Some pa ->
       nth_error (a_labels pa) k = Some pl -> nth_error (a_scores pa) k = Some s -> (eps <= t_iou d p g)%Z ->
       exists r, In r (List.concat (de_detailed e)) /\ d_uid r = t_uid d /\ d_gt_uid r = Some (a_uid ga) /\ d_pd_uid r = Some (a_uid pa) /\
         d_pd_label r = Some pl /\ d_score r = s /\ d_iou r = t_iou d p g).
Proof. exact nothing_lost. Qed.
Print Assumptions C36_nothing_lost.
(* the inputs must be restricted to ground truths with one label: the constructor
   also accepts a ground truth with several scored labels, and then all but the first
   are lost when nothing overlaps it *)
Theorem C36_multi_label_groundtruth_refuted :
  exists ds e, Forall (fun d => det_ok d = true) ds /\ det_evaluator 1 one ds e /\
    (exists d ga, In d ds /\ In ga (t_gts d) /\ In "dog"%string (a_labels ga)) /\
    forall r, In r (List.concat (de_detailed e)) -> d_gt_label r <> Some "dog"%string.
Proof.
  set (ds := [ MkDet "img0" [MkAnn "a" ["cat"; "dog"]%string [1; 1]%Z] [] (iou_of []) ]%string).
  exists ds, (get_eval (mem_eval 1 one 4 singles [ds])).
  split; [repeat constructor|]. split; [apply (mem_eval_ok 1 one 4 singles [ds]); vm_compute; reflexivity|]. split.
  - eexists. eexists. split; [left; reflexivity|]. split; [left; reflexivity|]. right. left. reflexivity.
  - intros r Hr. vm_compute in Hr. destruct Hr as [<-|[]]. discriminate.
Qed.
Print Assumptions C36_multi_label_groundtruth_refuted.
Example C36_example :
  det_input one ddemo /\ Exists has_rows ddemo /\
  map (fun r => (d_gt_uid r, d_pd_uid r, d_iou r)) (List.concat (de_detailed ddemo_mem))
  = [(Some "a", Some "x", 800000000); (None, Some "z", 0); (None, Some "z", 0); (Some "a", Some "y", 600000000);
     (Some "b", Some "y", 300000000); (None, Some "w", 0); (Some "c", None, 0)]%string%Z.
Proof. split; [apply ddemo_input|]. split; [apply ddemo_rows|]. reflexivity. Qed.

(* ---------------------------------------------------------------- C47 *)
(* one example per counted item in every cell of the detection confusion matrix *)
Theorem C47_detection_examples_match_counts : forall eps t s datums tables g p,
  List.length (det_eval_cell eps t s datums tables g p) = dm (eval_confusion eps t s datums tables) g p /\
  List.length (det_eval_alone_gts eps t s datums tables g) = dm_gt (eval_confusion eps t s datums tables) g /\
  List.length (det_eval_alone_pds eps t s datums tables p) = dm_pd (eval_confusion eps t s datums tables) p.
Proof. exact det_examples_count. Qed.
Print Assumptions C47_detection_examples_match_counts.
(* a prediction with two labels can be listed both as true and as false positive of
   one image (C33_matching says exactly what the lists contain) *)
Theorem C47_disjoint_lists_refuted : exists ds e u t s ex g p, det_input one ds /\ det_evaluator 1 one ds e /\
  In (u, t, s, ex) (det_eval_examples 1 [t] [s] (de_detailed e)) /\ In (g, p) (dx_tp ex) /\ In p (dx_fp ex).
Proof.
  exists multi, multi_mem, (Some "img0"%string), 500000000%Z, 500000000%Z. do 3 eexists. split; [apply multi_input|]. split; [apply multi_mem_ok|]. split; [|split].
  - vm_compute. left. reflexivity.
  - cbn. left. reflexivity.
  - cbn. left. reflexivity.
Qed.
Print Assumptions C47_disjoint_lists_refuted.
Example C47_detection_example :
  det_eval_cell 1 500000000 500000000 (fun _ => true) (de_detailed ddemo_mem) 0 0 = [(Some "img0", Some (Some "a"), Some (Some "x"))]%string.
Proof. vm_compute. reflexivity. Qed.

(* ---------------------------------------------------------------- C49 *)
Theorem C49_ranked_rows :
  forall eps unit ds, det_input unit ds -> forall e1 e2, det_evaluator eps unit ds e1 -> det_evaluator eps unit ds e2 ->
    List.concat (de_ranked e1) = List.concat (de_ranked e2).
Proof. exact end_same_ranking. Qed.
Print Assumptions C49_ranked_rows.
Example C49_example :
  List.concat (de_ranked ddemo_mem) = List.concat (de_ranked ddemo_file) /\ de_detailed ddemo_mem <> de_detailed ddemo_file.
Proof. split; [reflexivity|]. vm_compute. discriminate. Qed.

(* ---------------------------------------------------------------- C53 *)
(* a second finalize leaves the detailed cache and the labels, hence ground-truth
   counts, confusion matrices and examples, as they were.  The full claim, that all
   reports stay the same, is refuted: the ranked rows are written again. *)
Theorem C53_detailed_partial : forall unit bs rb b b' e b'' e',
  dmb_finalize unit bs rb b = (b', Done e) -> dmb_finalize unit bs rb b' = (b'', Done e') ->
  de_detailed e' = de_detailed e /\ de_labels e' = de_labels e.
Proof. exact mem_refinalize. Qed.
Print Assumptions C53_detailed_partial.
Theorem C53_second_finalize_refuted : exists b0 b b' e b'' e',
  dmb_adds 1 4 dmb_init [ddemo] = Some b0 /\ b0 = b /\
  dmb_finalize one 4 singles b = (b', Done e) /\ dmb_finalize one 4 singles b' = (b'', Done e') /\
  rep_fp 1 e (fun _ => true) 500000000 500000000 0 = 1 /\ rep_fp 1 e' (fun _ => true) 500000000 500000000 0 = 3 /\
  (rep_ap 1 e (fun _ => true) 500000000 0 == 51 # 101)%Q /\ (rep_ap 1 e' (fun _ => true) 500000000 0 == 76 # 101)%Q.
Proof.
  do 6 eexists. split; [vm_compute; reflexivity|]. split; [reflexivity|]. split; [vm_compute; reflexivity|]. split; [vm_compute; reflexivity|].
  split; [vm_compute; reflexivity|]. split; [vm_compute; reflexivity|]. split; vm_compute; reflexivity.
Qed.
Print Assumptions C53_second_finalize_refuted.

(* ---------------------------------------------------------------- C54 *)
Theorem C54_confusion_matrix_independent_of_storage :
  forall eps unit ds, det_input unit ds -> forall sel datums, det_selects ds datums sel ->
  forall e1 e2 t s v vi w wi, few_annotations ds -> Forall distinct_pd_labels ds ->
  det_evaluator eps unit ds e1 -> det_evaluator eps unit ds e2 -> label_no e1 v vi -> label_no e1 w wi ->
    dm (rep_matrix eps e1 datums t s) (Z.of_nat vi) (Z.of_nat wi) = dm (rep_matrix eps e2 datums t s) (Z.of_nat vi) (Z.of_nat wi) /\
    dm_gt (rep_matrix eps e1 datums t s) (Z.of_nat vi) = dm_gt (rep_matrix eps e2 datums t s) (Z.of_nat vi) /\
    dm_pd (rep_matrix eps e1 datums t s) (Z.of_nat vi) = dm_pd (rep_matrix eps e2 datums t s) (Z.of_nat vi).
Proof. exact end_same_matrix. Qed.
Print Assumptions C54_confusion_matrix_independent_of_storage.
Example C54_example :
  few_annotations ddemo /\ Forall distinct_pd_labels ddemo /\ label_no ddemo_mem "cat" 0 /\ label_no ddemo_mem "dog" 1 /\
  List.length (de_detailed ddemo_mem) = 1 /\ List.length (de_detailed ddemo_file) = 2.
Proof.
  split; [apply ddemo_ann|]. split; [apply ddemo_distinct|]. split; [apply cat_no|]. split; [apply dog_no|]. split; reflexivity.
Qed.

(* ---------------------------------------------------------------- C55 *)
(* a report has exactly one entry per label of the data, score threshold and IoU
   threshold, with the value computed for them *)
Theorem C55_report_entries :
  forall eps unit ds, det_input unit ds -> forall e, det_evaluator eps unit ds e ->
  forall V (value : Z -> Z -> Z -> V) ious scores lb s t x,
    In (lb, s, t, x) (unpacked e ious scores value) <->
    exists v vi, lb = Some v /\ label_no e v vi /\ In s scores /\ In t ious /\ x = value t s (Z.of_nat vi).
Proof. exact @unpacked_In. Qed.
Print Assumptions C55_report_entries.
Theorem C55_report_once :
  forall eps unit ds, det_input unit ds -> forall e, det_evaluator eps unit ds e ->
  forall V (value : Z -> Z -> Z -> V) ious scores, NoDup ious -> NoDup scores -> NoDup (map fst (unpacked e ious scores value)).
Proof. exact @unpacked_NoDup. Qed.
Print Assumptions C55_report_once.
Theorem C55_labels :
  forall eps unit ds, det_input unit ds -> forall e v, det_evaluator eps unit ds e -> (exists vi, label_no e v vi) <-> In v (det_labels ds).
Proof. exact det_label_exists. Qed.
Print Assumptions C55_labels.
(* the precision-recall curve has 101 values, never increases, lies in [0,1] and its
   mean is AP *)
Theorem C55_pr_curve :
  forall eps unit ds, det_input unit ds -> forall sel datums, det_selects ds datums sel ->
  forall e, (0 <= unit)%Z -> det_evaluator eps unit ds e -> few_det_labels ds ->
  forall v vi t, label_no e v vi -> (0 < t)%Z ->
    List.length (rep_pr_curve eps e datums t (Z.of_nat vi)) = 101 /\
    (forall j k p q, j <= k -> nth_error (rep_pr_curve eps e datums t (Z.of_nat vi)) j = Some p ->
       nth_error (rep_pr_curve eps e datums t (Z.of_nat vi)) k = Some q -> (q <= p)%Q) /\
    (forall k q, nth_error (rep_pr_curve eps e datums t (Z.of_nat vi)) k = Some q -> (0 <= q <= 1)%Q) /\
    (rep_ap eps e datums t (Z.of_nat vi) == qsum (rep_pr_curve eps e datums t (Z.of_nat vi)) / 101)%Q.
Proof.
  intros eps unit ds Hin sel datums Hsel e Hu He Hf v vi t Hv Ht. split; [apply pr_curve_length|].
  split; [intros; eapply pr_curve_decreasing; eassumption|]. split; [|apply pr_curve_mean].
  intros k q. apply (pr_curve_range eps unit ds Hin sel datums Hsel e Hu He Hf v vi t k q Hv Ht).
Qed.
Print Assumptions C55_pr_curve.
(* precision, recall, F1, and the averages over labels and thresholds lie in [0,1] *)
Theorem C55_ranges :
  forall eps unit ds, det_input unit ds -> forall sel datums, det_selects ds datums sel ->
  forall e, (0 <= unit)%Z -> det_evaluator eps unit ds e -> few_det_labels ds ->
  forall v vi t s, label_no e v vi -> (0 < t)%Z ->
    (0 <= rep_precision eps e datums t s (Z.of_nat vi) <= 1)%Q /\
    (0 <= rep_recall eps e datums t s (Z.of_nat vi) <= 1)%Q /\
    (0 <= rep_f1 eps e datums t s (Z.of_nat vi) <= 1)%Q.
Proof.
  intros eps unit ds Hin sel datums Hsel e Hu He Hf v vi t s Hv Ht. split; [apply precision_range|]. split.
  - apply (recall_range eps unit ds Hin sel datums Hsel e Hu He Hf v vi t s Hv Ht).
  - apply (f1_range eps unit ds Hin sel datums Hsel e Hu He Hf v vi t s Hv Ht).
Qed.
Print Assumptions C55_ranges.
Theorem C55_average_ranges :
  forall eps unit ds, det_input unit ds -> forall sel datums, det_selects ds datums sel ->
  forall e, (0 <= unit)%Z -> det_evaluator eps unit ds e -> few_det_labels ds ->
  forall ious s, Forall (fun t => 0 < t)%Z ious ->
    (forall t q, In t ious -> rep_map eps e datums t = Some q -> (0 <= q <= 1)%Q) /\
    (forall l q, In l (label_axis e) -> rep_ap_over_ious eps e datums ious l = Some q -> (0 <= q <= 1)%Q) /\
    (forall q, rep_map_over_ious eps e datums ious = Some q -> (0 <= q <= 1)%Q) /\
    (forall l q, In l (label_axis e) -> rep_ar eps e datums ious s l = Some q -> (0 <= q <= 1)%Q) /\
    (forall q, rep_mar eps e datums ious s = Some q -> (0 <= q <= 1)%Q).
Proof.
  intros eps unit ds Hin sel datums Hsel e Hu He Hf ious s Hi. split.
  { intros t q Ht. apply (map_range eps unit ds Hin sel datums Hsel e Hu He Hf). apply (proj1 (Forall_forall _ _) Hi t Ht). }
  split. { intros l q Hl. apply (ap_over_ious_range eps unit ds Hin sel datums Hsel e Hu He Hf); assumption. }
  split. { intros q. apply (map_over_ious_range eps unit ds Hin sel datums Hsel e Hu He Hf); assumption. }
  split. { intros l q Hl. apply (ar_range eps unit ds Hin sel datums Hsel e Hu He Hf); assumption. }
  intros q. apply (mar_range eps unit ds Hin sel datums Hsel e Hu He Hf); assumption.
Qed.
Print Assumptions C55_average_ranges.
Example C55_example :
  report_counts 1 ddemo_mem (fun _ => true) [500000000]%Z [500000000; 800000000]%Z
  = Some [(Some "cat", 500000000%Z, 500000000%Z, (1, 1, 1%Z)); (Some "cat", 800000000%Z, 500000000%Z, (1, 0, 1%Z));
          (Some "dog", 500000000%Z, 500000000%Z, (0, 1, 1%Z)); (Some "dog", 800000000%Z, 500000000%Z, (0, 1, 1%Z))]%string
  /\ option_map Qred (rep_map 1 ddemo_mem (fun _ => true) 500000000) = Some (51 # 202).
Proof. split; vm_compute; reflexivity. Qed.
