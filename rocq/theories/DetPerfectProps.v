(* C142, object detection: when precision and recall are equal to one.
   Vocabulary: DetSpec.v; [det_evaluator] and [label_no] as in DetProps.v. *)
From Verif Require Import Prelude Counting CacheModel CacheSpec ClsModel FlowModel
  DetModel DetSpec DetFlowModel DetExModel DetReportModel DetEnd DetMore DetDemo DetPerfectProofs.
From Coq Require Import String QArith Lia.
Local Open Scope nat_scope.
Local Open Scope list_scope.

(* ---------------------------------------------------------------- C142 *)
Theorem C142_det_recall :
  forall eps unit ds, det_input unit ds -> forall sel datums, det_selects ds datums sel ->
  forall e, (0 <= unit)%Z -> det_evaluator eps unit ds e -> few_det_labels ds ->
  forall v i, label_no e v i -> forall t s, (0 < t)%Z -> (0 <= eps)%Z -> Forall distinct_pd_labels ds -> Forall (no_ties eps) ds ->
  ((rep_recall eps e datums t s (Z.of_nat i) == 1)%Q <->
    (exists d g a, In d ds /\ sel d = true /\ nth_error (t_gts d) g = Some a /\ has_label v a = true) /\
    (forall d g a, In d ds -> sel d = true -> nth_error (t_gts d) g = Some a -> has_label v a = true -> detected eps t s d v g = true)).
Proof. exact det_recall_one. Qed.
Print Assumptions C142_det_recall.
(* as many accepted predictions as detected ground truths *)
Theorem C142_det_precision :
  forall eps unit ds, det_input unit ds -> forall sel datums, det_selects ds datums sel ->
  forall e, (0 <= unit)%Z -> det_evaluator eps unit ds e -> few_det_labels ds ->
  forall v i, label_no e v i -> forall t s, (0 < t)%Z -> (0 <= eps)%Z -> Forall single_pd_labels ds -> Forall (no_ties eps) ds ->
  ((rep_precision eps e datums t s (Z.of_nat i) == 1)%Q <->
    0 < gts_where sel (fun d g => detected eps t s d v g) ds v /\
    gts_where sel (fun d g => detected eps t s d v g) ds v = pds_with sel (fun sc => (eps <? sc)%Z && (s <=? sc)%Z) ds v).
Proof. exact det_precision_one. Qed.
Print Assumptions C142_det_precision.
(* on the first image all of "cat" is found; a second prediction lowers precision unless
   the score threshold removes it.  On all images one "cat" is missed *)
Example C142_det_example :
  det_input one ddemo /\ det_selects ddemo first_rows first_image /\ det_evaluator 1 one ddemo ddemo_mem /\ few_det_labels ddemo /\
  label_no ddemo_mem "cat" 0 /\ Forall distinct_pd_labels ddemo /\ Forall single_pd_labels ddemo /\ Forall (no_ties 1) ddemo /\
  (rep_recall 1 ddemo_mem first_rows 500000000 100000000 0 == 1)%Q /\ (rep_recall 1 ddemo_mem (fun _ => true) 500000000 100000000 0 == 1 # 2)%Q /\
  (rep_precision 1 ddemo_mem first_rows 500000000 800000000 0 == 1)%Q /\ (rep_precision 1 ddemo_mem first_rows 500000000 100000000 0 == 1 # 2)%Q.
Proof.
  split; [apply ddemo_input|]. split; [apply first_selects|]. split; [apply ddemo_mem_ok|]. split; [apply ddemo_few|]. split; [apply cat_no|].
  split; [apply ddemo_distinct|]. split; [apply ddemo_single|]. split; [apply ddemo_no_ties|]. repeat split; vm_compute; reflexivity.
Qed.
