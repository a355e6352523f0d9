(* C140, object detection: every image evaluated n times.
   Vocabulary: RepeatSpec.v ([copies n ds ds'] lists every image of ds n times, in any
   order), DetSpec.v, DetReorderSpec.v; [det_evaluator] and [label_no] as in DetProps.v. *)
From Verif Require Import Prelude Counting CacheModel CacheSpec ClsModel FlowModel
  DetModel DetSpec DetFlowModel DetExModel DetExampleProofs DetReportModel DetEnd DetMore DetDemo DetReorderSpec DetReorderProofs RepeatSpec RepeatProofs DetRepeatProofs.
From Coq Require Import String QArith Lia.
Local Open Scope nat_scope.
Local Open Scope list_scope.

(* ---------------------------------------------------------------- C140 *)
Theorem C140_det_counts :
  forall eps unit n ds ds', copies n ds ds' -> (0 <= unit)%Z -> det_input unit ds -> det_input unit ds' ->
  few_det_labels ds -> few_det_labels ds' -> few_annotations ds -> few_annotations ds' ->
  forall sel datums datums' e e', det_selects ds datums sel -> det_selects ds' datums' sel ->
  det_evaluator eps unit ds e -> det_evaluator eps unit ds' e' ->
  forall v i i', label_no e v i -> label_no e' v i' -> forall t s, (0 < t)%Z ->
  rep_gts e' datums' (Z.of_nat i') = n * rep_gts e datums (Z.of_nat i) /\
  rep_tp eps e' datums' t s (Z.of_nat i') = n * rep_tp eps e datums t s (Z.of_nat i) /\
  rep_fp eps e' datums' t s (Z.of_nat i') = n * rep_fp eps e datums t s (Z.of_nat i) /\
  rep_fn eps e' datums' t s (Z.of_nat i') = (Z.of_nat n * rep_fn eps e datums t s (Z.of_nat i))%Z.
Proof.
  intros eps unit n ds ds' C Hu H H' F F' A A' sel datums datums' e e' S S' E E' v i i' L L' t s Ht.
  exact (conj (rep_gts_copies eps unit n ds ds' C H H' sel datums datums' e e' S S' E E' v i i' L L')
    (conj (tp_copies eps unit n ds ds' C Hu H H' F F' sel datums datums' e e' S S' E E' v i i' L L' t s Ht)
    (conj (fp_copies eps unit n ds ds' C Hu H H' F F' sel datums datums' e e' S S' E E' v i i' L L' t s Ht)
      (fn_copies eps unit n ds ds' C Hu H H' F F' sel datums datums' e e' S S' E E' v i i' L L' t s Ht A A')))).
Qed.
Print Assumptions C140_det_counts.
Theorem C140_det_ratios :
  forall eps unit n ds ds', 0 < n -> copies n ds ds' -> (0 <= unit)%Z -> det_input unit ds -> det_input unit ds' ->
  few_det_labels ds -> few_det_labels ds' ->
  forall sel datums datums' e e', det_selects ds datums sel -> det_selects ds' datums' sel ->
  det_evaluator eps unit ds e -> det_evaluator eps unit ds' e' ->
  forall v i i', label_no e v i -> label_no e' v i' ->
  (forall t s, (0 < t)%Z ->
    (rep_precision eps e' datums' t s (Z.of_nat i') == rep_precision eps e datums t s (Z.of_nat i))%Q /\
    (rep_recall eps e' datums' t s (Z.of_nat i') == rep_recall eps e datums t s (Z.of_nat i))%Q /\
    (rep_f1 eps e' datums' t s (Z.of_nat i') == rep_f1 eps e datums t s (Z.of_nat i))%Q) /\
  (forall ious s, Forall (fun t => 0 < t)%Z ious ->
    same_number (rep_ar eps e' datums' ious s (Z.of_nat i')) (rep_ar eps e datums ious s (Z.of_nat i))).
Proof.
  intros eps unit n ds ds' Hn C Hu H H' F F' sel datums datums' e e' S S' E E' v i i' L L'. split.
  - intros t s Ht.
    exact (conj (precision_copies eps unit n ds ds' Hn C Hu H H' F F' sel datums datums' e e' S S' E E' v i i' L L' t s Ht)
      (conj (recall_copies eps unit n ds ds' Hn C Hu H H' F F' sel datums datums' e e' S S' E E' v i i' L L' t s Ht)
        (f1_copies eps unit n ds ds' Hn C Hu H H' F F' sel datums datums' e e' S S' E E' v i i' L L' t s Ht))).
  - exact (ar_copies eps unit n ds ds' Hn C Hu H H' F F' sel datums datums' e e' S S' E E' v i i' L L').
Qed.
Print Assumptions C140_det_ratios.
Theorem C140_det_matrix :
  forall eps unit n ds ds', copies n ds ds' -> det_input unit ds -> det_input unit ds' ->
  few_det_labels ds -> few_det_labels ds' ->
  forall sel datums datums' e e', det_selects ds datums sel -> det_selects ds' datums' sel ->
  det_evaluator eps unit ds e -> det_evaluator eps unit ds' e' ->
  few_annotations ds -> few_annotations ds' -> Forall distinct_pd_labels ds ->
  forall t s,
  (forall gl g g' pl p p', label_no e gl g -> label_no e' gl g' -> label_no e pl p -> label_no e' pl p' ->
    dm (rep_matrix eps e' datums' t s) (Z.of_nat g') (Z.of_nat p') = n * dm (rep_matrix eps e datums t s) (Z.of_nat g) (Z.of_nat p)) /\
  (forall v i i', label_no e v i -> label_no e' v i' ->
    dm_gt (rep_matrix eps e' datums' t s) (Z.of_nat i') = n * dm_gt (rep_matrix eps e datums t s) (Z.of_nat i) /\
    dm_pd (rep_matrix eps e' datums' t s) (Z.of_nat i') = n * dm_pd (rep_matrix eps e datums t s) (Z.of_nat i)).
Proof. exact matrix_copies. Qed.
Print Assumptions C140_det_matrix.
Definition twice_mem : deval := Eval vm_compute in get_eval (mem_eval 1 one 4 singles [ddemo ++ ddemo]).
Lemma twice_ok : det_evaluator 1 one (ddemo ++ ddemo) twice_mem.
Proof. apply (mem_eval_ok 1 one 4 singles [ddemo ++ ddemo]). vm_compute. reflexivity. Qed.
Example C140_det_example :
  copies 2 ddemo (ddemo ++ ddemo) /\ det_input one ddemo /\ det_input one (ddemo ++ ddemo) /\ few_det_labels ddemo /\ few_det_labels (ddemo ++ ddemo) /\
  few_annotations ddemo /\ few_annotations (ddemo ++ ddemo) /\ Forall distinct_pd_labels ddemo /\
  det_evaluator 1 one ddemo ddemo_mem /\ det_evaluator 1 one (ddemo ++ ddemo) twice_mem /\
  label_no ddemo_mem "cat" 0 /\ label_no twice_mem "cat" 0 /\
  rep_tp 1 ddemo_mem (fun _ => true) 500000000 100000000 0 = 1 /\ rep_tp 1 twice_mem (fun _ => true) 500000000 100000000 0 = 2 /\
  rep_fp 1 ddemo_mem (fun _ => true) 500000000 100000000 0 = 2 /\ rep_fp 1 twice_mem (fun _ => true) 500000000 100000000 0 = 4.
Proof.
  split; [unfold copies; cbn [repeat List.concat]; rewrite app_nil_r; reflexivity|].
  split; [apply ddemo_input|]. split; [apply Forall_app; split; apply ddemo_input|]. split; [apply ddemo_few|]. split; [unfold few_det_labels, few; vm_compute; discriminate|].
  split; [apply ddemo_ann|]. split; [repeat split|]. split; [apply ddemo_distinct|].
  split; [apply ddemo_mem_ok|]. split; [apply twice_ok|]. vm_compute. auto 9.
Qed.
