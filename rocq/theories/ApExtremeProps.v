(* C147: what average precision 1 and 0 mean.  Vocabulary: DetSpec.v; [ap_ranking],
   [ap_hits], [det_evaluator] and [label_no] as in C32 (DetProps.v). *)
From Verif Require Import Prelude Counting CacheModel CacheSpec ClsModel FlowModel
  DetModel DetSpec DetFlowModel DetExModel DetReportModel DetEnd DetMore DetDemo DetProps ApExtremeProofs.
From Coq Require Import String QArith Lia.
Local Open Scope nat_scope.
Local Open Scope list_scope.

(* ---------------------------------------------------------------- C147 *)
Theorem C147_average_precision :
  forall eps unit ds, det_input unit ds -> forall sel datums, det_selects ds datums sel ->
  forall e, (0 <= unit)%Z -> det_evaluator eps unit ds e -> few_det_labels ds ->
  forall v vi, label_no e v vi -> Forall distinct_pd_labels ds -> Forall (no_ties eps) ds ->
    let G := gts_with sel ds v in
    exists P, ap_ranking eps sel ds v P /\
      forall t, (0 < t)%Z -> exists hits, ap_hits eps t ds v P hits /\
        (0 < G -> ((rep_ap eps e datums t (Z.of_nat vi) == 1)%Q <-> firstn G hits = repeat true G)) /\
        ((rep_ap eps e datums t (Z.of_nat vi) == 0)%Q <-> ~ In true hits).
Proof.
  intros eps unit ds Hin sel datums Hs e Hu He Hf v vi Hv Hd Hn G. destruct (C32_average_precision eps unit ds Hin sel datums Hs e Hu He Hf v vi Hv Hd Hn) as (P & HP & H).
  exists P. split; [exact HP|]. intros t Ht. destruct (H t Ht) as (hits & Hh & E & _). exists hits. split; [exact Hh|]. rewrite E. split; [apply ap_one|apply ap_zero].
Qed.
Print Assumptions C147_average_precision.
(* on the first image "cat" is ranked perfectly although a wrong prediction follows; on
   all images one "cat" is missing; on the others none is found *)
Example C147_example :
  det_input one ddemo /\ det_selects ddemo first_rows first_image /\ det_evaluator 1 one ddemo ddemo_mem /\ few_det_labels ddemo /\
  label_no ddemo_mem "cat" 0 /\ Forall distinct_pd_labels ddemo /\ Forall (no_ties 1) ddemo /\ gts_with first_image ddemo "cat" = 1 /\
  (rep_ap 1 ddemo_mem first_rows 500000000 0 == 1)%Q /\ (rep_ap 1 ddemo_mem (fun _ => true) 500000000 0 == 51 # 101)%Q /\
  (rep_ap 1 ddemo_mem (fun r => negb (first_rows r)) 500000000 0 == 0)%Q.
Proof.
  split; [apply ddemo_input|]. split; [apply first_selects|]. split; [apply ddemo_mem_ok|]. split; [apply ddemo_few|]. split; [apply cat_no|].
  split; [apply ddemo_distinct|]. split; [apply ddemo_no_ties|]. repeat split; vm_compute; reflexivity.
Qed.
