(* Specification vocabulary for the metric lists of the object detection evaluator. *)
From Verif Require Import Prelude ClsModel FlowModel DetModel DetFlowModel DetReportModel DetScoreModel DetReorderSpec FloatModel DetUnpackModel.
From Coq Require Import QArith.
From Coq Require String.
Local Open Scope nat_scope.
Local Open Scope list_scope.

(* SPEC: [x] is the mean of the numbers [l] *)
Definition is_mean (x : option Q) (l : list (option Q)) : Prop :=
  exists qs, l = map Some qs /\ same_number x (qmean qs).
(* SPEC: one entry per pair of a threshold and a label of the map, thresholds first *)
Definition listed {V} (e : deval) (ts : list Z) (out : list (Z * option String.string * V)) (P : Z -> Z -> V -> Prop) : Prop :=
  Forall2 (fun tl x => fst (fst x) = fst tl /\ snd (fst x) = snd (snd tl) /\ P (fst tl) (fst (snd tl)) (snd x)) (list_prod ts (de_labels e)) out.
(* SPEC: one entry per label of the map *)
Definition per_label {V} (e : deval) (out : list (option String.string * V)) (P : Z -> V -> Prop) : Prop :=
  Forall2 (fun kl x => fst x = snd kl /\ P (fst kl) (snd x)) (de_labels e) out.
(* SPEC: one entry per threshold *)
Definition per_threshold {V} (ts : list Z) (out : list (Z * V)) (P : Z -> V -> Prop) : Prop :=
  Forall2 (fun t x => fst x = t /\ P t (snd x)) ts out.

(* SPEC: the lists hold, for every label of the map and every threshold, the values of the
   report functions; those that depend on the precision-recall curve are taken from the
   curve [cv] (precision per IoU threshold, label and bin) and the scores [sc] *)
Record metrics_with (eps : Z) (e : deval) (datums : drow -> bool) (cv : Z -> Z -> nat -> Q) (sc : Z -> Z -> nat -> Z)
    (ious scores : list Z) (m : dmetrics) : Prop := {
  mo_cells : um_cells m = unpacked e ious scores (fun t s l =>
    MkDCell (rep_tp eps e datums t s l) (rep_fp eps e datums t s l) (rep_fn eps e datums t s l)
            (rep_precision eps e datums t s l) (rep_recall eps e datums t s l) (rep_f1 eps e datums t s l));
  mo_ap : listed e ious (um_ap m) (fun t l x => same_number x (Some (average_precision (cv t l))));
  mo_map : per_threshold ious (um_map m) (fun t x => same_number x (mean_ap (map (fun l => average_precision (cv t l)) (label_axis e))));
  mo_ap_over : per_label e (um_ap_over m) (fun l x => same_number x (qmean (map (fun t => average_precision (cv t l)) ious)));
  mo_map_over : is_mean (um_map_over m) (map (fun t => mean_ap (map (fun l => average_precision (cv t l)) (label_axis e))) ious);
  mo_ar : listed e scores (um_ar m) (fun s l x => x = rep_ar eps e datums ious s l);
  mo_mar : per_threshold scores (um_mar m) (fun s x => x = rep_mar eps e datums ious s);
  mo_ar_over : per_label e (um_ar_over m) (fun l x => is_mean x (map (fun s => rep_ar eps e datums ious s l) scores));
  mo_mar_over : is_mean (um_mar_over m) (map (rep_mar eps e datums ious) scores);
  mo_curve : listed e ious (um_curve m) (fun t l x =>
    Forall2 Qeq (map fst x) (rev (run_max (cv t l) (rev (seq 0 101)) 0)) /\
    map snd x = rev (run_zmax (sc t l) (rev (seq 0 101)) 0%Z))
}.
(* SPEC: the same with the exact bins: [rep_ap], [rep_map], [rep_ap_over_ious],
   [rep_pr_curve] and [rep_pr_scores] *)
Definition metrics_ok (eps : Z) (e : deval) (datums : drow -> bool) : list Z -> list Z -> dmetrics -> Prop :=
  metrics_with eps e datums (rep_curve eps e datums) (rep_bin_score eps e datums).
(* SPEC: the same with the bins that binary64 numbers give: [rep_fap], [rep_fmap], [rep_fpr_curve] *)
Definition float_metrics_ok (eps : Z) (e : deval) (datums : drow -> bool) : list Z -> list Z -> dmetrics -> Prop :=
  metrics_with eps e datums (rep_fcurve eps e datums)
    (fun t l b => snd (eval_fcurve eps t (rep_gts e datums) datums (de_ranked e) l b)).
