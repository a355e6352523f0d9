(* Model of what the object detection Evaluator reports: the metric lists assembled
   by compute_precision_recall, compute_confusion_matrix and their unpacking.
   Definitions only. *)
From Verif Require Import Prelude Counting CacheModel ClsModel FlowModel DetModel DetFlowModel.
From Coq Require Import QArith Qminmax.
From Coq Require String.
Local Open Scope nat_scope.
Local Open Scope list_scope.

Section Report.
  Variable eps : Z.
  Variable e : deval.               (* the evaluator: its two caches and its labels *)
  Variable datums : drow -> bool.   (* datum filter *)

  (* models: object_detection/evaluator.py:443-447 *)
  Definition rep_gts (l : Z) : nat := det_gt_count datums (de_detailed e) l.
  (* models: object_detection/evaluator.py:449-490 *)
  Definition rep_counts (t s l : Z) : dcounts := eval_counts eps t s datums (de_ranked e) l.
  Definition rep_tp (t s l : Z) : nat := dc_tp (rep_counts t s l).
  Definition rep_fp (t s l : Z) : nat := dc_fp (rep_counts t s l).
  (* models: object_detection/evaluator.py:493 *)
  Definition rep_fn (t s l : Z) : Z := det_fn (rep_gts l) (rep_tp t s l).
  (* models: object_detection/evaluator.py:495-498 *)
  Definition rep_precision (t s l : Z) : Q := det_precision (rep_counts t s l).
  Definition rep_recall (t s l : Z) : Q := det_recall (rep_gts l) (rep_counts t s l).
  Definition rep_f1 (t s l : Z) : Q := det_f1 (rep_gts l) (rep_counts t s l).
  (* models: object_detection/evaluator.py:499-503 *)
  Definition rep_curve (t l : Z) (b : nat) : Q := fst (eval_curve eps t rep_gts datums (de_ranked e) l b).
  Definition rep_ap (t l : Z) : Q := average_precision (rep_curve t l).

  (* models: object_detection/computation.py:587-606: pr_curve[:, :, recall, 0] after
     the descending loop, listed for the bins 0..100 *)
  Fixpoint run_max (c : nat -> Q) (bins : list nat) (rmax : Q) : list Q :=
    match bins with
    | [] => []
    | b :: t => let m := Qmax (c b) rmax in m :: run_max c t m
    end.
  Definition rep_pr_curve (t l : Z) : list Q := rev (run_max (rep_curve t l) (rev (seq 0 101)) 0).

  (* the label axis of the arrays has len(index_to_label) entries *)
  Definition label_axis : list Z := map Z.of_nat (seq 0 (List.length (de_labels e))).
  (* models: object_detection/computation.py:610-611; utilities.py:40-58 *)
  Definition rep_map (t : Z) : option Q := mean_ap (map (rep_ap t) label_axis).
  Definition rep_ap_over_ious (ious : list Z) (l : Z) : option Q := qmean (map (fun t => rep_ap t l) ious).
  Definition rep_map_over_ious (ious : list Z) : option Q :=
    qmean (List.concat (map (fun t => match rep_map t with Some q => [q] | None => [] end) ious)).
  (* models: object_detection/computation.py:570-574; utilities.py:60-97 *)
  Definition rep_ar (ious : list Z) (s l : Z) : option Q := average_recall (map (fun t => rep_recall t s l) ious).
  Definition rep_mar (ious : list Z) (s : Z) : option Q :=
    qmean (List.concat (map (fun l => match rep_ar ious s l with Some q => [q] | None => [] end) label_axis)).

  (* models: object_detection/evaluator.py:546-593 *)
  Definition rep_matrix (t s : Z) : dconf := eval_confusion eps t s datums (de_detailed e).

  (* models: object_detection/utilities.py:109-148: one entry per label, score
     threshold and IoU threshold, in this order *)
  Definition unpacked {V} (ious scores : list Z) (value : Z -> Z -> Z -> V) : list (option String.string * Z * Z * V) :=
    List.concat (map (fun kl =>
      List.concat (map (fun s => map (fun t => (snd kl, s, t, value t s (fst kl))) ious) scores)) (de_labels e)).
  (* models: object_detection/evaluator.py:436-440, 493-514: the Counts metrics;
     [None] = ValueError *)
  Definition report_counts (ious scores : list Z) : option (list (option String.string * Z * Z * (nat * nat * Z))) :=
    match ious, scores with
    | [], _ => None
    | _, [] => None
    | _, _ => Some (unpacked ious scores (fun t s l => (rep_tp t s l, rep_fp t s l, rep_fn t s l)))
    end.
End Report.
