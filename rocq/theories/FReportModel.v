(* Model of the metric values as binary64 numbers: every division, product and sum that the
   evaluators perform on floats is rounded with [FloatModel.rnd].  Definitions only.
   The other models keep these values as exact rationals. *)
From Verif Require Import Prelude Counting CacheModel ClsModel RocModel FlowModel ClsFilterModel ClsReportModel
  DetModel DetFlowModel DetReportModel FloatModel.
From Verif Require SegModel.
From Coq Require Import String QArith Qminmax.
Local Notation length := List.length (only parsing).
Local Notation concat := List.concat (only parsing).
Local Open Scope nat_scope.
Local Open Scope list_scope.

(* ------------------------------------------------------------------ *)
(** * Operations *)

(* np.divide(a, b, where=b > 0, out=zeros) of two uint64 counts: both are converted to
   float64, then divided *)
Definition fdivz (a b : Z) : Q := if (0 <? b)%Z then rnd (rnd (inject_Z a) / rnd (inject_Z b)) else 0%Q.
Definition fdiv (n d : nat) : Q := fdivz (Z.of_nat n) (Z.of_nat d).
(* rounding of a number of any sign *)
Definition srnd (x : Q) : Q := if Qlt_le_dec x 0 then (- rnd (- x))%Q else rnd x.
(* the literal 1e-9 *)
Definition nano : Q := rnd (1 # 1000000000).

(* numpy adds up arrays in an order it does not promise: [nsum] stands for it and is
   arbitrary here; [FReportSpec.summation] says that it is some order *)
Section Numpy.
  Variable nsum : list Q -> Q.
  (* ndarray.mean: nan, here [None], for an empty array *)
  Definition fmean (l : list Q) : option Q :=
    match l with [] => None | _ => Some (rnd (nsum l / rnd (inject_Z (Z.of_nat (length l))))) end.
End Numpy.

(* ------------------------------------------------------------------ *)
(** * Classification *)

(* models: classification/computation.py:172-199 *)
Definition fprecision (c : counts) : Q := fdiv (n_tp c) (n_tp c + n_fp c).
Definition fcrecall (c : counts) : Q := fdiv (n_tp c) (n_tp c + n_fn c).
(* models: classification/computation.py:202-215: (2 * precision * recall) / (precision + recall) *)
Definition ff1 (p r : Q) : Q :=
  if Qlt_le_dec nano (rnd (p + r)) then rnd (rnd (rnd (2 * p) * r) / rnd (p + r)) else 0%Q.
(* models: classification/computation.py:218-233 *)
Definition faccuracy (tps : list nat) (n_datums : nat) : Q := if Nat.eqb n_datums 0 then 0%Q else fdiv (list_sum_nat tps) n_datums.

(* models: classification/evaluator.py:593-627 and utilities.py:10-68, as
   [ClsReportModel.report_metrics] *)
Definition report_fmetrics (e : ceval) (tol : Z) (hardmax : bool) (thrs : list Z) (datums : crow -> bool) : option cls_metrics :=
  match thrs with
  | [] => None
  | _ =>
      let rows := combine thrs (cls_counts tol hardmax thrs datums e) in
      let n := snd (cls_info (fun _ => true) e) in
      Some (MkMetrics
        (map (fun tr => (fst tr, faccuracy (map n_tp (snd tr)) n)) rows)
        (per_label e (fun c => c) rows)
        (per_label e fprecision rows)
        (per_label e fcrecall rows)
        (per_label e (fun c => ff1 (fprecision c) (fcrecall c)) rows))
  end.

Section FRoc.
  Variable nsum : list Q -> Q.
  (* numpy's trapezoid: (d * (y[1:] + y[:-1]) / 2.0).sum() with d = diff(x) *)
  Fixpoint fterms (pts : list (Q * Q)) : list Q :=
    match pts with
    | a :: t => match t with
                | b :: _ => srnd (srnd (srnd (fst b - fst a) * srnd (snd b + snd a)) / 2) :: fterms t
                | [] => []
                end
    | [] => []
    end.
  (* models: classification/computation.py:9-90 compute_rocauc for one label *)
  Definition frocauc_step (gtc pdc : Z) (acc : Q * (nat * nat)) (pts : list (nat * nat)) : Q * (nat * nat) :=
    let '(area, prev) := acc in
    match pts with
    | [] => acc
    | _ :: _ =>
        if (pdc =? 0)%Z then acc else
        let neg := ((pdc - gtc) mod (2 ^ 64))%Z in
        let pts' := if Nat.ltb 0 (fst prev) || Nat.ltb 0 (snd prev) then prev :: pts else pts in
        let prev' := last pts' (0, 0) in
        if Nat.eqb (length pts') 1 then (area, prev')
        else (srnd (area + nsum (fterms (map (fun p => (fdivz (Z.of_nat (fst p)) neg, fdivz (Z.of_nat (snd p)) gtc)) pts'))), prev')
    end.
  (* models: classification/evaluator.py:524-567 compute_rocauc *)
  Definition frocauc_label (gtc pdc : Z) (i : nat) (files : list (list cpoint)) : Q :=
    fst (fold_left (frocauc_step gtc pdc) (map (points_of i) files) (0%Q, (0, 0))).
  Definition cls_frocauc (e : ceval) : list Q :=
    map (fun i => frocauc_label (Z.of_nat (gt_count_label (ce_tables e) (Z.of_nat i)))
                                (Z.of_nat (pd_count_label (ce_tables e) (Z.of_nat i))) i (ce_curve e)) (seq 0 (length (ce_labels e))).
  Definition report_frocauc (e : ceval) : list (string * option Q) * option Q :=
    (map (fun kl => (snd kl, nth_error (cls_frocauc e) (Z.to_nat (fst kl)))) (ce_labels e), fmean nsum (cls_frocauc e)).
End FRoc.

(* ------------------------------------------------------------------ *)
(** * Object detection *)

(* models: object_detection/computation.py:534-567: 2 * np.multiply(p, r) / (p + r) *)
Definition fdet_f1 (p r : Q) : Q :=
  if Qlt_le_dec nano (rnd (p + r)) then rnd (rnd (2 * rnd (p * r)) / rnd (p + r)) else 0%Q.
(* models: object_detection/computation.py:476-482: the running precision *)
Definition pt_fprecision (p : drow * nat * nat) : Q := fdiv (snd p) (snd (fst p)).
(* models: object_detection/computation.py:490-528: [FloatModel.upd_fcurve] with the
   precisions of the floats *)
Definition upd_frcurve (n_gts : Z -> nat) (pts : list (drow * nat * nat)) (c : curve) : curve :=
  fun l b =>
    let mine := filter (pt_fin n_gts l b) pts in
    (fold_left (fun m p => Qmax m (pt_fprecision p)) mine (fst (c l b)),
     match mine with
     | [] => snd (c l b)
     | p :: _ => Z.max (snd (c l b)) (d_score (fst (fst p)))
     end).

Section FDet.
  Variable nsum : list Q -> Q.
  Variable eps : Z.
  Variable e : deval.
  Variable datums : drow -> bool.

  (* models: object_detection/evaluator.py:495-498 *)
  Definition frep_precision (t s l : Z) : Q := fdiv (rep_tp eps e datums t s l) (rep_tp eps e datums t s l + rep_fp eps e datums t s l).
  Definition frep_recall (t s l : Z) : Q := fdiv (rep_tp eps e datums t s l) (rep_gts e datums l).
  Definition frep_f1 (t s l : Z) : Q := fdet_f1 (frep_precision t s l) (frep_recall t s l).

  (* models: object_detection/evaluator.py:449-490 *)
  Definition eval_frstep (t : Z) (n_gts : Z -> nat) (st : curve * runs) (rows : list drow) : curve * runs :=
    let '(pts, run) := running eps t (snd st) rows in (upd_frcurve n_gts pts (fst st), run).
  Definition eval_frcurve (t : Z) (n_gts : Z -> nat) (tables : list (list drow)) : curve :=
    fst (fold_left (fun st tb => eval_frstep t n_gts st (filter datums tb)) tables (curve0, fun _ => (0, 0))).
  Definition frep_curve (t l : Z) (b : nat) : Q := fst (eval_frcurve t (rep_gts e datums) (de_ranked e) l b).
  (* models: object_detection/computation.py:587-608: average_precision += running_max *)
  Fixpoint fap_loop (c : nat -> Q) (bins : list nat) (rmax sum : Q) : Q :=
    match bins with
    | [] => sum
    | b :: t => let m := Qmax (c b) rmax in fap_loop c t m (rnd (sum + m))
    end.
  Definition frep_ap (t l : Z) : Q := rnd (fap_loop (frep_curve t l) (rev (seq 0 101)) 0 0 / 101).
  Definition frep_pr_curve (t l : Z) : list Q := rev (run_max (frep_curve t l) (rev (seq 0 101)) 0).
  (* models: object_detection/computation.py:570-574, 610-611; utilities.py:40-97 *)
  Definition frep_map (t : Z) : option Q := fmean nsum (map (frep_ap t) (label_axis e)).
  Definition frep_ap_over_ious (ious : list Z) (l : Z) : option Q := fmean nsum (map (fun t => frep_ap t l) ious).
  Definition frep_ar (ious : list Z) (s l : Z) : option Q := fmean nsum (map (fun t => frep_recall t s l) ious).
  (* a mean of means: nan as soon as one of them is *)
  Definition fmean_all (l : list (option Q)) : option Q := match SegModel.all_some l with Some l => fmean nsum l | None => None end.
  Definition frep_map_over_ious (ious : list Z) : option Q := fmean_all (map frep_map ious).
  Definition frep_mar (ious : list Z) (s : Z) : option Q := fmean_all (map (frep_ar ious s) (label_axis e)).
  Definition frep_ar_over_scores (ious scores : list Z) (l : Z) : option Q := fmean_all (map (fun s => frep_ar ious s l) scores).
  Definition frep_mar_over_scores (ious scores : list Z) : option Q := fmean_all (map (frep_mar ious) scores).
End FDet.

(* ------------------------------------------------------------------ *)
(** * Semantic segmentation *)

Section FSeg.
  Import SegModel.
  Variable nsum : list Q -> Q.
  (* models: semantic_segmentation/computation.py:62-165 compute_metrics, entry by entry *)
  Definition fm_iou (n : nat) (m : matrix) (i j : nat) : Q :=
    let inter := m (S i) (S j) in fdivz inter (u64 (mrow n m (S i) + mcol n m (S j) - inter)).
  Definition fm_unmatched_pd (n : nat) (m : matrix) (j : nat) : Q := fdivz (m 0 (S j)) (mcol n m (S j)).
  Definition fm_unmatched_gt (n : nat) (m : matrix) (i : nat) : Q := fdivz (m (S i) 0) (mrow n m (S i)).
  Definition fm_precision (n : nat) (m : matrix) (i : nat) : Q := fdivz (m (S i) (S i)) (mcol n m (S i)).
  Definition fm_recall (n : nat) (m : matrix) (i : nat) : Q := fdivz (m (S i) (S i)) (mrow n m (S i)).
  (* 2 * (precision * recall) / (precision + recall) where the sum is positive *)
  Definition fseg_f1 (p r : Q) : Q := if Qle_bool (rnd (p + r)) 0 then 0%Q else rnd (rnd (2 * rnd (p * r)) / rnd (p + r)).
  Definition fm_f1 (n : nat) (m : matrix) (i : nat) : Q := fseg_f1 (fm_precision n m i) (fm_recall n m i).
  Definition fm_accuracy (n : nat) (m : matrix) : Q :=
    let pixels := u64 (zsum (map (fun i => zsum (map (m i) (seq 0 (S n)))) (seq 0 (S n)))) in
    let tp := u64 (zsum (map (fun i => m (S i) (S i)) (seq 0 n))) in
    fdivz (u64 (tp + m 0 0)) pixels.
  Definition fm_miou (n : nat) (m : matrix) : option Q := fmean nsum (map (fun i => fm_iou n m i i) (seq 0 n)).
  (* models: semantic_segmentation/utilities.py:6-88, as [SegModel.seg_report] *)
  Definition seg_freport (d : ldict) (m : matrix) : option sreport :=
    let n := List.length d in
    match by_range d n (fun i => by_range d n (fm_iou n m i)),
          by_range d n (fm_unmatched_pd n m), by_range d n (fm_unmatched_gt n m),
          by_items d n (fm_precision n m), by_items d n (fm_recall n m), by_items d n (fm_f1 n m),
          by_items d n (fun i => fm_iou n m i i) with
    | Some cm, Some up, Some ug, Some p, Some r, Some f, Some u =>
        match all_some (map (fun x => option_map (fun row => (fst x, row)) (snd x)) cm) with
        | Some cm' => Some (MkSR (fm_accuracy n m) cm' up ug (fm_miou n m) p r f u)
        | None => None
        end
    | _, _, _, _, _, _, _ => None
    end.
  (* models: semantic_segmentation/evaluator.py:391-414 *)
  Definition seg_fcompute (e : seval) (datums : expr) : option sreport := seg_freport (se_labels e) (seg_matrix (se_tables e) datums).
End FSeg.
