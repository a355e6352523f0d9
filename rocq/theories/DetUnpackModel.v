(* Literal model of the rest of compute_precision_recall on arrays: the metrics of
   compute_precision_recall_f1, compute_average_precision and compute_average_recall and
   their unpacking into lists, where the keys of the label map are used as indices.
   Definitions only. *)
From Verif Require Import Prelude Counting CacheModel ClsModel FlowModel DetModel DetFlowModel DetArrayModel.
From Coq Require Import QArith Qminmax.
From Coq Require String.
Local Open Scope nat_scope.
Local Open Scope list_scope.

(* counts[iou, score, :, label] and prec_rec_f1[iou, score, :, label] *)
Record dcell : Type := MkDCell { dl_tp : nat; dl_fp : nat; dl_fn : Z; dl_precision : Q; dl_recall : Q; dl_f1 : Q }.

(* models: object_detection/evaluator.py:493; computation.py:534-567, elementwise on the
   rows of one threshold pair *)
Definition np_cell (g : nat) (c : nat * nat) : dcell :=
  let d := MkDC (fst c) (snd c) in
  MkDCell (fst c) (snd c) (det_fn g (fst c)) (det_precision d) (det_recall g d) (det_f1 g d).
Definition np_cells (G : list nat) (c : list nat * list nat) : list dcell := map2 np_cell G (combine (fst c) (snd c)).

(* models: object_detection/computation.py:587-608 for one label: the bins from the last to
   the first; the running maxima replace the entries *)
Fixpoint np_ap_loop (row : list (Q * Z)) (mq : Q) (mz : Z) (sum : Q) : Q * list (Q * Z) :=
  match row with
  | [] => (sum, [])
  | x :: t =>
      let q := Qmax (fst x) mq in
      let z := Z.max (snd x) mz in
      let r := np_ap_loop t q z (sum + q)%Q in
      (fst r, (q, z) :: snd r)
  end.
Definition np_ap (row : list (Q * Z)) : Q * list (Q * Z) :=
  let r := np_ap_loop (rev row) 0%Q 0%Z 0%Q in ((fst r / 101)%Q, rev (snd r)).

(* mean of an array whose entries may be nan (None) *)
Fixpoint numbers (l : list (option Q)) : option (list Q) :=
  match l with
  | [] => Some []
  | Some q :: t => option_map (cons q) (numbers t)
  | None :: _ => None
  end.
Definition np_mean (l : list (option Q)) : option Q :=
  match numbers l with Some qs => qmean qs | None => None end.
(* a.mean(axis=0) for rows with n entries *)
Definition np_columns_mean (n : nat) (rows : list (list (option Q))) : ares (list (option Q)) :=
  amap (fun l => abind (amap (fun row => np_get row (Z.of_nat l)) rows) (fun vs => AOk (np_mean vs))) (seq 0 n).

(* [... a[label_idx] ... for label_idx, label in index_to_label.items()] *)
Definition np_items {V} (labels : ldict) (row : list V) : ares (list (option String.string * V)) :=
  amap (fun kl => abind (np_get row (fst kl)) (fun v => AOk (snd kl, v))) labels.
(* [... for idx, threshold in enumerate(thresholds) for label_idx, label in ...] *)
Definition np_rows_items {V} (labels : ldict) (rows : list (Z * list V)) : ares (list (Z * option String.string * V)) :=
  abind (amap (fun tr => abind (np_items labels (snd tr)) (fun xs => AOk (map (fun x => (fst tr, fst x, snd x)) xs))) rows)
        (fun xs => AOk (List.concat xs)).

(* the metric lists that are returned *)
Record dmetrics : Type := MkDMet {
  um_ap : list (Z * option String.string * option Q);        (* IoU threshold, label *)
  um_map : list (Z * option Q);
  um_ap_over : list (option String.string * option Q);       (* averaged over the IoU thresholds *)
  um_map_over : option Q;
  um_ar : list (Z * option String.string * option Q);        (* score threshold, label *)
  um_mar : list (Z * option Q);
  um_ar_over : list (option String.string * option Q);       (* averaged over the score thresholds *)
  um_mar_over : option Q;
  um_curve : list (Z * option String.string * list (Q * Z)); (* IoU threshold, label *)
  um_cells : list (option String.string * Z * Z * dcell)     (* label, score threshold, IoU threshold *)
}.

Section Unpack.
  Variables (eps : Z) (bin : nat -> nat -> nat) (order : list (cell * Q) -> list (cell * Q)).

  (* models: object_detection/computation.py:610-611 *)
  Definition np_map_row (aps : list (option Q)) : option Q :=
    match aps with [] => Some 0%Q | _ => np_mean aps end.

  (* models: object_detection/evaluator.py:492-514; computation.py:534-613;
     utilities.py:10-150 *)
  Definition np_finish (labels : ldict) (ious scores : list Z) (G : list nat) (C : acounts) (P : list panel) : ares dmetrics :=
    let n := List.length labels in
    let cells := map (map (np_cells G)) C in
    let aps := map (map (fun row => Some (fst (np_ap row)))) P in
    let curves := map (map (fun row => snd (np_ap row))) P in
    let recalls := map (map (map (fun c => Some (dl_recall c)))) cells in
    let maps := map np_map_row aps in
    (* recall.mean(axis=0): one row per score threshold *)
    abind (amap (fun j => abind (amap (fun per => np_get per (Z.of_nat j)) recalls) (np_columns_mean n)) (seq 0 (List.length scores))) (fun ars =>
    let mars := map np_mean ars in
    abind (np_rows_items labels (combine ious aps)) (fun ap =>
    abind (abind (np_columns_mean n aps) (np_items labels)) (fun ap_over =>
    abind (np_rows_items labels (combine scores ars)) (fun ar =>
    abind (abind (np_columns_mean n ars) (np_items labels)) (fun ar_over =>
    abind (np_rows_items labels (combine ious curves)) (fun curve =>
    abind (amap (fun kl =>
             abind (amap (fun js =>
               amap (fun it => abind (np_get cells (Z.of_nat (fst it))) (fun per =>
                               abind (np_get per (Z.of_nat (fst js))) (fun row =>
                               abind (np_get row (fst kl)) (fun c => AOk (snd kl, snd js, snd it, c)))))
                 (combine (seq 0 (List.length ious)) ious))
               (combine (seq 0 (List.length scores)) scores)) (fun xs => AOk (List.concat xs))) labels) (fun out =>
    AOk (MkDMet ap (combine ious maps) ap_over (np_mean maps) ar (combine scores mars) ar_over (np_mean mars) curve (List.concat out))))))))).

  (* models: object_detection/evaluator.py:418-514 compute_precision_recall *)
  Definition np_metrics (ious scores : list Z) (e : deval) (datums : drow -> bool) : ares dmetrics :=
    abind (np_precision_recall eps bin order ious scores e datums) (fun r =>
    np_finish (de_labels e) ious scores (fst (fst r)) (snd (fst r)) (snd r)).
End Unpack.
