(* Literal model of the arrays of compute_confusion_matrix of the object detection
   evaluator: as DetArrayModel.v, every access outside an array raises.  DetModel.v and
   DetCellModel.v state the same computation with functions on label numbers.
   Definitions only. *)
From Verif Require Import Prelude Counting CacheModel ClsModel FlowModel DetModel DetFlowModel DetReportModel DetCellModel DetArrayModel ClsArrayModel.
From Coq Require String.
Local Open Scope nat_scope.
Local Open Scope list_scope.

(* matched pairs, unmatched ground truths, unmatched predictions *)
Notation dplane := (matrix * list nat * list nat)%type.
Definition plane_zero (n : nat) : dplane := (repeat (repeat 0 n) n, repeat 0 n, repeat 0 n).

(* models: object_detection/computation.py:853-885 at one pair of thresholds: the cells
   of the labels that occur are overwritten with their numbers *)
Definition np_plane (eps : Z) (n : nat) (ts : Z * Z) (rows : list drow) : ares dplane :=
  let t := fst ts in let s := snd ts in
  let matched := dkeys z5_dec row_ids (fun r => dp_tp eps t s rows r || dp_misclf eps t s rows r) rows in
  let lone_gt := dkeys zzz_dec gt_key (dp_unmatched_gt eps t s rows) rows in
  let lone_pd := dkeys zzz_dec pd_key (dp_unmatched_pd eps t s rows) rows in
  abind (afold (fun M gp => matrix_set M (fst gp) (snd gp)
                  (countb (fun k => (snd (fst k) =? fst gp)%Z && (snd k =? snd gp)%Z) matched))
           (isort zz_leb (nodup zz_dec (map (fun k => (snd (fst k), snd k)) matched))) (repeat (repeat 0 n) n)) (fun M =>
  abind (afold (fun U g => np_set U g (countb (fun k => (snd k =? g)%Z) lone_gt))
           (isort Z.leb (nodup Z.eq_dec (map snd lone_gt))) (repeat 0 n)) (fun U =>
  abind (afold (fun V p => np_set V p (countb (fun k => (snd k =? p)%Z) lone_pd))
           (isort Z.leb (nodup Z.eq_dec (map snd lone_pd))) (repeat 0 n)) (fun V =>
  AOk (M, U, V)))).

Definition plane_sum (a b : dplane) : dplane :=
  (map2 (map2 Nat.add) (fst (fst a)) (fst (fst b)), map2 Nat.add (snd (fst a)) (snd (fst b)), map2 Nat.add (snd a) (snd b)).
(* models: object_detection/evaluator.py:540-595: the first two axes of the arrays are
   kept as one list, with the IoU thresholds outside; empty tables are skipped *)
Definition np_planes (eps : Z) (ious scores : list Z) (e : deval) (datums : drow -> bool) : ares (list dplane) :=
  let n := List.length (de_labels e) in
  afold (fun acc t =>
    match filter datums t with
    | [] => AOk acc
    | rows => abind (amap (fun ts => np_plane eps n ts rows) (list_prod ious scores)) (fun b => AOk (map2 plane_sum acc b))
    end) (de_detailed e) (map (fun _ => plane_zero n) (list_prod ious scores)).

(* models: object_detection/utilities.py:161-189 unpack_confusion_matrix for one pair of
   thresholds; the values of index_to_label are pairwise distinct (C103_labels), so that
   each assignment to a dictionary adds an entry *)
Definition np_unpack_plane (labels : ldict) (p : dplane) : ares dcounts :=
  abind (amap (fun kl =>
    abind (np_get (snd (fst p)) (fst kl)) (fun u =>
    abind (np_get (snd p) (fst kl)) (fun v =>
    abind (amap (fun pl => abind (matrix_get (fst (fst p)) (fst kl) (fst pl)) (fun c => AOk (snd pl, c))) labels) (fun row =>
    AOk (snd kl, (row, u, v)))))) labels) (fun out =>
  AOk (MkDCounts (map (fun x => (fst x, fst (fst (snd x)))) out)
                 (map (fun x => (fst x, snd (fst (snd x)))) out)
                 (map (fun x => (fst x, snd (snd x))) out))).
(* models: object_detection/evaluator.py:535-608 compute_confusion_matrix *)
Definition np_det_confusion (eps : Z) (ious scores : list Z) (e : deval) (datums : drow -> bool) : ares (list (Z * Z * dcounts)) :=
  match ious, scores with
  | [], _ | _, [] => ARaise BadValue
  | _, _ =>
      abind (np_planes eps ious scores e datums) (fun ps =>
      amap (fun tp => abind (np_unpack_plane (de_labels e) (snd tp)) (fun d => AOk (fst tp, d))) (combine (list_prod ious scores) ps))
  end.
