(* Model of the IoU of boxes and masks in binary64: the coordinates become doubles and
   every operation is rounded (53 bits, ties to even, unbounded exponent).  Definitions
   only.  [DetModel.bbox_iou] and [DetModel.bitmask_iou] keep exact rationals. *)
From Verif Require Import Prelude Counting CacheModel ClsModel DetModel GeoModel FloatModel FReportModel.
From Coq Require Import String QArith Qminmax.
Local Open Scope nat_scope.
Local Open Scope list_scope.

(* models: object_detection/loader.py:210-218 np.array([...], dtype=np.float64) *)
Definition fbox (b : box) : box := MkBox (srnd (b_xmin b)) (srnd (b_xmax b)) (srnd (b_ymin b)) (srnd (b_ymax b)).

(* np.divide(a, b, where=b >= EPSILON, out=zeros) on doubles; EPSILON is the double
   nearest to 1e-9 (object_detection/computation.py:8) *)
Definition fdiv_where (a b : Q) : Q := if Qlt_le_dec b nano then 0%Q else srnd (a / b).

(* models: object_detection/computation.py:42-79 compute_bbox_iou for one pair of rows;
   np.maximum and np.minimum are exact, the sum of area1, area2 and the negative
   intersection is taken from the left *)
Definition fiou_rows (a b : box) : Q :=
  let xmin := Qmax (b_xmin a) (b_xmin b) in
  let ymin := Qmax (b_ymin a) (b_ymin b) in
  let xmax := Qmin (b_xmax a) (b_xmax b) in
  let ymax := Qmin (b_ymax a) (b_ymax b) in
  let width := Qmax 0 (srnd (xmax - xmin)) in
  let height := Qmax 0 (srnd (ymax - ymin)) in
  let inter := srnd (width * height) in
  let area1 := srnd (srnd (b_xmax a - b_xmin a) * srnd (b_ymax a - b_ymin a)) in
  let area2 := srnd (srnd (b_xmax b - b_xmin b) * srnd (b_ymax b - b_ymin b)) in
  let union := srnd (srnd (area1 + area2) - inter) in
  fdiv_where inter union.
Definition fbbox_iou (a b : box) : Q := fiou_rows (fbox a) (fbox b).

(* models: object_detection/computation.py:106-126 compute_bitmask_iou for one pair of
   flattened masks: the counts are integers, which np.divide turns into doubles *)
Definition fbitmask_iou (a b : list bool) : Q :=
  let lhs := countb (fun x => x) a in
  let rhs := countb (fun x => x) b in
  let inter := countb (fun p => fst p && snd p) (combine a b) in
  let union := lhs + rhs - inter in
  if Qlt_le_dec (rnd (qnat union)) nano then 0%Q else rnd (rnd (qnat inter) / rnd (qnat union)).
Definition fmask_iou (a b : gmask) : Q := fbitmask_iou (gm_bits a) (gm_bits b).

(* models: object_detection/loader.py:194-226, 261-292 up to _add_data; [store] stands
   for the column of the table and is any order preserving map of [0, 1] *)
Section Add.
  Variable store : Q -> Z.
  Definition fboxes_data (ds : list (gdet box)) : list detection := map (with_ious store fbbox_iou) ds.
  Definition fmasks_data (ds : list (gdet gmask)) : option (list detection) :=
    if forallb stackable ds then Some (map (with_ious store fmask_iou) ds) else None.
End Add.
