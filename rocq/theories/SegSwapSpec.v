(* Specification vocabulary: a segmentation data set in which ground truths and
   predictions are exchanged. *)
From Verif Require Import Prelude SegModel SegSpec SegReorderSpec.
From Coq Require Import QArith String.
Local Open Scope list_scope.

(* SPEC: the predictions of the datum become its ground truths and the other way round *)
Definition exchange (s : segmentation) : segmentation :=
  MkSeg (sg_uid s) (sg_pds s) (sg_gts s) (sg_shape s) (sg_size s) (sg_meta s).
(* SPEC: [v'] keeps of the exchanged data what [v] keeps of the data *)
Definition exchanged_view (ss : list segmentation) (v v' : view) : Prop :=
  forall s, In s ss -> v_datum v' (exchange s) = v_datum v s /\
    (forall l, v_gt v' (exchange s) l = v_pd v s l /\ v_pd v' (exchange s) l = v_gt v s l).
(* SPEC: every entry (a, b) of the first matrix is entry (b, a) of the second *)
Definition transposed (A B : list (option string * list (option string * Q))) : Prop :=
  forall a b row q, In (a, row) A -> In (b, q) row ->
  exists row' q', In (b, row') B /\ In (a, q') row' /\ (q == q')%Q.
Definition report_exchanged (r r' : sreport) : Prop :=
  (sr_accuracy r == sr_accuracy r')%Q /\ same_mean (sr_miou r) (sr_miou r') /\
  transposed (sr_confusion r) (sr_confusion r') /\ transposed (sr_confusion r') (sr_confusion r) /\
  same_values (sr_unmatched_pd r) (sr_unmatched_gt r') /\ same_values (sr_unmatched_gt r) (sr_unmatched_pd r') /\
  same_values (sr_precision r) (sr_recall r') /\ same_values (sr_recall r) (sr_precision r') /\
  same_values (sr_f1 r) (sr_f1 r') /\ same_values (sr_iou r) (sr_iou r').
