(* Specification vocabulary for C138: the same segmentations with other label names and uids. *)
From Verif Require Import Prelude Counting CacheModel ClsModel ClsSpec FlowModel SegModel SegSpec.
From Coq Require Import QArith String.
Local Open Scope nat_scope.
Local Open Scope list_scope.

(* SPEC: the segmentation with every label [l] replaced by [f l] and the uid [u] by
   [h u] *)
Definition brename (f : string -> string) (b : bitmask) : bitmask := MkBM (f (bm_label b)) (bm_shape b) (bm_bits b) (bm_meta b).
Definition srename (h f : string -> string) (s : segmentation) : segmentation :=
  MkSeg (h (sg_uid s)) (map (brename f) (sg_gts s)) (map (brename f) (sg_pds s)) (sg_shape s) (sg_size s) (sg_meta s).
(* SPEC: the view of the renamed data selects the same datums and annotations *)
Definition renamed_sview (h f : string -> string) (ss : list segmentation) (v v' : view) : Prop :=
  forall s, In s ss -> v_datum v' (srename h f s) = v_datum v s /\
    (forall b, In b (sg_gts s) -> v_gt v' (srename h f s) (f (bm_label b)) = v_gt v s (bm_label b)) /\
    (forall b, In b (sg_pds s) -> v_pd v' (srename h f s) (f (bm_label b)) = v_pd v s (bm_label b)).

(* SPEC: the same list of values under the new names, in the same order *)
Definition renamed_values (f : string -> string) (a b : list (option string * Q)) : Prop :=
  Forall2 (fun x y => exists l, fst x = Some l /\ fst y = Some (f l) /\ (snd x == snd y)%Q) a b.
Definition renamed_report (f : string -> string) (r r' : sreport) : Prop :=
  (sr_accuracy r == sr_accuracy r')%Q /\
  Forall2 (fun x y => exists l, fst x = Some l /\ fst y = Some (f l) /\ renamed_values f (snd x) (snd y)) (sr_confusion r) (sr_confusion r') /\
  renamed_values f (sr_unmatched_pd r) (sr_unmatched_pd r') /\ renamed_values f (sr_unmatched_gt r) (sr_unmatched_gt r') /\
  match sr_miou r, sr_miou r' with Some a, Some b => (a == b)%Q | None, None => True | _, _ => False end /\
  renamed_values f (sr_precision r) (sr_precision r') /\ renamed_values f (sr_recall r) (sr_recall r') /\
  renamed_values f (sr_f1 r) (sr_f1 r') /\ renamed_values f (sr_iou r) (sr_iou r').
(* SPEC: the same summary, apart from the number of stored rows *)
Definition same_summary (a b : sinfo) : Prop :=
  si_labels a = si_labels b /\ si_datums a = si_datums b /\ si_pixels a = si_pixels b /\ si_gt_pixels a = si_gt_pixels b /\ si_pd_pixels a = si_pd_pixels b.
