(* Specification vocabulary for filtered segmentation caches loaded without their labels.
   Only SegSpec.v and the record of a report are used. *)
From Verif Require Import Prelude Counting ClsModel ClsSpec SegModel SegSpec.
From Coq Require Import QArith String.
Local Open Scope nat_scope.
Local Open Scope list_scope.

(* SPEC: label [l] occurs in the view: some kept datum keeps it as a ground truth or as a
   prediction.  A datum is stored with the labels known when it was added, so also with
   those of earlier data. *)
Definition remains (ss : list segmentation) (v : view) (l : string) : Prop :=
  exists k s, nth_error ss k = Some s /\ v_datum v s = true /\ In l (seg_labels (firstn (S k) ss)) /\
    (v_gt v s l = true \/ v_pd v s l = true).
(* SPEC: the labels that occur are the first [m] *)
Definition first_labels (ss : list segmentation) (v : view) (m : nat) : Prop :=
  forall i l, nth_error (seg_labels ss) i = Some l -> (remains ss v l <-> i < m).
(* SPEC: the report about the labels [K]: as [report_ok], but the lists of precision,
   recall, F1 and IoU may have another order *)
Definition report_about (ss : list segmentation) (v : view) (K : list string) (rep : sreport) : Prop :=
  (sr_accuracy rep == spec_accuracy ss v)%Q /\
  Forall2 (fun a x => fst x = Some a /\ lists_of K (spec_iou ss v a) (snd x)) K (sr_confusion rep) /\
  lists_of K (spec_unmatched_pd ss v) (sr_unmatched_pd rep) /\
  lists_of K (spec_unmatched_gt ss v) (sr_unmatched_gt rep) /\
  match sr_miou rep with
  | Some m => K <> [] /\ (m == qmean (map (fun l => spec_iou ss v l l) K))%Q
  | None => K = []
  end /\
  exists K', Permutation K' K /\
    lists_of K' (spec_precision ss v) (sr_precision rep) /\
    lists_of K' (spec_recall ss v) (sr_recall rep) /\
    lists_of K' (spec_f1 ss v) (sr_f1 rep) /\
    lists_of K' (fun l => spec_iou ss v l l) (sr_iou rep).
