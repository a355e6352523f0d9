(* Specification of the segmentation report as binary64 numbers: the exact fractions of
   pixels of [SegSpec], rounded. *)
From Verif Require Import Prelude SegModel SegSpec FReportSpec.
From Coq Require Import String QArith.
Local Open Scope Z_scope.

Definition flists_of (L : list string) (R : string -> Q -> Prop) (out : list (option string * Q)) : Prop :=
  Forall2 (fun l x => fst x = Some l /\ R l (snd x)) L out.
Definition freport_ok (ss : list segmentation) (v : view) (L : list string) (rep : sreport) : Prop :=
  rounded (spec_accuracy ss v) (sr_accuracy rep) /\
  Forall2 (fun a x => fst x = Some a /\ flists_of L (fun b => rounded (spec_iou ss v a b)) (snd x)) L (sr_confusion rep) /\
  flists_of L (fun l => rounded (spec_unmatched_pd ss v l)) (sr_unmatched_pd rep) /\
  flists_of L (fun l => rounded (spec_unmatched_gt ss v l)) (sr_unmatched_gt rep) /\
  match sr_miou rep with
  | Some m => L <> [] /\ reports_mean (map snd (sr_iou rep)) m /\
              within (1 + Z.of_nat (List.length L)) (qmean (map (fun l => spec_iou ss v l l) L)) m
  | None => L = []
  end /\
  flists_of L (fun l => rounded (spec_precision ss v l)) (sr_precision rep) /\
  flists_of L (fun l => rounded (spec_recall ss v l)) (sr_recall rep) /\
  flists_of L (fun l => nearly 5 (spec_f1 ss v l)) (sr_f1 rep) /\
  flists_of L (fun l => rounded (spec_iou ss v l l)) (sr_iou rep).
