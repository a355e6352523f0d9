(* Object detection: how the metrics react to predictions and ground truths that are
   added or removed (SPEC, independent of the model of the code). *)
From Verif Require Import Prelude DetModel DetSpec.
From Coq Require Import String.
Local Open Scope list_scope.

(* the predictions of a datum, each with its overlaps with the ground truths *)
Definition overlaps (d : detection) : list (annotation * list Z) :=
  map (fun pa => (snd pa, map (t_iou d (fst pa)) (seq 0 (List.length (t_gts d))))) (numbered (t_pds d)).
(* a prediction with a score that scored_at [s] *)
Definition scored_at (s : Z) (x : annotation * list Z) : bool := existsb (fun sc => (s <=? sc)%Z) (a_scores (fst x)).

(* SPEC: [d] is [d'] without the predictions all of whose scores are below [s] *)
Definition without_low (s : Z) (d d' : detection) : Prop :=
  t_gts d = t_gts d' /\ overlaps d = filter (scored_at s) (overlaps d').
(* SPEC: [d'] has every prediction of [d], with the same overlaps, and possibly more,
   in any order *)
Definition more_predictions (d d' : detection) : Prop :=
  t_gts d = t_gts d' /\ incl (overlaps d) (overlaps d').
(* SPEC: [d] is [d'] without the labels whose scores are below [s], and without the
   predictions that have no other labels *)
Definition high_labels (s : Z) (a : annotation) : annotation :=
  let ls := filter (fun ls => (s <=? snd ls)%Z) (combine (a_labels a) (a_scores a)) in
  MkAnn (a_uid a) (map fst ls) (map snd ls).
Definition without_low_labels (s : Z) (d d' : detection) : Prop :=
  t_gts d = t_gts d' /\
  overlaps d = filter (fun x => negb (Nat.eqb (List.length (a_labels (fst x))) 0)) (map (fun x => (high_labels s (fst x), snd x)) (overlaps d')).
(* SPEC: [d'] has every ground truth of [d] and possibly more, all else is the same *)
Definition more_groundtruths (d d' : detection) : Prop :=
  t_pds d = t_pds d' /\ (exists l, t_gts d' = t_gts d ++ l) /\
  forall p g, (g < List.length (t_gts d))%nat -> t_iou d p g = t_iou d' p g.
