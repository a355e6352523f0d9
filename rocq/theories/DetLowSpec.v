(* Object detection: predictions appended behind those of an image, with lower scores
   (SPEC, independent of the model of the code). *)
From Verif Require Import Prelude DetModel DetSpec DetLabelSpec.
From Coq Require Import String QArith.
Local Open Scope nat_scope.
Local Open Scope list_scope.

(* SPEC: [d'] is [d] with further predictions at the end of the list; the overlaps of the
   predictions of [d] are the same *)
Definition appended (d d' : detection) : Prop :=
  t_gts d' = t_gts d /\ (exists more, t_pds d' = t_pds d ++ more) /\
  forall p g, p < List.length (t_pds d) -> t_iou d' p g = t_iou d p g.
(* the further predictions with label [v]: position and score *)
Definition further (d d' : detection) (v : string) : list (nat * Z) :=
  filter (fun ps => List.length (t_pds d) <=? fst ps) (pds_of d' v).
(* SPEC: in the selected images, the further predictions with label [v] have lower scores
   than all of [ds] with this label *)
Definition appended_below (sel sel' : detection -> bool) (ds ds' : list detection) (v : string) : Prop :=
  Forall2 (fun d d' => sel d = sel' d' /\ appended d d' /\
    (sel d = true -> forall ps, In ps (further d d' v) -> forall x, In x (label_scores sel ds v) -> (snd ps < x)%Z)) ds ds'.
(* SPEC: and they overlap every ground truth with the label by less than [t] *)
Definition appended_misses (t : Z) (sel : detection -> bool) (ds ds' : list detection) (v : string) : Prop :=
  Forall2 (fun d d' => sel d = true -> forall ps, In ps (further d d' v) -> forall g, In g (gts_of d' v) -> (t_iou d' (fst ps) g < t)%Z) ds ds'.
(* SPEC: a possibly undefined mean is at most another one *)
Definition at_most (x y : option Q) : Prop :=
  match x, y with Some a, Some b => (a <= b)%Q | None, None => True | _, _ => False end.
