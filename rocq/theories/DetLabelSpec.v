(* Object detection: what the report about one label depends on (SPEC, independent of
   the model of the code). *)
From Verif Require Import Prelude DetModel DetSpec.
From Coq Require Import String.
Local Open Scope list_scope.

(* the positions of the ground truths with label [v] *)
Definition gts_of (d : detection) (v : string) : list nat := map fst (filter (fun ga => has_label v (snd ga)) (numbered (t_gts d))).
(* the predictions with label [v], in the order of the image: position and score *)
Definition pds_of (d : detection) (v : string) : list (nat * Z) :=
  flat_map (fun pa => map (fun ls => (fst pa, snd ls)) (filter (fun ls => String.eqb v (fst ls)) (combine (a_labels (snd pa)) (a_scores (snd pa)))))
    (numbered (t_pds d)).
(* SPEC: an image as seen by one label: the number of its ground truths and, for each
   of its predictions, the score and the overlaps with these ground truths *)
Definition label_table (d : detection) (v : string) : nat * list (Z * list Z) :=
  (List.length (gts_of d v), map (fun ps => (snd ps, map (t_iou d (fst ps)) (gts_of d v))) (pds_of d v)).
(* the same with scores replaced *)
Definition rescored (f : Z -> Z) (T : nat * list (Z * list Z)) : nat * list (Z * list Z) :=
  (fst T, map (fun r => (f (fst r), snd r)) (snd T)).
(* the scores given to label [v] in the selected images *)
Definition label_scores (sel : detection -> bool) (ds : list detection) (v : string) : list Z :=
  flat_map (fun d => if sel d then map fst (snd (label_table d v)) else []) ds.
(* SPEC: image by image, label [v'] of [ds'] looks like label [v] of [ds] with the
   scores replaced by [f] *)
Definition label_alike (f : Z -> Z) (sel sel' : detection -> bool) (ds ds' : list detection) (v v' : string) : Prop :=
  Forall2 (fun d d' => sel d = sel' d' /\ (sel d = true -> label_table d' v' = rescored f (label_table d v))) ds ds'.
(* SPEC: the thresholds [s] and [s'], and the tolerance, stand at the same place among
   the scores before and after the replacement *)
Definition same_place (eps s s' : Z) (f : Z -> Z) (scores : list Z) : Prop :=
  forall x, In x scores -> ((s <= x)%Z <-> (s' <= f x)%Z) /\ ((eps < x)%Z <-> (eps < f x)%Z).
(* SPEC: [f] keeps the order of the scores *)
Definition increasing_on (eps : Z) (f : Z -> Z) (scores : list Z) : Prop :=
  forall x, In x scores -> ((eps < x)%Z <-> (eps < f x)%Z) /\ forall y, In y scores -> (x < y)%Z -> (f x < f y)%Z.

(* ------------------------------------------------------------------ *)
(** * The same images with other scores *)

Definition rescore_ann (f : Z -> Z) (a : annotation) : annotation := MkAnn (a_uid a) (a_labels a) (map f (a_scores a)).
Definition rescore (f : Z -> Z) (d : detection) : detection := MkDet (t_uid d) (t_gts d) (map (rescore_ann f) (t_pds d)) (t_iou d).
(* the scores of the predictions in the selected images *)
Definition image_scores (d : detection) : list Z := flat_map a_scores (t_pds d).
Definition all_scores (sel : detection -> bool) (ds : list detection) : list Z := flat_map (fun d => if sel d then image_scores d else []) ds.
(* SPEC: image by image, label [v'] of [ds'] has the annotations that label [v] has in [ds] *)
Definition same_label (sel sel' : detection -> bool) (ds ds' : list detection) (v v' : string) : Prop :=
  Forall2 (fun d d' => sel d = sel' d' /\ (sel d = true -> label_table d' v' = label_table d v)) ds ds'.
