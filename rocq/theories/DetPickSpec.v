(* Object detection, ties included: which ground truth a prediction is paired with
   when it overlaps two ground truths of one label equally (SPEC, independent of the
   model of the code). *)
From Verif Require Import Prelude DetModel DetSpec.
From Coq Require Import String.
Local Open Scope list_scope.

(* SPEC: of the ground truths labelled [l], prediction [p] picks the one it overlaps
   most, and among equals the one listed first *)
Definition picks (d : detection) (p g : nat) (l : string) : bool :=
  forallb (fun ga => negb (has_label l (snd ga)) ||
                     (if Nat.ltb (fst ga) g then (t_iou d p (fst ga) <? t_iou d p g)%Z
                      else (t_iou d p (fst ga) <=? t_iou d p g)%Z)) (numbered (t_gts d)).
(* a prediction with label [l] and a sufficient score picks [g] and overlaps it enough *)
Definition picked (eps t s : Z) (d : detection) (l : string) (g : nat) : bool :=
  existsb (fun pa => existsb (fun ls => String.eqb l (fst ls) && (eps <? snd ls)%Z && (s <=? snd ls)%Z)
                             (combine (a_labels (snd pa)) (a_scores (snd pa)))
                     && (eps <=? t_iou d (fst pa) g)%Z && (t <=? t_iou d (fst pa) g)%Z && picks d (fst pa) g l)
          (numbered (t_pds d)).
(* the prediction claims ground truth [g] of datum [i]: it picks it and overlaps it enough *)
Definition claims_first (eps t : Z) (ds : list detection) (v : string) (x : nat * nat * Z) (i g : nat) : Prop :=
  fst (fst x) = i /\
  exists d ga, nth_error ds i = Some d /\ nth_error (t_gts d) g = Some ga /\ has_label v ga = true /\
    (eps <= t_iou d (snd (fst x)) g)%Z /\ (t <= t_iou d (snd (fst x)) g)%Z /\ picks d (snd (fst x)) g v = true.
(* SPEC: a prediction of the ranking is a hit iff it is the first one to claim its
   ground truth (and its score is positive) *)
Definition ap_hits_first (eps t : Z) (ds : list detection) (v : string) (P : list (nat * nat * Z)) (hits : list bool) : Prop :=
  List.length hits = List.length P /\
  forall P1 x P2, P = P1 ++ x :: P2 ->
    (nth_error hits (List.length P1) = Some true <->
     (eps < snd x)%Z /\ exists i g, claims_first eps t ds v x i g /\ forall y, In y P1 -> ~ claims_first eps t ds v y i g).
