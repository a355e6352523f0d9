(* Specification vocabulary for several filters of an object detection evaluator. *)
From Verif Require Import Prelude CacheModel CacheSpec FlowModel DetModel DetExModel DetSpec DetFlowModel DetFilterModel DetReportModel DetEnd DetFilterSpec.
From Coq Require Import String QArith.
Local Open Scope nat_scope.
Local Open Scope list_scope.

(* SPEC: the arguments of one call of Evaluator.filter, and what they select *)
Record dargs : Type := MkDargs {
  y_datums : drow -> bool; y_gts : option (drow -> bool); y_pds : option (drow -> bool);
  y_sel : detection -> bool; y_sg : detection -> nat -> bool; y_sp : detection -> nat -> string -> bool }.
Definition dargs_ok (ds : list detection) (L : list string) (y : dargs) : Prop :=
  det_selects ds (y_datums y) (y_sel y) /\ gt_filter ds L (y_gts y) (y_sg y) /\ pd_filter ds L (y_pds y) (y_sp y).
(* SPEC: what remains of [w] after the calls *)
Definition dremains (w : dview) (ys : list dargs) : dview :=
  MkView (fun d g => forallb (fun y => y_sel y d && y_sg y d g) ys && v_gt w d g)
         (fun d p l => forallb (fun y => y_sel y d && y_sp y d p l) ys && v_pd w d p l).
(* SPEC: no ground truth and no prediction label remains *)
Definition dnothing (ds : list detection) (w : dview) : Prop :=
  forall i d, nth_error ds i = Some d ->
    (forall g, g < List.length (t_gts d) -> v_gt w d g = false) /\
    (forall p pa l, nth_error (t_pds d) p = Some pa -> In l (a_labels pa) -> v_pd w d p l = false).

(* SPEC: the outcomes of one call of filter, into memory or into files, and of calls one
   after the other; a call that raises is the last one *)
Inductive det_call (unit : Z) (e : deval) (y : dargs) : fresult deval -> Prop :=
| dcall_mem bs rb : det_call unit e y (det_filter_mem unit bs rb e (y_datums y) (y_gts y) (y_pds y))
| dcall_file bs rpf rb : batching_ok rb -> det_call unit e y (det_filter_file unit bs rpf rb e (y_datums y) (y_gts y) (y_pds y)).
Inductive det_calls (unit : Z) : deval -> list dargs -> fresult deval -> Prop :=
| dcalls_nil e : det_calls unit e [] (Done e)
| dcalls_raise e y ys r : det_call unit e y r -> (forall e', r <> Done e') -> det_calls unit e (y :: ys) r
| dcalls_cons e y ys e' r : det_call unit e y (Done e') -> det_calls unit e' ys r -> det_calls unit e (y :: ys) r.

(* SPEC: all the expressions in one call *)
Definition dopt_holds (f : option (drow -> bool)) (r : drow) : bool := match f with Some f => f r | None => true end.
Definition dtogether (ys : list dargs) : dargs :=
  MkDargs (fun r => forallb (fun y => y_datums y r) ys) (Some (fun r => forallb (fun y => dopt_holds (y_gts y) r) ys))
    (Some (fun r => forallb (fun y => dopt_holds (y_pds y) r) ys))
    (fun d => forallb (fun y => y_sel y d) ys) (fun d g => forallb (fun y => y_sg y d g) ys) (fun d p l => forallb (fun y => y_sp y d p l) ys).

(* SPEC: two evaluators of the same data report the same numbers *)
Definition same_det_reports (eps : Z) (ds : list detection) (e1 e2 : deval) : Prop :=
  (forall v vi, label_no e1 v vi <-> label_no e2 v vi) /\
  forall datums sel, det_selects ds datums sel ->
  (forall v vi, label_no e1 v vi -> same_report eps e1 datums (Z.of_nat vi) e2 datums (Z.of_nat vi)) /\
  (forall t, (0 < t)%Z -> rep_map eps e1 datums t = rep_map eps e2 datums t) /\
  (forall ious s, (forall t, In t ious -> (0 < t)%Z) -> rep_mar eps e1 datums ious s = rep_mar eps e2 datums ious s).
