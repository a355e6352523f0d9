(* Specification vocabulary for several filters of a segmentation evaluator. *)
From Verif Require Import Prelude CacheModel FlowModel SegModel SegSpec.
From Coq Require Import String QArith.
Local Open Scope nat_scope.
Local Open Scope list_scope.

(* SPEC: the arguments of one call of Evaluator.filter, and what they select *)
Record sargs : Type := MkSargs { z_datums : expr; z_gts : expr; z_pds : expr; z_view : view }.
Definition sargs_ok (ss : list segmentation) (z : sargs) : Prop :=
  datum_expr ss (z_datums z) (v_datum (z_view z)) /\ gt_expr ss (z_gts z) (v_gt (z_view z)) /\ pd_expr ss (z_pds z) (v_pd (z_view z)).
(* SPEC: what remains of [v] after the calls *)
Definition sremains (v : view) (zs : list sargs) : view :=
  MkView (fun s => v_datum v s && forallb (fun z => v_datum (z_view z) s) zs)
         (fun s l => v_gt v s l && forallb (fun z => v_gt (z_view z) s l) zs)
         (fun s l => v_pd v s l && forallb (fun z => v_pd (z_view z) s l) zs).

(* SPEC: the outcomes of one call of filter, into memory or into files, and of calls one
   after the other; a call that raises is the last one *)
Inductive seg_call (e : seval) (z : sargs) : fresult seval -> Prop :=
| scall_mem bs : seg_call e z (seg_filter_mem bs e (z_datums z) (z_gts z) (z_pds z))
| scall_file bs rpf : seg_call e z (seg_filter_file bs rpf e (z_datums z) (z_gts z) (z_pds z)).
Inductive seg_calls : seval -> list sargs -> fresult seval -> Prop :=
| scalls_nil e : seg_calls e [] (Done e)
| scalls_raise e z zs r : seg_call e z r -> (forall e', r <> Done e') -> seg_calls e (z :: zs) r
| scalls_cons e z zs e' r : seg_call e z (Done e') -> seg_calls e' zs r -> seg_calls e (z :: zs) r.

(* SPEC: all the expressions in one call *)
Definition stogether (zs : list sargs) : sargs :=
  MkSargs (Some (fun r => forallb (fun z => eval_expr (z_datums z) r) zs))
          (Some (fun r => forallb (fun z => eval_expr (z_gts z) r) zs))
          (Some (fun r => forallb (fun z => eval_expr (z_pds z) r) zs))
          (MkView (fun s => forallb (fun z => v_datum (z_view z) s) zs)
                  (fun s l => forallb (fun z => v_gt (z_view z) s l) zs) (fun s l => forallb (fun z => v_pd (z_view z) s l) zs)).

(* SPEC: two evaluators report the same; the summaries are those of the view [v] *)
Definition same_seg_reports (ss : list segmentation) (v : view) (e1 e2 : seval) : Prop :=
  (forall ed sel, datum_expr ss ed sel -> seg_compute e1 ed = seg_compute e2 ed /\
     exists rep, seg_compute e1 ed = Some rep /\ report_ok ss (with_datums v sel) (seg_labels ss) rep) /\
  (forall ed eg ep w, datum_expr ss ed (v_datum w) -> gt_expr ss eg (v_gt w) -> pd_expr ss ep (v_pd w) ->
     info_ok ss v w (seg_info e1 ed eg ep) /\ info_ok ss v w (seg_info e2 ed eg ep)).
