(* Specification vocabulary for several filters of a classification evaluator. *)
From Verif Require Import Prelude CacheModel CacheSpec ClsModel ClsSpec RocModel FlowModel FlowProofs ClsFilterModel ClsFilterSpec
  ClsReportModel ClsReportSpec.
From Coq Require Import String QArith.
Local Notation length := List.length (only parsing).
Local Open Scope nat_scope.
Local Open Scope list_scope.

(* SPEC: two views leave the same candidates of the data *)
Definition same_cview (cs : list classification) (w1 w2 : cview) : Prop :=
  forall c l, In c cs -> In l (c_predictions c) -> w1 c l = w2 c l.
(* SPEC: the expression is about the datum (its ground truth, its metadata), not about one
   candidate *)
Definition about_datum (cs : list classification) (s : cview) : Prop :=
  forall c l l', In c cs -> In l (c_predictions c) -> In l' (c_predictions c) -> s c l = s c l'.

(* SPEC: the arguments of one call of Evaluator.filter, and what they say of the candidates *)
Record fargs : Type := MkFargs {
  x_datums : crow -> bool; x_gts : option (crow -> bool); x_pds : option (crow -> bool);
  x_sel : cview; x_sg : cview; x_sp : cview }.
Definition fargs_ok (cs : list classification) (x : fargs) : Prop :=
  expresses cs (x_datums x) (x_sel x) /\ opt_expresses cs (x_gts x) (x_sg x) /\ opt_expresses cs (x_pds x) (x_sp x) /\
  about_datum cs (x_sg x).
(* SPEC: the call selects the candidate *)
Definition selects (c : classification) (l : string) (x : fargs) : bool := x_sel x c l && x_sg x c l && x_sp x c l.
(* SPEC: what remains of [w] after the calls *)
Definition remains (w : cview) (xs : list fargs) : cview := fun c l => w c l && forallb (selects c l) xs.

(* SPEC: the outcomes of one call of filter, into memory or into files *)
Inductive filter_call (e : ceval) (x : fargs) : fresult ceval -> Prop :=
| call_mem bs rb : filter_call e x (cls_filter_mem bs rb e (x_datums x) (x_gts x) (x_pds x))
| call_file bs rpf rb : batching_ok rb -> filter_call e x (cls_filter_file bs rpf rb e (x_datums x) (x_gts x) (x_pds x)).
(* SPEC: the outcomes of calls one after the other; a call that raises is the last one *)
Inductive filter_calls : ceval -> list fargs -> fresult ceval -> Prop :=
| calls_nil e : filter_calls e [] (Done e)
| calls_raise e x xs r : filter_call e x r -> (forall e', r <> Done e') -> filter_calls e (x :: xs) r
| calls_cons e x xs e' r : filter_call e x (Done e') -> filter_calls e' xs r -> filter_calls e (x :: xs) r.

(* SPEC: all the expressions in one call *)
Definition opt_holds (f : option (crow -> bool)) (r : crow) : bool := match f with Some f => f r | None => true end.
Definition together (xs : list fargs) : fargs :=
  MkFargs (fun r => forallb (fun x => x_datums x r) xs) (Some (fun r => forallb (fun x => opt_holds (x_gts x) r) xs))
    (Some (fun r => forallb (fun x => opt_holds (x_pds x) r) xs))
    (fun c l => forallb (fun x => x_sel x c l) xs) (fun c l => forallb (fun x => x_sg x c l) xs) (fun c l => forallb (fun x => x_sp x c l) xs).

(* SPEC: two evaluators whose remaining candidates are [w] report the same numbers: the
   tables of compute_precision_recall as unordered lists of entries, every cell of the
   confusion matrices, the summary of the evaluator, and the ROC AUC where the origin of
   the curves is safe (see C59) *)
Definition same_reports (cs : list classification) (w : cview) (e1 e2 : ceval) : Prop :=
  forall d sel, expresses cs d sel ->
  cls_info d e1 = cls_info d e2 /\
  (forall tol hm thrs, few_labels cs -> thrs <> [] ->
     exists m1 m2, report_metrics e1 tol hm thrs d = Some m1 /\ report_metrics e2 tol hm thrs d = Some m2 /\
       Permutation (mt_counts m1) (mt_counts m2) /\ Permutation (mt_precision m1) (mt_precision m2) /\
       Permutation (mt_recall m1) (mt_recall m2) /\ Permutation (mt_f1 m1) (mt_f1 m2) /\
       mt_accuracy m1 = mt_accuracy m2) /\
  (forall tol9 hm thrs, thrs <> [] ->
     exists o1 o2, report_confusion e1 tol9 hm thrs d = Some o1 /\ report_confusion e2 tol9 hm thrs d = Some o2 /\
       length o1 = length o2 /\
       forall k t1 C1 U1 t2 C2 U2, nth_error o1 k = Some (t1, (C1, U1)) -> nth_error o2 k = Some (t2, (C2, U2)) ->
         t1 = t2 /\ (forall g p, cell C1 g p = cell C2 g p) /\ (forall g, sget U1 g = sget U2 g)) /\
  (forall l, In l (labels_of cs) -> safe_curve w cs e1 l -> safe_curve w cs e2 l ->
     exists v1 v2, sget (fst (report_rocauc e1)) l = Some (Some v1) /\ sget (fst (report_rocauc e2)) l = Some (Some v2) /\ (v1 == v2)%Q).
