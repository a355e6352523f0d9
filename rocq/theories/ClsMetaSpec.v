(* Classification metadata (SPEC, independent of the loader). *)
From Verif Require Import Prelude ClsModel CacheSpec FlowModel ClsFilterModel ClsFilterSpec DetMetaModel ClsMetaModel.
From Coq Require Import String.
Local Open Scope string_scope.
Local Open Scope list_scope.

(* SPEC: the value of field [f] of a datum *)
Definition value_of (m : mcls) (f : string) : value := match dget (mc_meta m) f with Some v => v | None => VNull end.
(* SPEC: a uid does not stand for different metadata *)
Definition one_metadata (ms : list mcls) : Prop :=
  forall m m', In m ms -> In m' ms -> c_uid (mc_cls m) = c_uid (mc_cls m') -> mc_meta m = mc_meta m'.
(* SPEC: the reserved columns of a row *)
Definition c_reserved (r : crow) : mdict :=
  [("datum_uid", VStr (r_uid r)); ("datum_id", VInt (r_datum r)); ("gt_label", VStr (r_gt_label r)); ("gt_label_id", VInt (r_gt r));
   ("pd_label", VStr (r_pd_label r)); ("pd_label_id", VInt (r_pd r)); ("pd_score", VNum (r_score r));
   ("pd_winner", VBool (r_winner r)); ("match", VBool (r_match r))].
(* SPEC: the columns of a row: the reserved ones, and the metadata of the datum it names *)
Definition uid_value (ms : list mcls) (u f : string) : value :=
  match find (fun m => String.eqb (c_uid (mc_cls m)) u) ms with Some m => value_of m f | None => VNull end.
Definition c_columns (schema : list string) (ms : list mcls) (r : crow) : mdict :=
  map (fun k => (k, match dget (c_reserved r) k with Some v => v | None => uid_value ms (r_uid r) k end)) schema.
(* SPEC: column [k] of a row satisfies [P] *)
Definition c_where (schema : list string) (ms : list mcls) (k : string) (P : value -> bool) (r : crow) : bool :=
  field k P (c_columns schema ms r).
(* SPEC: the three ways to pass one expression to Evaluator.filter, and the evaluator
   that the call returns, with either back end *)
Inductive argument : Type := AsDatums | AsGroundtruths | AsPredictions.
Definition c_filtered (e : ceval) (a : argument) (F : crow -> bool) (e' : ceval) : Prop :=
  let datums := match a with AsDatums => F | _ => fun _ => true end in
  let gts := match a with AsGroundtruths => Some F | _ => None end in
  let pds := match a with AsPredictions => Some F | _ => None end in
  (exists bs rb, cls_filter_mem bs rb e datums gts pds = Done e') \/
  (exists bs rpf rb, batching_ok rb /\ cls_filter_file bs rpf rb e datums gts pds = Done e').
