(* Object detection metadata (SPEC, independent of the loader): the metadata of a datum,
   a ground truth or a prediction as the user gave it. *)
From Verif Require Import Prelude ClsModel DetModel DetMetaModel DetFilterSpec.
From Coq Require Import String.
Local Open Scope list_scope.

Definition orelse (a b : option value) : value := match a with Some v => v | None => match b with Some v => v | None => VNull end end.
(* SPEC: the value of field [f] of a datum, and of an annotation: its own value, or that
   of the datum *)
Definition of_datum (d : mdet) (f : string) : value := orelse (dget (mt_meta d) f) None.
Definition of_annotation (d : mdet) (a : mann) (f : string) : value := orelse (dget (ma_meta a) f) (dget (mt_meta d) f).
(* SPEC: some ground truth (prediction) has metadata under [f] *)
Definition gts_have (ds : list mdet) (f : string) : Prop := exists d a, In d ds /\ In a (mt_gts d) /\ In f (map fst (ma_meta a)).
Definition pds_have (ds : list mdet) (f : string) : Prop := exists d a, In d ds /\ In a (mt_pds d) /\ In f (map fst (ma_meta a)).
(* SPEC: a uid does not stand for different metadata *)
Definition uid_of (a : mann) : string := a_uid (ma_ann a).
Definition one_meaning (ds : list mdet) : Prop :=
  (forall d d', In d ds -> In d' ds -> mt_uid d = mt_uid d' -> mt_meta d = mt_meta d') /\
  (forall d d' a a', In d ds -> In d' ds -> In a (mt_gts d) -> In a' (mt_gts d') -> uid_of a = uid_of a' -> ma_meta a = ma_meta a') /\
  (forall d d' a a', In d ds -> In d' ds -> In a (mt_pds d) -> In a' (mt_pds d') -> uid_of a = uid_of a' -> ma_meta a = ma_meta a').

(* SPEC: the metadata of the uids named by a row: ground truth over datum, prediction
   over both *)
Definition find_meta (u : string) (l : list mann) : mdict :=
  match find (fun a => String.eqb (uid_of a) u) l with Some a => ma_meta a | None => [] end.
Definition opt_meta (o : option string) (l : list mann) : mdict := match o with Some u => find_meta u l | None => [] end.
Definition datum_meta (ds : list mdet) (u : string) : mdict :=
  match find (fun d => String.eqb (mt_uid d) u) ds with Some d => mt_meta d | None => [] end.
Definition row_meta (ds : list mdet) (r : drow) : mdict :=
  dmerge (dmerge (datum_meta ds (d_uid r)) (opt_meta (d_gt_uid r) (flat_map mt_gts ds))) (opt_meta (d_pd_uid r) (flat_map mt_pds ds)).
(* SPEC: the reserved columns of a row *)
Definition column (r : drow) (k : string) : option value :=
  let named := fun o => match o with Some s => VStr s | None => VNull end in
  if String.eqb k "datum_uid" then Some (VStr (d_uid r))
  else if String.eqb k "datum_id" then Some (VInt (d_datum r))
  else if String.eqb k "gt_uid" then Some (named (d_gt_uid r))
  else if String.eqb k "gt_id" then Some (VInt (d_gt r))
  else if String.eqb k "gt_label" then Some (named (d_gt_label r))
  else if String.eqb k "gt_label_id" then Some (VInt (d_gl r))
  else if String.eqb k "pd_uid" then Some (named (d_pd_uid r))
  else if String.eqb k "pd_id" then Some (VInt (d_pd r))
  else if String.eqb k "pd_label" then Some (named (d_pd_label r))
  else if String.eqb k "pd_label_id" then Some (VInt (d_pl r))
  else if String.eqb k "pd_score" then Some (VNum (d_score r))
  else if String.eqb k "iou" then Some (VNum (d_iou r))
  else None.
(* SPEC: the columns of a row: the reserved ones, and the metadata *)
Definition row_columns (schema : list string) (ds : list mdet) (r : drow) : mdict :=
  map (fun k => (k, match column r k with Some v => v | None => orelse (dget (row_meta ds r) k) None end)) schema.
(* SPEC: column [k] of a row satisfies [P] *)
Definition where_field (schema : list string) (ds : list mdet) (k : string) (P : value -> bool) (r : drow) : bool :=
  field k P (row_columns schema ds r).
(* SPEC: the value of [f] on a pair: the prediction's, else the ground truth's, else the
   datum's *)
Definition of_pair (d : mdet) (ga pa : mann) (f : string) : value :=
  match dget (ma_meta pa) f with Some v => v | None => of_annotation d ga f end.
(* SPEC: ground truth [g] of datum [i] / prediction [p] of datum [i] under label [v]
   is in the evaluator *)
Definition has_gt (ds : list detection) (L : list string) (e : DetFlowModel.deval) (i g : nat) : Prop :=
  exists r, In r (List.concat (DetFlowModel.de_detailed e)) /\ carries_gt ds L i g r.
Definition has_pd (ds : list detection) (L : list string) (e : DetFlowModel.deval) (i p : nat) (v : string) : Prop :=
  exists r s, In r (List.concat (DetFlowModel.de_detailed e)) /\ carries_pd ds L i p v s r.
