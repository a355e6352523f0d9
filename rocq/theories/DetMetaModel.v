(* Model of the metadata of object detection data: the dictionaries written by the
   loader, the columns kept by the schema, and the filter on them.  Definitions only. *)
From Verif Require Import Prelude CacheModel ClsModel FlowModel DetModel.
From Coq Require Import String.
Local Open Scope string_scope.
Local Open Scope list_scope.

(* cell values; only filter expressions look at metadata values *)
Inductive value : Type := VStr (s : string) | VInt (z : Z) | VNum (z : Z) | VBool (b : bool) | VNull.
Definition value_dec (a b : value) : {a = b} + {a <> b}.
Proof. decide equality; (apply string_dec || apply Z.eq_dec || apply Bool.bool_dec). Defined.

(* dictionaries: the first binding of a key counts *)
Notation mdict := (list (string * value)).
Definition dget (m : mdict) (k : string) : option value :=
  option_map snd (find (fun kv => String.eqb k (fst kv)) m).
(* {**a, **b}: b wins *)
Definition dmerge (a b : mdict) : mdict := b ++ a.

(* models: object_detection/annotation.py:9-238 with the metadata attribute; None and
   {} behave alike ("x.metadata if x.metadata else {}") *)
Record mann : Type := MkMAnn { ma_ann : annotation; ma_meta : mdict }.
Record mdet : Type := MkMDet {
  mt_uid : string;
  mt_gts : list mann;
  mt_pds : list mann;
  mt_iou : nat -> nat -> Z;
  mt_meta : mdict
}.
(* the same data without metadata *)
Definition plain (d : mdet) : detection := MkDet (mt_uid d) (map ma_ann (mt_gts d)) (map ma_ann (mt_pds d)) (mt_iou d).

Definition vstr (o : option string) : value := match o with Some s => VStr s | None => VNull end.
(* the reserved entries of a row, object_detection/loader.py:75-89, 103-118, 131-146, 164-179 *)
Definition reserved (r : drow) : mdict :=
  [("datum_uid", VStr (d_uid r)); ("datum_id", VInt (d_datum r));
   ("gt_uid", vstr (d_gt_uid r)); ("gt_id", VInt (d_gt r)); ("gt_label", vstr (d_gt_label r)); ("gt_label_id", VInt (d_gl r));
   ("pd_uid", vstr (d_pd_uid r)); ("pd_id", VInt (d_pd r)); ("pd_label", vstr (d_pd_label r)); ("pd_label_id", VInt (d_pl r));
   ("pd_score", VNum (d_score r)); ("iou", VNum (d_iou r))].

(* models: object_detection/shared.py:39-70 generate_detailed_schema: names of the
   columns; [None] = ValueError *)
Definition det_reserved : list string :=
  ["datum_uid"; "datum_id"; "gt_uid"; "gt_id"; "gt_label"; "gt_label_id"; "pd_uid"; "pd_id"; "pd_label"; "pd_label_id"; "pd_score"; "iou"].
Definition det_schema (fields : list (string * string)) : option (list string) := generate_schema det_reserved fields.

(* pa.RecordBatch.from_pylist(rows, schema): the columns of the schema, null if the
   dictionary lacks them; other keys are dropped (cache/ephemeral.py:190,
   persistent.py write_rows) *)
Definition stored (schema : list string) (x : mdict) : mdict :=
  map (fun k => (k, match dget x k with Some v => v | None => VNull end)) schema.

Section MLoader.
  Variable eps : Z.

  (* models: object_detection/loader.py:16-39 *)
  Record mloader : Type := MkML {
    ml_labels : list string;
    ml_datums : nat;
    ml_gts : nat;
    ml_pds : nat;
    ml_writes : list (list mdict)
  }.
  Definition mloader_init : mloader := MkML [] 0 0 0 [].
  Notation macc := (list string * list mdict)%type.

  Section Datum.
    Variable det : mdet.
    Variables (datum gt_base pd_base : nat).
    Notation dp := (plain det).

    (* models: object_detection/loader.py:70-90 *)
    Definition m_row_gt (g : nat) (ga : mann) (gl : string) (gi : nat) : mdict :=
      dmerge (dmerge (mt_meta det) (ma_meta ga)) (reserved (row_gt dp datum gt_base g (ma_ann ga) gl gi)).
    (* models: object_detection/loader.py:97-121 and 159-183 *)
    Definition m_row_pd (p : nat) (pa : mann) (pl : string) (pi : nat) (s : Z) : mdict :=
      dmerge (dmerge (mt_meta det) (ma_meta pa)) (reserved (row_pd dp datum pd_base p (ma_ann pa) pl pi s)).
    (* models: object_detection/loader.py:125-150 *)
    Definition m_row_pair (g : nat) (ga : mann) (gl : string) (gi : nat) (p : nat) (pa : mann) (pl : string) (pi : nat) (s : Z) : mdict :=
      dmerge (dmerge (dmerge (mt_meta det) (ma_meta ga)) (ma_meta pa))
        (reserved (row_pair dp datum gt_base pd_base g (ma_ann ga) gl gi p (ma_ann pa) pl pi s)).

    Definition m_emit_pd (p : nat) (pa : mann) (a : macc) : macc :=
      fold_left (fun (a : macc) (ls : string * Z) =>
        let '(labels, rows) := a in
        let '(labels1, pi) := add_label labels (fst ls) in
        (labels1, rows ++ [m_row_pd p pa (fst ls) pi (snd ls)]))
        (combine (a_labels (ma_ann pa)) (a_scores (ma_ann pa))) a.
    Definition m_emit_pair (g : nat) (ga : mann) (p : nat) (pa : mann) (a : macc) : macc :=
      fold_left (fun (a : macc) (gl : string) =>
        fold_left (fun (a : macc) (ls : string * Z) =>
          let '(labels, rows) := a in
          let '(labels1, gi) := add_label labels gl in
          let '(labels2, pi) := add_label labels1 (fst ls) in
          (labels2, rows ++ [m_row_pair g ga gl gi p pa (fst ls) pi (snd ls)]))
          (combine (a_labels (ma_ann pa)) (a_scores (ma_ann pa))) a)
        (a_labels (ma_ann ga)) a.
    (* models: object_detection/loader.py:91-150 *)
    Definition m_emit_gt_pds (g : nat) (ga : mann) (a : macc) : macc :=
      fold_left (fun (a : macc) (ip : nat * mann) =>
        let a1 := if pd_alone eps dp (fst ip) then m_emit_pd (fst ip) (snd ip) a else a in
        if (eps <=? mt_iou det (fst ip) g)%Z then m_emit_pair g ga (fst ip) (snd ip) a1 else a1)
        (enum (mt_pds det)) a.
    (* models: object_detection/loader.py:63-150 *)
    Definition m_emit_gt (a : option macc) (ig : nat * mann) : option macc :=
      match a, a_labels (ma_ann (snd ig)) with
      | Some (labels, rows), gl :: _ =>
          let '(labels1, gi) := add_label labels gl in
          let rows1 := if gt_alone eps dp (fst ig) then rows ++ [m_row_gt (fst ig) (snd ig) gl gi] else rows in
          Some (m_emit_gt_pds (fst ig) (snd ig) (labels1, rows1))
      | _, _ => None
      end.
    (* models: object_detection/loader.py:58-183 *)
    Definition m_emit_datum (labels : list string) : option macc :=
      match mt_gts det with
      | _ :: _ => fold_left m_emit_gt (enum (mt_gts det)) (Some (labels, []))
      | [] => Some (fold_left (fun (a : macc) (ip : nat * mann) => m_emit_pd (fst ip) (snd ip) a)
                      (enum (mt_pds det)) (labels, []))
      end.
  End Datum.

  (* models: object_detection/loader.py:55-189, one iteration; the rows are stored under
     the schema of the writer *)
  Definition m_add_detection (schema : list string) (l : mloader) (d : mdet) : option mloader :=
    match m_emit_datum d (ml_datums l) (ml_gts l) (ml_pds l) (ml_labels l) with
    | None => None
    | Some (labels, rows) =>
        Some (MkML labels (S (ml_datums l))
                (ml_gts l + List.length (mt_gts d)) (ml_pds l + List.length (mt_pds d))
                (ml_writes l ++ match rows with [] => [] | _ :: _ => [map (stored schema) rows] end))
    end.
  (* models: object_detection/loader.py:49-192 *)
  Fixpoint m_add_detections (schema : list string) (l : mloader) (ds : list mdet) : option mloader :=
    match ds with
    | [] => Some l
    | d :: t => match m_add_detection schema l d with
                | Some l' => m_add_detections schema l' t
                | None => None
                end
    end.
End MLoader.

(* an expression on one column: pc.field(k) compared in some way; a stored row has the
   columns of the schema (another column: pyarrow raises) *)
Definition field (k : string) (P : value -> bool) (x : mdict) : bool :=
  match dget x k with Some v => P v | None => false end.

(* ------------------------------------------------------------------ *)
(** * Filter *)

(* equal rows in three columns *)
Definition agree (ks : list string) (x y : mdict) : bool :=
  forallb (fun k => match dget x k, dget y k with
                    | Some a, Some b => if value_dec a b then true else false
                    | _, _ => false
                    end) ks.
Definition negative (k : string) (x : mdict) : bool :=
  match dget x k with Some (VInt z) => (z <? 0)%Z | _ => false end.
(* models: object_detection/evaluator.py:387-404: the columns that are overwritten *)
Definition m_filter_row (vg vp : bool) (x : mdict) : mdict :=
  map (fun kv => (fst kv,
    if String.eqb (fst kv) "gt_id" || String.eqb (fst kv) "gt_label_id" then (if vg then snd kv else VInt (-1))
    else if String.eqb (fst kv) "pd_id" || String.eqb (fst kv) "pd_label_id" then (if vp then snd kv else VInt (-1))
    else if String.eqb (fst kv) "pd_score" then (if vp then snd kv else VNum (-1))
    else if String.eqb (fst kv) "iou" then (if vg && vp then snd kv else VNum 0)
    else snd kv)) x.
(* models: object_detection/evaluator.py:341-408, one table *)
Definition m_filter_table (gts pds : option (mdict -> bool)) (tb : list mdict) : list mdict :=
  let valid_gt r := match gts with None => true | Some f => existsb (agree ["datum_id"; "gt_id"; "gt_label_id"] r) (filter f tb) end in
  let valid_pd r := match pds with None => true | Some f => existsb (agree ["datum_id"; "pd_id"; "pd_label_id"] r) (filter f tb) end in
  filter (fun r => negb (negative "gt_id" r && negative "pd_id" r))
    (map (fun r => m_filter_row (valid_gt r) (valid_pd r) r)
       (filter (fun r => valid_gt r || valid_pd r) tb)).
Definition m_filter_tables (datums : mdict -> bool) (gts pds : option (mdict -> bool)) (tables : list (list mdict)) : list (list mdict) :=
  map (fun tb => m_filter_table gts pds (filter datums tb)) tables.
