(* Model of the object detection Evaluator.filter and Evaluator.load life cycle: the
   filtered tables are written to fresh caches which are finalized with the label map
   of the filtered evaluator.  Definitions only. *)
From Verif Require Import Prelude CacheModel Counting ClsModel FlowModel DetModel DetFlowModel.
From Coq Require String.
Local Open Scope nat_scope.
Local Open Scope list_scope.

(* models: object_detection/shared.py:124-157 extract_labels with its override *)
Definition det_labels_of (override : option ldict) (tables : list (list drow)) : ldict :=
  match override with Some m => m | None => det_extract_labels tables end.

(* models: object_detection/evaluator.py:169-210 finalize(index_to_label_override) on
   memory writers; without override it is [dmb_finalize] *)
Definition dmb_finalize_as (unit : Z) (override : option ldict) (bs : nat) (rebatch : list drow -> list (list drow)) (b : dmb)
    : dmb * fresult deval :=
  let w := mem_flush (dmb_detailed b) in
  if Nat.eqb (length (m_table w)) 0 then (MkDMB (dmb_loader b) w (dmb_ranked b), EmptyCache)
  else
    let w2 := mem_sort_by (table_sort_by det_sorting) w in
    let tbl := mem_read w2 in
    match rank_ops unit KMem bs bs rebatch [tbl] with
    | None => (MkDMB (dmb_loader b) w2 (dmb_ranked b), SortFailed)
    | Some ops =>
        let ranked := mem_flush (fold_left (mem_step bs) ops (dmb_ranked b)) in
        (MkDMB (dmb_loader b) w2 ranked,
         Done (MkDE [tbl] [mem_read ranked] (det_labels_of override [tbl])))
    end.

(* models: object_detection/evaluator.py:169-210 on file writers; without override it
   is [dfb_finalize] *)
Definition dfb_finalize_as (unit : Z) (override : option ldict) (bs rpf : nat) (rebatch : list drow -> list (list drow)) (b : dfb)
    : dfb * fresult ldict :=
  let w := file_flush (dfb_detailed b) in
  if Nat.eqb (file_count_rows (f_dir w)) 0 then (MkDFB (dfb_loader b) w (dfb_ranked b), EmptyCache)
  else
    let w2 := file_sort_by (table_sort_by det_sorting) w in
    let tables := file_tables (f_dir w2) in
    match rank_ops unit KFile bs rpf rebatch tables with
    | None => (MkDFB (dfb_loader b) w2 (dfb_ranked b), SortFailed)
    | Some ops =>
        let ranked := file_flush (fold_left (file_step bs rpf) ops (dfb_ranked b)) in
        (MkDFB (dfb_loader b) w2 ranked, Done (det_labels_of override tables))
    end.

(* models: object_detection/evaluator.py:319-413 filter: a fresh loader, one
   write_table per (filtered) table of the detailed cache, finalize with the labels of
   the evaluator.  The memory reader has a single table. *)
Definition det_filter_mem (unit : Z) (bs : nat) (rebatch : list drow -> list (list drow)) (e : deval)
    (datums : drow -> bool) (gts pds : option (drow -> bool)) : fresult deval :=
  snd (dmb_finalize_as unit (Some (de_labels e)) bs rebatch
    (MkDMB dloader_init (fold_left (mem_step bs) (map WriteTable (det_filter_tables datums gts pds (de_detailed e))) mem_init) mem_init)).
Definition det_filter_build (unit : Z) (bs rpf : nat) (rebatch : list drow -> list (list drow)) (e : deval)
    (datums : drow -> bool) (gts pds : option (drow -> bool)) : dfb * fresult ldict :=
  dfb_finalize_as unit (Some (de_labels e)) bs rpf rebatch
    (MkDFB dloader_init (fold_left (file_step bs rpf) (map WriteTable (det_filter_tables datums gts pds (de_detailed e))) file_init) file_init).
Definition det_filter_file (unit : Z) (bs rpf : nat) (rebatch : list drow -> list (list drow)) (e : deval)
    (datums : drow -> bool) (gts pds : option (drow -> bool)) : fresult deval :=
  match det_filter_build unit bs rpf rebatch e datums gts pds with
  | (b, Done labels) => Done (dfe b labels)
  | (_, EmptyCache) => EmptyCache
  | (_, AlreadyFinalized) => AlreadyFinalized
  | (_, SortFailed) => SortFailed
  end.

(* models: object_detection/evaluator.py:249-290 load: the directories of the two
   caches are read in any listing order; labels as in extract_labels *)
Definition det_load (detailed ranked : dir drow) (override : option ldict) : deval :=
  MkDE (file_tables detailed) (file_tables ranked) (det_labels_of override (file_tables detailed)).

(* models: object_detection/shared.py:188-206 extract_groundtruth_count_per_label: the
   array has one entry per label of the map; [None] = IndexError for a label number
   beyond it *)
Definition det_gt_counts (datums : drow -> bool) (e : deval) : option (list nat) :=
  let n := length (de_labels e) in
  if forallb (fun r => (d_gt r <? 0)%Z || (d_gl r <? Z.of_nat n)%Z) (filter datums (concat (de_detailed e)))
  then Some (map (fun k => det_gt_count datums (de_detailed e) (Z.of_nat k)) (seq 0 n))
  else None.
