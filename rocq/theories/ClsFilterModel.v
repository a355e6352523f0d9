(* Model of the classification Evaluator.filter, Evaluator.load and Evaluator.get_info
   life cycle: the filtered tables are written to fresh caches which are finalized with
   the label map of the filtered evaluator.  Definitions only. *)
From Verif Require Import Prelude CacheModel Counting ClsModel RocModel FlowModel.
From Coq Require Import QArith.
Local Open Scope nat_scope.
Local Open Scope list_scope.

(* models: classification/evaluator.py:321-333 Evaluator.__init__: what the two readers
   deliver and the label map; memory readers deliver a single table *)
Record ceval : Type := MkCE { ce_tables : list (list crow); ce_curve : list (list cpoint); ce_labels : dict }.
Definition ce_mem (e : mevaluator) : ceval := MkCE [me_table e] [me_curve e] (me_labels e).
Definition ce_file (b : fbuilder) (labels : dict) : ceval := MkCE (fe_tables b) (fe_curve b) labels.

(* models: classification/shared.py:98-131 extract_labels with its override *)
Definition cls_labels_of (override : option dict) (tables : list (list crow)) : dict :=
  match override with Some m => m | None => extract_labels tables end.

(* models: classification/evaluator.py:261-318 finalize(index_to_label_override) on
   memory writers; without override it is [mb_finalize] *)
Definition mb_finalize_as (override : option dict) (bs : nat) (rebatch : list irow -> list (list irow)) (b : mbuilder)
    : mbuilder * fresult mevaluator :=
  let w := mem_flush (mb_writer b) in
  let b1 := MkMB (mb_labels b) (mb_count b) w (mb_inter b) (mb_curve b) in
  if Nat.eqb (length (m_table w)) 0 then (b1, EmptyCache)
  else if Nat.ltb 0 (length (m_table (mb_curve b))) then (b1, AlreadyFinalized)
  else
    let w2 := mem_sort_by (table_sort_by cls_sorting) w in
    let tbl := mem_read w2 in
    let labels := cls_labels_of override [tbl] in
    match sort_ops KMem bs bs roc_sorting (table_sort_by roc_sorting) rebatch [map project tbl] with
    | None => (MkMB (mb_labels b) (mb_count b) w2 (mb_inter b) (mb_curve b), SortFailed)
    | Some ops =>
        let inter := mem_flush (fold_left (mem_step bs) ops (mb_inter b)) in
        let curve := roc_curve (label_keys labels) [mem_read inter] in
        let cw := mem_flush (fold_left (mem_step bs) (curve_ops curve) (mb_curve b)) in
        (MkMB (mb_labels b) (mb_count b) w2 inter cw, Done (MkME tbl (mem_read cw) labels))
    end.

(* models: classification/evaluator.py:261-318 on file writers; without override it is
   [fb_finalize] *)
Definition fb_finalize_as (override : option dict) (bs rpf : nat) (rebatch : list irow -> list (list irow)) (b : fbuilder)
    : fbuilder * fresult dict :=
  let w := file_flush (fb_writer b) in
  let b1 := MkFB (fb_labels b) (fb_count b) w (fb_inter b) (fb_curve b) in
  if Nat.eqb (file_count_rows (f_dir w)) 0 then (b1, EmptyCache)
  else if Nat.ltb 0 (file_count_rows (f_dir (fb_curve b))) then (b1, AlreadyFinalized)
  else
    let w2 := file_sort_by (table_sort_by cls_sorting) w in
    let tables := file_tables (f_dir w2) in
    let labels := cls_labels_of override tables in
    match sort_ops KFile bs rpf roc_sorting (table_sort_by roc_sorting) rebatch (map (map project) tables) with
    | None => (MkFB (fb_labels b) (fb_count b) w2 (fb_inter b) (fb_curve b), SortFailed)
    | Some ops =>
        let inter := file_flush (fold_left (file_step bs rpf) ops (fb_inter b)) in
        let curve := roc_curve (label_keys labels) (file_tables (f_dir inter)) in
        let cw := file_flush (fold_left (file_step bs rpf) (curve_ops curve) (fb_curve b)) in
        (MkFB (fb_labels b) (fb_count b) w2 inter cw, Done labels)
    end.

(* models: classification/evaluator.py:404-497 filter: a fresh loader, one write_table
   per (filtered) table of the cache, finalize with the labels of the evaluator *)
Definition cls_filter_mem (bs : nat) (rebatch : list irow -> list (list irow)) (e : ceval)
    (datums : crow -> bool) (gts pds : option (crow -> bool)) : fresult ceval :=
  match snd (mb_finalize_as (Some (ce_labels e)) bs rebatch
    (MkMB [] 0 (fold_left (mem_step bs) (map WriteTable (filter_tables datums gts pds (ce_tables e))) mem_init) mem_init mem_init)) with
  | Done m => Done (ce_mem m)
  | EmptyCache => EmptyCache
  | AlreadyFinalized => AlreadyFinalized
  | SortFailed => SortFailed
  end.
Definition cls_filter_build (bs rpf : nat) (rebatch : list irow -> list (list irow)) (e : ceval)
    (datums : crow -> bool) (gts pds : option (crow -> bool)) : fbuilder * fresult dict :=
  fb_finalize_as (Some (ce_labels e)) bs rpf rebatch
    (MkFB [] 0 (fold_left (file_step bs rpf) (map WriteTable (filter_tables datums gts pds (ce_tables e))) file_init) file_init file_init).
Definition cls_filter_file (bs rpf : nat) (rebatch : list irow -> list (list irow)) (e : ceval)
    (datums : crow -> bool) (gts pds : option (crow -> bool)) : fresult ceval :=
  match cls_filter_build bs rpf rebatch e datums gts pds with
  | (b, Done labels) => Done (ce_file b labels)
  | (_, EmptyCache) => EmptyCache
  | (_, AlreadyFinalized) => AlreadyFinalized
  | (_, SortFailed) => SortFailed
  end.

(* models: classification/evaluator.py:352-402 load: the directories of the two caches
   are read in any listing order; labels as in extract_labels *)
Definition cls_load (rows : dir crow) (curve : dir cpoint) (override : option dict) : ceval :=
  MkCE (file_tables rows) (file_tables curve) (cls_labels_of override (file_tables rows)).

(* models: classification/evaluator.py:334-351 info, get_info (metadata_fields omitted):
   (number_of_rows, number_of_labels, number_of_datums) *)
Definition cls_info (datums : crow -> bool) (e : ceval) : nat * nat * nat :=
  (length (concat (ce_tables e)), length (ce_labels e), extract_counts datums (ce_tables e)).

(* models: classification/shared.py:144-184 extract_groundtruth_count_per_label as called
   by compute_rocauc: the array has one entry per label of the map; [None] = IndexError
   for a label number beyond it *)
Definition cls_label_counts (e : ceval) : option (list (nat * nat)) :=
  let n := length (ce_labels e) in
  if forallb (fun r => (r_gt r <? Z.of_nat n)%Z && (r_pd r <? Z.of_nat n)%Z) (concat (ce_tables e))
  then Some (map (fun i => (gt_count_label (ce_tables e) (Z.of_nat i), pd_count_label (ce_tables e) (Z.of_nat i))) (seq 0 n))
  else None.

(* models: classification/evaluator.py:524-567 compute_rocauc of an evaluator *)
Definition cls_rocauc (e : ceval) : list Q := compute_rocauc (length (ce_labels e)) (ce_tables e) (ce_curve e).
(* models: classification/evaluator.py:569-627 compute_precision_recall: the counts *)
Definition cls_counts (tol : Z) (hardmax : bool) (thrs : list Z) (datums : crow -> bool) (e : ceval) : list (list counts) :=
  evaluate_counts tol hardmax thrs (length (ce_labels e)) datums (ce_tables e).
(* the accuracy of compute_precision_recall at one threshold *)
Definition cls_accuracy (tol : Z) (hardmax : bool) (thr : Z) (datums : crow -> bool) (e : ceval) : Q :=
  reported_accuracy tol hardmax (length (ce_labels e)) datums (ce_tables e) thr.
(* models: classification/evaluator.py:629-695 compute_confusion_matrix: the counts *)
Definition cls_confusion (tol9 : Z) (hardmax : bool) (thrs : list Z) (datums : crow -> bool) (e : ceval) : list confusion :=
  evaluate_confusion tol9 hardmax thrs datums (ce_tables e).
