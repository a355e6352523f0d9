(* Model of the confusion matrices and of the pages of examples of the object detection
   evaluator, as the dictionaries handed to the user.  Definitions only. *)
From Verif Require Import Prelude CacheModel Counting ClsModel DetModel DetExModel DetFlowModel DetReportModel ClsCellModel.
From Coq Require Import String.
Local Open Scope nat_scope.
Local Open Scope list_scope.

(* a key of a label dictionary: a value of index_to_label *)
Notation lkey := (option string).
Definition lkey_eqb (a b : lkey) : bool :=
  match a, b with Some x, Some y => String.eqb x y | None, None => true | _, _ => false end.
(* d[k] = f(d[k]); [None] is the KeyError *)
Fixpoint lupd {V} (d : list (lkey * V)) (k : lkey) (f : V -> option V) : option (list (lkey * V)) :=
  match d with
  | [] => None
  | (k', v) :: t =>
      if lkey_eqb k k' then match f v with Some v' => Some ((k', v') :: t) | None => None end
      else match lupd t k f with Some t' => Some ((k', v) :: t') | None => None end
  end.

(* ------------------------------------------------------------------ *)
(** * Counts *)

(* models: object_detection/metric.py Metric.confusion_matrix: the three dictionaries *)
Record dcounts : Type := MkDCounts {
  dc_cells : list (lkey * list (lkey * nat));
  dc_gts : list (lkey * nat);
  dc_pds : list (lkey * nat) }.
(* models: object_detection/utilities.py:153-188 unpack_confusion_matrix, one threshold
   pair; the values of index_to_label are pairwise distinct (C103_labels) *)
Definition det_counts_of (labels : ldict) (M : dconf) : dcounts :=
  MkDCounts (map (fun kv => (snd kv, map (fun pv => (snd pv, dm M (fst kv) (fst pv))) labels)) labels)
    (map (fun kv => (snd kv, dm_gt M (fst kv))) labels)
    (map (fun kv => (snd kv, dm_pd M (fst kv))) labels).
(* models: object_detection/evaluator.py:538-602 compute_confusion_matrix; [None] is the
   ValueError for an empty list of thresholds *)
Definition det_confusion_metrics (eps : Z) (ious scores : list Z) (datums : drow -> bool) (e : deval) : option (list (Z * Z * dcounts)) :=
  match ious, scores with
  | [], _ | _, [] => None
  | _, _ => Some (flat_map (fun t => map (fun s => (t, s, det_counts_of (de_labels e) (rep_matrix eps e datums t s))) scores) ious)
  end.

(* ------------------------------------------------------------------ *)
(** * Examples *)

(* models: object_detection/evaluator.py:604-705 compute_examples *)
Definition det_examples (eps : Z) (ious scores : list Z) (datums : drow -> bool) (limit : option nat) (offset : nat) (e : deval)
    : option (list (option string * Z * Z * det_example)) :=
  match ious, scores with
  | [], _ | _, [] => None
  | _, _ => Some (det_eval_examples eps ious scores (paginate_index d_datum datums limit offset (de_detailed e)))
  end.

(* models: object_detection/metric.py Metric.confusion_matrix_with_examples *)
Record dcmx : Type := MkDCmx {
  dx_cells : list (lkey * list (lkey * cell (string * option string * option string)));
  dx_gts : list (lkey * cell (string * option string));
  dx_pds : list (lkey * cell (string * option string)) }.

(* models: object_detection/utilities.py:263-285 create_empty_confusion_matrix_with_examples;
   [names] are the values of index_to_label *)
Definition empty_dcmx (names : list lkey) : dcmx :=
  MkDCmx (map (fun g => (g, map (fun p => (p, (0, []))) names)) names)
    (map (fun g => (g, (0, []))) names) (map (fun g => (g, (0, []))) names).

Section Fill.
  Variables (eps t s : Z) (labels : ldict) (rows : list drow).
  (* the label and the example for a row of the three lists of unique ids; [None] is a
     KeyError in one of the dictionaries *)
  (* models: object_detection/utilities.py:322-334 *)
  Definition lone_gt_entry (k : Z * Z * Z) : option (lkey * (string * option string)) :=
    match ldict_get labels (snd k), det_datum_uid rows (fst (fst k)), det_gt_uid rows (snd (fst k)) with
    | Some l, Some u, Some g => Some (l, (u, g))
    | _, _, _ => None
    end.
  (* models: object_detection/utilities.py:335-348 *)
  Definition lone_pd_entry (k : Z * Z * Z) : option (lkey * (string * option string)) :=
    match ldict_get labels (snd k), det_datum_uid rows (fst (fst k)), det_pd_uid rows (snd (fst k)) with
    | Some l, Some u, Some p => Some (l, (u, p))
    | _, _, _ => None
    end.
  (* models: object_detection/utilities.py:349-367 *)
  Definition match_entry (k : Z * Z * Z * Z * Z) : option (lkey * lkey * (string * option string * option string)) :=
    let '(d, gt, pd, gl, pl) := k in
    match ldict_get labels gl, ldict_get labels pl, det_datum_uid rows d, det_gt_uid rows gt, det_pd_uid rows pd with
    | Some l, Some l', Some u, Some g, Some p => Some (l, l', (u, g, p))
    | _, _, _, _, _ => None
    end.
  Definition add_lone_gt (M : dcmx) (k : Z * Z * Z) : option dcmx :=
    match lone_gt_entry k with
    | Some (l, x) => match lupd (dx_gts M) l (bump x) with Some d => Some (MkDCmx (dx_cells M) d (dx_pds M)) | None => None end
    | None => None
    end.
  Definition add_lone_pd (M : dcmx) (k : Z * Z * Z) : option dcmx :=
    match lone_pd_entry k with
    | Some (l, x) => match lupd (dx_pds M) l (bump x) with Some d => Some (MkDCmx (dx_cells M) (dx_gts M) d) | None => None end
    | None => None
    end.
  Definition add_matched (M : dcmx) (k : Z * Z * Z * Z * Z) : option dcmx :=
    match match_entry k with
    | Some (l, l', x) =>
        match lupd (dx_cells M) l (fun row => lupd row l' (bump x)) with Some d => Some (MkDCmx d (dx_gts M) (dx_pds M)) | None => None end
    | None => None
    end.
  (* if idx < n: ... *)
  Definition at_index {K} (l : list K) (idx : nat) (f : dcmx -> K -> option dcmx) (M : dcmx) : option dcmx :=
    match nth_error l idx with Some k => f M k | None => Some M end.
  (* models: object_detection/utilities.py:321-367, one iteration of the loop *)
  Definition dcmx_step (M : dcmx) (idx : nat) : option dcmx :=
    obind (obind (at_index (unique_alone_gts eps t s rows) idx add_lone_gt M)
      (at_index (unique_alone_pds eps t s rows) idx add_lone_pd))
      (at_index (unique_pairs eps t s rows) idx add_matched).
  (* models: object_detection/utilities.py:288-369 for one table and one threshold pair *)
  Definition dcmx_table (M : dcmx) : option dcmx :=
    fold_left (fun o idx => obind o (fun M => dcmx_step M idx))
      (seq 0 (Nat.max (List.length (unique_pairs eps t s rows))
        (Nat.max (List.length (unique_alone_gts eps t s rows)) (List.length (unique_alone_pds eps t s rows))))) (Some M).
End Fill.

(* models: object_detection/evaluator.py:708-810 compute_confusion_matrix_with_examples.
   The Python loop runs over tables and inside over threshold pairs; the metrics of
   different pairs share no state, so here each pair runs over the tables.  Tables without
   rows contribute nothing.  Ids below 2^31 survive the cast to int32. *)
Definition det_cmx (eps t s : Z) (datums : drow -> bool) (e : deval) : option dcmx :=
  fold_left (fun o tb => obind o (dcmx_table eps t s (de_labels e) (filter datums tb))) (de_detailed e)
    (Some (empty_dcmx (map snd (de_labels e)))).
Definition det_confusion_examples (eps : Z) (ious scores : list Z) (datums : drow -> bool) (e : deval) : option (list (Z * Z * option dcmx)) :=
  match ious, scores with
  | [], _ | _, [] => None
  | _, _ => Some (flat_map (fun t => map (fun s => (t, s, det_cmx eps t s datums e)) scores) ious)
  end.
