(* Model of valor_lite/object_detection/utilities.py: confusion matrix with examples
   and per-datum examples.  Definitions only. *)
From Verif Require Import Prelude Counting CacheModel ClsModel DetModel.
From Coq Require Import String.
Local Open Scope nat_scope.
Local Open Scope list_scope.

(* models: object_detection/utilities.py:192-204 create_mapping: the uid (possibly
   null) in the first row carrying the id; ids below 0 have no entry.  [None] =
   KeyError *)
Definition det_datum_uid (rows : list drow) (d : Z) : option string :=
  if (0 <=? d)%Z then option_map d_uid (find (fun r => (d_datum r =? d)%Z) rows) else None.
Definition det_gt_uid (rows : list drow) (g : Z) : option (option string) :=
  if (0 <=? g)%Z then option_map d_gt_uid (find (fun r => (d_gt r =? g)%Z) rows) else None.
Definition det_pd_uid (rows : list drow) (p : Z) : option (option string) :=
  if (0 <=? p)%Z then option_map d_pd_uid (find (fun r => (d_pd r =? p)%Z) rows) else None.

(* np.unique(..., axis=0) on rows of five ids: ascending lexicographic order *)
Definition z5_leb (a b : Z * Z * Z * Z * Z) : bool :=
  let '(a1, a2, a3, a4, a5) := a in let '(b1, b2, b3, b4, b5) := b in
  lex_leb [a1; a2; a3; a4; a5] [b1; b2; b3; b4; b5].

Section DetExamples.
  Variables (eps t s : Z).
  Variable rows : list drow.

  (* models: object_detection/utilities.py:301-309 *)
  Definition unique_pairs : list (Z * Z * Z * Z * Z) :=
    isort z5_leb (dkeys z5_dec row_ids (fun r => dp_tp eps t s rows r || dp_misclf eps t s rows r) rows).
  Definition unique_alone_pds : list (Z * Z * Z) :=
    isort zzz_leb (dkeys zzz_dec pd_key (dp_unmatched_pd eps t s rows) rows).
  Definition unique_alone_gts : list (Z * Z * Z) :=
    isort zzz_leb (dkeys zzz_dec gt_key (dp_unmatched_gt eps t s rows) rows).

  (* models: object_detection/utilities.py:318-360: the examples one table appends to
     a cell; the count of the cell grows by one per example appended.  Labels are
     identified with their ids. *)
  Definition det_cell_examples (g p : Z) : list (option string * option (option string) * option (option string)) :=
    map (fun k => let '(d, gt, pd, _, _) := k in
                  (det_datum_uid rows d, det_gt_uid rows gt, det_pd_uid rows pd))
      (filter (fun k => (snd (fst k) =? g)%Z && (snd k =? p)%Z) unique_pairs).
  Definition det_alone_gt_examples (g : Z) : list (option string * option (option string)) :=
    map (fun k => (det_datum_uid rows (fst (fst k)), det_gt_uid rows (snd (fst k))))
      (filter (fun k => (snd k =? g)%Z) unique_alone_gts).
  Definition det_alone_pd_examples (p : Z) : list (option string * option (option string)) :=
    map (fun k => (det_datum_uid rows (fst (fst k)), det_pd_uid rows (snd (fst k))))
      (filter (fun k => (snd k =? p)%Z) unique_alone_pds).

  (* models: object_detection/utilities.py:207-260 unpack_examples for one datum and
     one threshold pair; fp = misclassified or unmatched, fn likewise
     (evaluator.py:681-682) *)
  Record det_example : Type := MkDEx {
    dx_tp : list (option (option string) * option (option string));
    dx_fp : list (option (option string));
    dx_fn : list (option (option string))
  }.
  Definition det_datum_example (d : Z) : det_example :=
    let mine r := (d_datum r =? d)%Z in
    MkDEx
      (map (fun k => let '(_, gt, pd, _, _) := k in (det_gt_uid rows gt, det_pd_uid rows pd))
        (isort z5_leb (dkeys z5_dec row_ids (fun r => dp_tp eps t s rows r && mine r) rows)))
      (map (fun k => det_pd_uid rows (snd (fst k)))
        (isort zzz_leb (dkeys zzz_dec pd_key
           (fun r => (dp_misclf eps t s rows r || dp_unmatched_pd eps t s rows r) && mine r) rows)))
      (map (fun k => det_gt_uid rows (snd (fst k)))
        (isort zzz_leb (dkeys zzz_dec gt_key
           (fun r => (dp_misclf eps t s rows r || dp_unmatched_gt eps t s rows r) && mine r) rows))).
End DetExamples.

(* models: object_detection/evaluator.py:739-810 compute_confusion_matrix_with_examples
   at one threshold pair: the examples of a cell over all tables *)
Definition det_eval_cell (eps t s : Z) (datums : drow -> bool) (tables : list (list drow)) (g p : Z) :=
  List.concat (map (fun tb => det_cell_examples eps t s (filter datums tb) g p) tables).
Definition det_eval_alone_gts (eps t s : Z) (datums : drow -> bool) (tables : list (list drow)) (g : Z) :=
  List.concat (map (fun tb => det_alone_gt_examples eps t s (filter datums tb) g) tables).
Definition det_eval_alone_pds (eps t s : Z) (datums : drow -> bool) (tables : list (list drow)) (p : Z) :=
  List.concat (map (fun tb => det_alone_pd_examples eps t s (filter datums tb) p) tables).

(* models: object_detection/evaluator.py:638-706 compute_examples on the page
   [tables] returned by paginate_index: per datum (ascending id inside a table), IoU
   threshold and score threshold *)
Definition det_eval_examples (eps : Z) (ious scores : list Z) (tables : list (list drow))
    : list (option string * Z * Z * det_example) :=
  List.concat (map (fun tb =>
    List.concat (map (fun d =>
      List.concat (map (fun t =>
        map (fun s => (det_datum_uid tb d, t, s, det_datum_example eps t s tb d)) scores) ious))
      (isort Z.leb (nodup Z.eq_dec (map d_datum tb))))) tables).
