(* Model of valor_lite/classification: loader, labels, counts, metrics,
   confusion matrix, filtering.  Definitions only.
   Numbers: label and datum ids are Z; scores, thresholds and tolerances are Z
   in a fixed unit (every finite double is an integer multiple of 2^-1074); they
   are only compared. *)
From Verif Require Import Prelude Counting.
From Coq Require Import String QArith.
Local Open Scope nat_scope.
Local Open Scope list_scope.

(* ------------------------------------------------------------------ *)
(** * Input and rows *)

(* models: classification/annotation.py:7-45 (without metadata, which only user filter
   expressions read; the rows with metadata are in ClsMetaModel.v) *)
Record classification : Type := MkCls {
  c_uid : string;
  c_groundtruth : string;
  c_predictions : list string;
  c_scores : list Z
}.

(* models: classification/annotation.py:39-45 __post_init__ length check *)
Definition cls_valid (c : classification) : bool :=
  Nat.eqb (List.length (c_predictions c)) (List.length (c_scores c)).

(* models: classification/shared.py:36-62, the reserved columns *)
Record crow : Type := MkRow {
  r_uid : string;
  r_datum : Z;
  r_gt_label : string;
  r_gt : Z;
  r_pd_label : string;
  r_pd : Z;
  r_score : Z;
  r_winner : bool;
  r_match : bool
}.

(* ------------------------------------------------------------------ *)
(** * Label registry, shared by the classification, object detection and
      segmentation loaders *)

(* position of a value in the registry *)
Fixpoint index_of (v : string) (labels : list string) : option nat :=
  match labels with
  | [] => None
  | x :: t => if String.eqb v x then Some 0 else option_map S (index_of v t)
  end.

(* models: classification/loader.py:31-37 _add_label; the two dictionaries
   _labels and _index_to_label are one list, the index being the position
   (identical code: object_detection/loader.py:41-47,
   semantic_segmentation/loader.py:27-33) *)
Definition add_label (labels : list string) (v : string) : list string * nat :=
  match index_of v labels with
  | Some i => (labels, i)
  | None => (labels ++ [v], List.length labels)
  end.

(* ------------------------------------------------------------------ *)
(** * Loader *)

(* np.argmax: index of the first maximum *)
Fixpoint argmax_from (best : Z) (besti i : nat) (l : list Z) : nat :=
  match l with
  | [] => besti
  | x :: t => if (best <? x)%Z then argmax_from x i (S i) t else argmax_from best besti (S i) t
  end.
Definition argmax (l : list Z) : nat :=
  match l with [] => 0 | x :: t => argmax_from x 0 1 t end.

(* models: classification/loader.py:15-29 internal state; [ld_writes] is the
   sequence of write_rows calls on the writer *)
Record loader : Type := MkLoader {
  ld_labels : list string;
  ld_count : nat;
  ld_writes : list (list crow)
}.
Definition loader_init : loader := MkLoader [] 0 [].

(* models: classification/loader.py:70-92, the loop over enumerate(zip(predictions, scores)) *)
Fixpoint build_rows (c : classification) (datum : nat) (gidx mx i : nat)
    (labels : list string) (ps : list (string * Z)) : list string * list crow :=
  match ps with
  | [] => (labels, [])
  | (pl, s) :: t =>
      let '(labels1, pidx) := add_label labels pl in
      let '(labels2, rows) := build_rows c datum gidx mx (S i) labels1 t in
      (labels2,
       MkRow (c_uid c) (Z.of_nat datum) (c_groundtruth c) (Z.of_nat gidx) pl (Z.of_nat pidx) s
             (Nat.eqb mx i) (Nat.eqb gidx pidx) :: rows)
  end.

(* models: classification/loader.py:56-97, one iteration of add_data; [None] is
   the ValueError for empty predictions *)
Definition add_one (l : loader) (c : classification) : option loader :=
  match c_predictions c with
  | [] => None
  | _ :: _ =>
      let '(labels1, gidx) := add_label (ld_labels l) (c_groundtruth c) in
      let mx := argmax (c_scores c) in
      let '(labels2, rows) :=
        build_rows c (ld_count l) gidx mx 0 labels1 (combine (c_predictions c) (c_scores c)) in
      Some (MkLoader labels2 (S (ld_count l)) (ld_writes l ++ [rows]))
  end.

(* models: classification/loader.py:39-97 add_data; an exception leaves the data
   added so far in place ([false] = ValueError) *)
Fixpoint add_data (l : loader) (cs : list classification) : loader * bool :=
  match cs with
  | [] => (l, true)
  | c :: t => match add_one l c with
              | Some l' => add_data l' t
              | None => (l, false)
              end
  end.

(* ------------------------------------------------------------------ *)
(** * Labels and counts extracted from the stored rows *)

(* Python dict from ids to labels: insertion ordered, one entry per key *)
Definition dict := list (Z * string).
Fixpoint dict_get (d : dict) (k : Z) : option string :=
  match d with
  | [] => None
  | (k', v) :: t => if (k =? k')%Z then Some v else dict_get t k
  end.
Fixpoint dict_set (d : dict) (k : Z) (v : string) : dict :=
  match d with
  | [] => [(k, v)]
  | (k', v') :: t => if (k =? k')%Z then (k, v) :: t else (k', v') :: dict_set t k v
  end.
Definition dict_update (d d' : dict) : dict :=
  fold_left (fun acc kv => dict_set acc (fst kv) (snd kv)) d' d.
Definition dict_pop (d : dict) (k : Z) : dict := filter (fun kv => negb (fst kv =? k)%Z) d.

(* np.unique(ids, return_index=True) with the labels taken at these indices:
   ascending ids, each with the label of its first occurrence *)
Definition first_label (idc : crow -> Z) (lbc : crow -> string) (t : list crow) (k : Z) : string :=
  match find (fun r => (idc r =? k)%Z) t with
  | Some r => lbc r
  | None => EmptyString   (* unreachable: k is taken from the column *)
  end.
Definition unique_ids (idc : crow -> Z) (t : list crow) : list Z :=
  isort Z.leb (nodup Z.eq_dec (map idc t)).
Definition table_labels (idc : crow -> Z) (lbc : crow -> string) (t : list crow) : dict :=
  dict_pop (map (fun k => (k, first_label idc lbc t k)) (unique_ids idc t)) (-1).

(* models: classification/shared.py:98-131 extract_labels without override *)
Definition extract_labels (tables : list (list crow)) : dict :=
  fold_left
    (fun d t => dict_update (dict_update d (table_labels r_gt r_gt_label t))
                            (table_labels r_pd r_pd_label t))
    tables [].

(* models: classification/shared.py:134-141 extract_counts with a datum filter *)
Definition extract_counts (datums : crow -> bool) (tables : list (list crow)) : nat :=
  list_sum_nat (map (fun t => List.length (nodup Z.eq_dec (map r_datum (filter datums t)))) tables).

(* models: classification/shared.py:144-184 extract_groundtruth_count_per_label
   (no filters): ground-truth and prediction count of label [l] *)
Definition gt_count_label (tables : list (list crow)) (l : Z) : nat :=
  list_sum_nat (map (fun t =>
    countb (fun k => (snd k =? l)%Z)
      (dkeys zz_dec (fun r => (r_datum r, r_gt r)) (fun r => (0 <=? r_gt r)%Z) t)) tables).
Definition pd_count_label (tables : list (list crow)) (l : Z) : nat :=
  list_sum_nat (map (fun t =>
    countb (fun k => (snd k =? l)%Z)
      (dkeys zz_dec (fun r => (r_datum r, r_pd r)) (fun r => (0 <=? r_pd r)%Z) t)) tables).

(* ------------------------------------------------------------------ *)
(** * Counts *)

(* np.isclose on the integer label columns with rtol=1e-5, atol=1e-8:
   |a - b| <= 1e-8 + 1e-5 * |b| *)
Definition isclose_label (a b : Z) : bool :=
  (100000000 * Z.abs (a - b) <=? 1 + 1000 * Z.abs b)%Z.

Section Counts.
  Variable tol : Z.        (* atol = 1e-8 of np.isclose(scores, 0.0), computation.py:136 *)
  Variable hardmax : bool.

  (* models: classification/computation.py:135-139 and 143-147: the masks *)
  Definition m_match (r : crow) : bool := isclose_label (r_gt r) (r_pd r).
  Definition m_score (thr : Z) (r : crow) : bool :=
    (tol <? Z.abs (r_score r))%Z && (thr <=? r_score r)%Z && (if hardmax then r_winner r else true).

  (* models: classification/computation.py:149-155 *)
  Definition m_tp thr r := m_match r && m_score thr r.
  Definition m_fp_raw thr r := negb (m_match r) && m_score thr r.
  Definition m_fn thr r :=
    ((m_match r && negb (m_score thr r)) || m_fp_raw thr r) && (0 <=? r_gt r)%Z.
  Definition m_tn thr r := negb (m_match r) && negb (m_score thr r).
  Definition m_fp thr r := m_fp_raw thr r && (0 <=? r_pd r)%Z.

  Record counts : Type := MkCounts { n_tp : nat; n_fp : nat; n_fn : nat; n_tn : nat }.

  (* models: classification/computation.py:157-167 at one threshold and label.
     np.bincount raises for negative entries; the loader never produces any. *)
  Definition counts_at (thr : Z) (rows : list crow) (l : Z) : counts :=
    MkCounts
      (countb (fun r => m_tp thr r && (r_pd r =? l)%Z) rows)
      (countb (fun r => m_fp thr r && (r_pd r =? l)%Z) rows)
      (countb (fun k => (snd k =? l)%Z)
         (dkeys zz_dec (fun r => (r_datum r, r_gt r)) (m_fn thr) rows))
      (countb (fun k => (snd k =? l)%Z)
         (dkeys zz_dec (fun r => (r_datum r, r_pd r)) (m_tn thr) rows)).

  Definition counts_add (a b : counts) : counts :=
    MkCounts (n_tp a + n_tp b) (n_fp a + n_fp b) (n_fn a + n_fn b) (n_tn a + n_tn b).
  Definition counts_zero : counts := MkCounts 0 0 0 0.

  (* models: classification/computation.py:93-169 compute_counts *)
  Definition compute_counts (thrs : list Z) (n_labels : nat) (rows : list crow) : list (list counts) :=
    map (fun thr => map (fun l => counts_at thr rows (Z.of_nat l)) (seq 0 n_labels)) thrs.

  (* numpy array addition *)
  Fixpoint map2 {A B C} (f : A -> B -> C) (a : list A) (b : list B) : list C :=
    match a, b with
    | x :: a', y :: b' => f x y :: map2 f a' b'
    | _, _ => []
    end.
  Definition add_arrays : list (list counts) -> list (list counts) -> list (list counts) :=
    map2 (map2 counts_add).

  (* models: classification/evaluator.py:594-612, the accumulation over tables
     with a datum filter *)
  Definition evaluate_counts (thrs : list Z) (n_labels : nat) (datums : crow -> bool)
      (tables : list (list crow)) : list (list counts) :=
    fold_left (fun acc t => add_arrays acc (compute_counts thrs n_labels (filter datums t)))
      tables (map (fun _ => map (fun _ => counts_zero) (seq 0 n_labels)) thrs).
End Counts.

(* ------------------------------------------------------------------ *)
(** * Metrics *)

Definition qdiv_or_0 (n d : nat) : Q :=
  if Nat.ltb 0 d then inject_Z (Z.of_nat n) / inject_Z (Z.of_nat d) else 0%Q.

(* models: classification/computation.py:172-184 compute_precision *)
Definition precision (c : counts) : Q := qdiv_or_0 (n_tp c) (n_tp c + n_fp c).
(* models: classification/computation.py:187-199 compute_recall *)
Definition recall (c : counts) : Q := qdiv_or_0 (n_tp c) (n_tp c + n_fn c).
(* models: classification/computation.py:202-215 compute_f1_score (where > 1e-9) *)
Definition f1 (p r : Q) : Q :=
  if Qlt_le_dec (1 # 1000000000) (p + r) then (2 * p * r) / (p + r) else 0%Q.
(* models: classification/computation.py:218-233 compute_accuracy *)
Definition accuracy (tps : list nat) (n_datums : nat) : Q :=
  if Nat.eqb n_datums 0 then 0%Q
  else inject_Z (Z.of_nat (list_sum_nat tps)) / inject_Z (Z.of_nat n_datums).

(* models: classification/evaluator.py:595-627: accuracy reported by
   compute_precision_recall; n_datums is the unfiltered number of datums *)
Definition reported_accuracy (tol : Z) (hardmax : bool) (n_labels : nat) (datums : crow -> bool)
    (tables : list (list crow)) (thr : Z) : Q :=
  match evaluate_counts tol hardmax [thr] n_labels datums tables with
  | [row] => accuracy (map n_tp row) (extract_counts (fun _ => true) tables)
  | _ => 0%Q   (* unreachable: one threshold gives one row *)
  end.

(* ------------------------------------------------------------------ *)
(** * Pair classification and confusion matrix *)

Section Confusion.
  Variable tol9 : Z.       (* 1e-9, computation.py:290 *)
  Variable hardmax : bool.

  (* models: classification/computation.py:290-294: mask_score is updated in place
     (&=) from one threshold to the next *)
  Definition step_mask (acc : crow -> bool) (thr : Z) : crow -> bool :=
    fun r => acc r && (thr <=? r_score r)%Z && (if hardmax then r_winner r else true).
  Fixpoint score_masks (acc : crow -> bool) (thrs : list Z) : list (crow -> bool) :=
    match thrs with
    | [] => []
    | thr :: t => let m := step_mask acc thr in m :: score_masks m t
    end.
  Definition masks (thrs : list Z) : list (crow -> bool) :=
    score_masks (fun r => (tol9 <? r_score r)%Z) thrs.

  Definition same_gt (a b : crow) : bool := (r_datum a =? r_datum b)%Z && (r_gt a =? r_gt b)%Z.

  (* models: classification/computation.py:296-305 *)
  Definition pc_tp (m : crow -> bool) (r : crow) : bool := isclose_label (r_gt r) (r_pd r) && m r.
  Definition pc_misclf (m : crow -> bool) (r : crow) : bool :=
    negb (isclose_label (r_gt r) (r_pd r)) && m r.
  Definition pc_unmatched (m : crow -> bool) (rows : list crow) (r : crow) : bool :=
    negb (existsb (fun r' => m r' && same_gt r r') rows).

  Record confusion : Type := MkConf {
    cm : Z -> Z -> nat;        (* ground-truth label, predicted label *)
    cm_unmatched : Z -> nat
  }.

  (* models: classification/computation.py:335-378 compute_confusion_matrix at one
     threshold *)
  Definition confusion_of (m : crow -> bool) (rows : list crow) : confusion :=
    let matched := dkeys zzz_dec (fun r => (r_datum r, r_gt r, r_pd r))
                     (fun r => pc_tp m r || pc_misclf m r) rows in
    let unmatched := dkeys zz_dec (fun r => (r_datum r, r_gt r)) (pc_unmatched m rows) rows in
    MkConf (fun g p => countb (fun k => (snd (fst k) =? g)%Z && (snd k =? p)%Z) matched)
           (fun g => countb (fun k => (snd k =? g)%Z) unmatched).

  Definition conf_add (a b : confusion) : confusion :=
    MkConf (fun g p => cm a g p + cm b g p) (fun g => cm_unmatched a g + cm_unmatched b g).
  Definition conf_zero : confusion := MkConf (fun _ _ => 0) (fun _ => 0).

  (* models: classification/evaluator.py:658-687: accumulation over tables, one
     matrix per threshold *)
  Definition evaluate_confusion (thrs : list Z) (datums : crow -> bool)
      (tables : list (list crow)) : list confusion :=
    map (fun m => fold_left (fun acc t => conf_add acc (confusion_of m (filter datums t)))
                    tables conf_zero) (masks thrs).
End Confusion.

(* ------------------------------------------------------------------ *)
(** * Filter *)

(* models: classification/evaluator.py:449-495: per table, with optional
   predicates for datums, ground truths and predictions *)
Definition same_pd (a b : crow) : bool := (r_datum a =? r_datum b)%Z && (r_pd a =? r_pd b)%Z.
Definition filter_table (gts pds : option (crow -> bool)) (t : list crow) : list crow :=
  let valid_gt r := match gts with
                    | None => true
                    | Some f => existsb (same_gt r) (filter f t)
                    end in
  let valid_pd r := match pds with
                    | None => true
                    | Some f => existsb (same_pd r) (filter f t)
                    end in
  filter (fun r => valid_gt r && valid_pd r) t.
Definition filter_tables (datums : crow -> bool) (gts pds : option (crow -> bool))
    (tables : list (list crow)) : list (list crow) :=
  map (fun t => filter_table gts pds (filter datums t)) tables.

(* ------------------------------------------------------------------ *)
(** * Examples *)

(* np.unique(..., axis=0) on pairs / triples: ascending lexicographic order *)
Definition zz_leb (a b : Z * Z) : bool := lex_leb [fst a; snd a] [fst b; snd b].
Definition zzz_leb (a b : Z * Z * Z) : bool :=
  lex_leb [fst (fst a); snd (fst a); snd a] [fst (fst b); snd (fst b); snd b].

(* models: classification/utilities.py:122-134 create_mapping on (datum_id,
   datum_uid): the uid of the first row of the datum; [None] = KeyError *)
Definition uid_of (rows : list crow) (d : Z) : option string :=
  option_map r_uid (find (fun r => (r_datum r =? d)%Z) rows).

Section Examples.
  Variable m : crow -> bool.   (* mask_score at one threshold *)

  (* models: classification/utilities.py:232-245: unique matched triples with the
     score of the first row (in storage order) of each *)
  Definition key3 (r : crow) : Z * Z * Z := (r_datum r, r_gt r, r_pd r).
  Definition key2 (r : crow) : Z * Z := (r_datum r, r_gt r).
  Definition unique_matches (rows : list crow) : list (Z * Z * Z) :=
    isort zzz_leb (dkeys zzz_dec key3 (fun r => pc_tp m r || pc_misclf m r) rows).
  Definition match_score (rows : list crow) (k : Z * Z * Z) : option Z :=
    option_map r_score
      (find (fun r => (pc_tp m r || pc_misclf m r) && if zzz_dec (key3 r) k then true else false) rows).
  Definition unique_unmatched (rows : list crow) : list (Z * Z) :=
    isort zz_leb (dkeys zz_dec key2 (pc_unmatched m rows) rows).

  (* models: classification/utilities.py:219-289: what one table appends to the
     example list of cell (g, p); the cell's count grows by one per appended
     example (lines 270-278).  Labels are identified with their ids. *)
  Definition cell_examples (rows : list crow) (g p : Z) : list (option string * option Z) :=
    map (fun k => (uid_of rows (fst (fst k)), match_score rows k))
      (filter (fun k => (snd (fst k) =? g)%Z && (snd k =? p)%Z) (unique_matches rows)).
  Definition unmatched_examples (rows : list crow) (g : Z) : list (option string) :=
    map (fun k => uid_of rows (fst k)) (filter (fun k => (snd k =? g)%Z) (unique_unmatched rows)).

  (* models: classification/utilities.py:137-195 unpack_examples for one datum
     and one threshold: label ids listed as TP, FP, FN *)
  Record datum_example : Type := MkEx { ex_tp : list Z; ex_fp : list Z; ex_fn : list Z }.
  Definition zmem (x : Z) (l : list Z) : bool := existsb (Z.eqb x) l.
  Definition datum_examples (rows : list crow) (d : Z) : datum_example :=
    let mine r := (r_datum r =? d)%Z in
    let tp := map (fun k => snd (fst k))
                (isort zzz_leb (dkeys zzz_dec key3 (fun r => pc_tp m r && mine r) rows)) in
    let fp := map snd
                (isort zz_leb (dkeys zz_dec (fun r => (r_datum r, r_pd r))
                                 (fun r => pc_misclf m r && mine r) rows)) in
    let fn := map snd
                (isort zz_leb (dkeys zz_dec key2
                                 (fun r => (pc_misclf m r || pc_unmatched m rows r) && mine r) rows)) in
    MkEx tp (filter (fun l => negb (zmem l tp)) fp) (filter (fun l => negb (zmem l tp)) fn).
End Examples.

(* models: classification/evaluator.py:835-875 and utilities.py:292-315: the cells
   over all tables, one entry per threshold *)
Definition evaluate_cell (tol9 : Z) (hardmax : bool) (thrs : list Z) (datums : crow -> bool)
    (tables : list (list crow)) (g p : Z) : list (list (option string * option Z)) :=
  map (fun m => List.concat (map (fun t => cell_examples m (filter datums t) g p) tables))
    (masks tol9 hardmax thrs).
Definition evaluate_unmatched (tol9 : Z) (hardmax : bool) (thrs : list Z) (datums : crow -> bool)
    (tables : list (list crow)) (g : Z) : list (list (option string)) :=
  map (fun m => List.concat (map (fun t => unmatched_examples m (filter datums t) g) tables))
    (masks tol9 hardmax thrs).

(* models: classification/evaluator.py:735-787 compute_examples for the page
   [tables] returned by paginate_index: per datum (ascending id inside a table)
   and threshold *)
Definition evaluate_examples (tol9 : Z) (hardmax : bool) (thrs : list Z)
    (tables : list (list crow)) : list (option string * Z * datum_example) :=
  List.concat (map (fun t =>
    List.concat (map (fun d =>
      map (fun mt => (uid_of t d, snd mt, datum_examples (fst mt) t d))
        (combine (masks tol9 hardmax thrs) thrs)) (unique_ids r_datum t))) tables).

(* ------------------------------------------------------------------ *)
(** * Schema and metadata fields *)

(* models: classification/shared.py:36-62 generate_schema; types are strings;
   [None] = ValueError *)
Definition reserved_fields : list string :=
  ["datum_uid"; "datum_id"; "gt_label"; "gt_label_id"; "pd_label"; "pd_label_id"; "pd_score";
   "pd_winner"; "match"]%string.
Definition generate_schema (reserved : list string) (fields : list (string * string)) : option (list string) :=
  if existsb (fun f => existsb (String.eqb (fst f)) reserved) fields then None
  else Some (reserved ++ map fst fields).

(* models: classification/shared.py:85-95 encode_metadata_fields (dict
   comprehension) and decode_metadata_fields (items()) *)
Fixpoint sdict_set (d : list (string * string)) (k v : string) : list (string * string) :=
  match d with
  | [] => [(k, v)]
  | (k', v') :: t => if String.eqb k k' then (k', v) :: t else (k', v') :: sdict_set t k v
  end.
Definition encode_fields (fields : list (string * string)) : list (string * string) :=
  fold_left (fun d kv => sdict_set d (fst kv) (snd kv)) fields [].
Definition decode_fields (d : list (string * string)) : list (string * string) := d.
