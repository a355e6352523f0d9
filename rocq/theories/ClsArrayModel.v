(* Literal model of the arrays of the classification Evaluator: fixed lengths, an access
   outside an array raises.  ClsModel.v, RocModel.v and ClsReportModel.v state the same
   computations with functions on label numbers.  Definitions only.  The arrays, [ares],
   bincount and indexing are those of DetArrayModel.v. *)
From Verif Require Import Prelude CacheModel Counting DetArrayModel ClsModel RocModel FlowModel ClsFilterModel ClsReportModel.
From Coq Require Import String QArith.
Local Notation length := List.length (only parsing).
Local Notation concat := List.concat (only parsing).
Local Open Scope nat_scope.
Local Open Scope list_scope.

(* counts[score_idx]: one array over the labels for each of TP, FP, FN, TN *)
Record quad : Type := MkQuad { q_tp : list nat; q_fp : list nat; q_fn : list nat; q_tn : list nat }.
Definition quad_zero (n : nat) : quad := MkQuad (repeat 0 n) (repeat 0 n) (repeat 0 n) (repeat 0 n).
Definition quad_add (a b : quad) : quad :=
  MkQuad (map2 Nat.add (q_tp a) (q_tp b)) (map2 Nat.add (q_fp a) (q_fp b))
         (map2 Nat.add (q_fn a) (q_fn b)) (map2 Nat.add (q_tn a) (q_tn b)).

(* counts[score_idx, :, k] = np.bincount(labels, minlength=n_labels) *)
Definition column (n : nat) (labels : list Z) : ares (list nat) :=
  abind (bincount n (map (fun l => (l, true)) labels)) (assign n).

Section Counts.
  Variable tol : Z.
  Variable hardmax : bool.

  (* models: classification/computation.py:142-167 at one threshold *)
  Definition quad_at (n : nat) (rows : list crow) (thr : Z) : ares quad :=
    abind (column n (map r_pd (filter (m_tp tol hardmax thr) rows))) (fun tp =>
    abind (column n (map r_pd (filter (m_fp tol hardmax thr) rows))) (fun fp =>
    abind (column n (map snd (dkeys zz_dec (fun r => (r_datum r, r_gt r)) (m_fn tol hardmax thr) rows))) (fun fn =>
    abind (column n (map snd (dkeys zz_dec (fun r => (r_datum r, r_pd r)) (m_tn tol hardmax thr) rows))) (fun tn =>
    AOk (MkQuad tp fp fn tn))))).
  (* models: classification/computation.py:93-169 compute_counts *)
  Definition np_counts (n : nat) (thrs : list Z) (rows : list crow) : ares (list quad) :=
    match rows with
    | [] => AOk (map (fun _ => quad_zero n) thrs)
    | _ => amap (quad_at n rows) thrs
    end.
  (* models: classification/evaluator.py:595-612 *)
  Definition np_cls_counts (thrs : list Z) (datums : crow -> bool) (e : ceval) : ares (list quad) :=
    let n := length (ce_labels e) in
    afold (fun acc t => abind (np_counts n thrs (filter datums t)) (fun b => AOk (map2 quad_add acc b)))
      (ce_tables e) (map (fun _ => quad_zero n) thrs).

  (* models: classification/utilities.py:32-48: the entries of one label and threshold *)
  Definition quad_get (q : quad) (k : Z) : ares counts :=
    abind (np_get (q_tp q) k) (fun a => abind (np_get (q_fp q) k) (fun b =>
    abind (np_get (q_fn q) k) (fun c => abind (np_get (q_tn q) k) (fun d => AOk (MkCounts a b c d))))).
  Definition np_unpack (labels : dict) (rows : list (Z * quad)) : ares (list (string * Z * counts)) :=
    abind (amap (fun kl => amap (fun tr => abind (quad_get (snd tr) (fst kl)) (fun c => AOk (snd kl, fst tr, c))) rows) labels)
          (fun ll => AOk (concat ll)).

  (* models: classification/evaluator.py:590-627 compute_precision_recall and
     utilities.py:10-68; precision, recall and F1 are computed entry by entry *)
  Definition np_metrics (thrs : list Z) (datums : crow -> bool) (e : ceval) : ares cls_metrics :=
    match thrs with
    | [] => ARaise BadValue
    | _ =>
        abind (np_cls_counts thrs datums e) (fun qs =>
        abind (np_unpack (ce_labels e) (combine thrs qs)) (fun cells =>
        let per {V} (f : counts -> V) := map (fun x => (fst x, Some (f (snd x)))) cells in
        AOk (MkMetrics
          (map (fun tq => (fst tq, accuracy (q_tp (snd tq)) (snd (cls_info (fun _ => true) e)))) (combine thrs qs))
          (per (fun c => c)) (per precision) (per recall) (per (fun c => f1 (precision c) (recall c))))))
    end.
End Counts.

(* ---------------------------------------------------------------- confusion matrix *)
Notation matrix := (list (list nat)).
Definition matrix_get (M : matrix) (i j : Z) : ares nat := abind (np_get M i) (fun row => np_get row j).
Definition matrix_set (M : matrix) (i j : Z) (x : nat) : ares matrix :=
  abind (np_get M i) (fun row => abind (np_set row j x) (np_set M i)).

Section Confusion.
  Variable tol9 : Z.
  Variable hardmax : bool.

  (* models: classification/computation.py:346-378 at one threshold: the cells of the
     label pairs that occur are overwritten with their numbers *)
  Definition np_confusion_of (n : nat) (m : crow -> bool) (rows : list crow) : ares (matrix * list nat) :=
    let matched := dkeys zzz_dec (fun r => (r_datum r, r_gt r, r_pd r)) (fun r => pc_tp m r || pc_misclf m r) rows in
    let unmatched := dkeys zz_dec (fun r => (r_datum r, r_gt r)) (pc_unmatched m rows) rows in
    abind (afold (fun M gp => matrix_set M (fst gp) (snd gp)
                    (countb (fun k => (snd (fst k) =? fst gp)%Z && (snd k =? snd gp)%Z) matched))
             (isort zz_leb (nodup zz_dec (map (fun k => (snd (fst k), snd k)) matched))) (repeat (repeat 0 n) n)) (fun M =>
    abind (afold (fun U g => np_set U g (countb (fun k => (snd k =? g)%Z) unmatched))
             (isort Z.leb (nodup Z.eq_dec (map snd unmatched))) (repeat 0 n)) (fun U =>
    AOk (M, U))).
  Definition conf_sum (a b : matrix * list nat) : matrix * list nat :=
    (map2 (map2 Nat.add) (fst a) (fst b), map2 Nat.add (snd a) (snd b)).
  (* models: classification/evaluator.py:656-687 *)
  Definition np_cls_confusion (thrs : list Z) (datums : crow -> bool) (e : ceval) : ares (list (matrix * list nat)) :=
    let n := length (ce_labels e) in
    afold (fun acc t => abind (amap (fun m => np_confusion_of n m (filter datums t)) (masks tol9 hardmax thrs))
                          (fun b => AOk (map2 conf_sum acc b)))
      (ce_tables e) (map (fun _ => (repeat (repeat 0 n) n, repeat 0 n)) thrs).
  (* models: classification/utilities.py:99-109; [put_cell] stores one number *)
  Definition np_unpack_matrix (labels : dict) (MU : matrix * list nat)
      : ares (list (string * list (string * nat)) * list (string * nat)) :=
    afold (fun acc kl =>
      abind (np_get (snd MU) (fst kl)) (fun u =>
      abind (afold (fun d pl => abind (matrix_get (fst MU) (fst kl) (fst pl)) (fun v =>
                                AOk (put_cell (MkConf (fun _ _ => v) (fun _ => 0)) (fst kl) (snd kl) d pl)))
               labels (fst acc)) (fun d =>
      AOk (d, sput (snd kl) u (snd acc))))) labels ([], []).
  (* models: classification/evaluator.py:653-695 compute_confusion_matrix *)
  Definition np_confusion (thrs : list Z) (datums : crow -> bool) (e : ceval)
      : ares (list (Z * (list (string * list (string * nat)) * list (string * nat)))) :=
    match thrs with
    | [] => ARaise BadValue
    | _ =>
        abind (np_cls_confusion thrs datums e) (fun Ms =>
        amap (fun tm => abind (np_unpack_matrix (ce_labels e) (snd tm)) (fun d => AOk (fst tm, d))) (combine thrs Ms))
    end.
End Confusion.

(* ---------------------------------------------------------------- ROC *)
(* counts[labels] += numbers, for the distinct labels of the keys *)
Definition np_add_keys (keys : list (Z * Z)) (a : list nat) : ares (list nat) :=
  afold (fun a l => abind (np_get a l) (fun c => np_set a l (c + countb (fun k => (snd k =? l)%Z) keys)))
    (isort Z.leb (nodup Z.eq_dec (map snd keys))) a.
(* models: classification/shared.py:144-184 extract_groundtruth_count_per_label *)
Definition np_label_counts (n : nat) (tables : list (list crow)) : ares (list nat * list nat) :=
  afold (fun ab t =>
    abind (np_add_keys (dkeys zz_dec (fun r => (r_datum r, r_gt r)) (fun r => (0 <=? r_gt r)%Z) t) (fst ab)) (fun a =>
    abind (np_add_keys (dkeys zz_dec (fun r => (r_datum r, r_pd r)) (fun r => (0 <=? r_pd r)%Z) t) (snd ab)) (fun b =>
    AOk (a, b)))) tables (repeat 0 n, repeat 0 n).

(* models: classification/computation.py:54-90 compute_rocauc on one file of the curve *)
Definition np_rocauc_file (n : nat) (gts pds : list nat) (st : list (Q * (nat * nat))) (file : list cpoint)
    : ares (list (Q * (nat * nat))) :=
  afold (fun st i =>
    abind (np_get pds (Z.of_nat i)) (fun pdc =>
    match pdc, points_of i file with
    | 0, _ => AOk st
    | _, [] => AOk st
    | _, pts =>
        abind (np_get gts (Z.of_nat i)) (fun gtc =>
        abind (np_get st (Z.of_nat i)) (fun s =>
        np_set st (Z.of_nat i) (rocauc_step (Z.of_nat gtc) (Z.of_nat pdc) s pts)))
    end)) (seq 0 n) st.
(* models: classification/evaluator.py:536-567 compute_rocauc and utilities.py:71-88 *)
Definition np_rocauc (e : ceval) : ares (list (string * option Q) * option Q) :=
  let n := length (ce_labels e) in
  abind (np_label_counts n (ce_tables e)) (fun c =>
  abind (afold (np_rocauc_file n (fst c) (snd c)) (ce_curve e) (repeat (0%Q, (0, 0)) n)) (fun st =>
  abind (amap (fun kl => abind (np_get (map fst st) (fst kl)) (fun v => AOk (snd kl, Some v))) (ce_labels e)) (fun vs =>
  AOk (vs, mean (map fst st))))).

(* models: classification/evaluator.py:190-259: the running values of finalize are
   arrays over the labels; the loops run over the numbers in the label map *)
Definition np_roc_table (keys : list nat) (st : list rocst * list cpoint) (t : list irow) : ares (list rocst * list cpoint) :=
  afold (fun st i =>
    match filter (fun r => (i_label r =? Z.of_nat i)%Z) t with
    | [] => AOk st
    | rows =>
        abind (np_get (fst st) (Z.of_nat i)) (fun s =>
        let '(s', pts) := roc_label_step s rows in
        abind (np_set (fst st) (Z.of_nat i) s') (fun a => AOk (a, snd st ++ map (fun p => (i, p)) pts)))
    end) keys st.
Definition np_roc_curve (keys : list nat) (ts : list (list irow)) : ares (list cpoint) :=
  let n := length keys in
  abind (afold (np_roc_table keys) ts (repeat rocst0 n, [])) (fun st =>
  abind (amap (fun i => abind (np_get (fst st) (Z.of_nat i)) (fun s => AOk (map (fun p => (i, p)) (final_point s)))) (seq 0 n))
    (fun rest => AOk (snd st ++ concat rest))).
