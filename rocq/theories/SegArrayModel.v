(* Literal model of the arrays of the segmentation loader and evaluator: matrices are
   lists of rows, read and written through indices that can be out of range, and numpy's
   broadcasting can fail.  SegModel.v states the same computations with functions of two
   indices.  A missing dictionary key (KeyError) is written OutOfBounds as well.
   Definitions only. *)
From Verif Require Import Prelude Counting CacheModel ClsModel FlowModel DetModel DetFlowModel DetArrayModel SegModel.
From Coq Require Import QArith String.
From Coq Require List.
Local Open Scope nat_scope.
Local Open Scope list_scope.

Notation array2 := (list (list Z)).

(* np.stack(rows, axis=0): no rows or rows of different lengths are refused *)
Definition np_stack {A} (rows : list (list A)) : ares (list (list A)) :=
  match rows with
  | [] => ARaise BadValue
  | r :: t => if forallb (fun x => Nat.eqb (List.length x) (List.length r)) t then AOk rows else ARaise BadValue
  end.
(* an elementwise operation on two axes: equal lengths, or one of them is 1 *)
Definition np_zip {A B C} (f : A -> B -> C) (a : list A) (b : list B) : ares (list C) :=
  match a, b with
  | [x], _ => AOk (map (f x) b)
  | _, [y] => AOk (map (fun x => f x y) a)
  | _, _ => if Nat.eqb (List.length a) (List.length b) then AOk (map2 f a b) else ARaise BadValue
  end.
(* an assigned value along an axis of length n: n entries, or one that is repeated *)
Definition stretch {A} (n : nat) (l : list A) : ares (list A) :=
  match l with
  | [x] => AOk (repeat x n)
  | _ => if Nat.eqb (List.length l) n then AOk l else ARaise BadValue
  end.
(* reductions over axis 0 of a 2-D array with at least one row *)
Definition reduce0 {A} (f : A -> A -> A) (m : list (list A)) : list A :=
  match m with [] => [] | r :: t => fold_left (map2 f) t r end.
Definition np_zeros (n : nat) : array2 := repeat (repeat 0%Z n) n.
(* m[i, j] and m[i, j] = v on a uint64 array *)
Definition np_at {A} (m : list (list A)) (i j : Z) : ares A := abind (np_get m i) (fun row => np_get row j).
Definition np_put (m : array2) (ij : Z * Z) (v : Z) : ares array2 :=
  abind (np_get m (fst ij)) (fun row => abind (np_set row (snd ij) (u64 v)) (np_set m (fst ij))).
(* m[is, js] = values, one index after the other *)
Definition np_puts (m : array2) (ijs : list (Z * Z)) (vs : list Z) : ares array2 :=
  afold (fun m x => np_put m (fst x) (snd x)) (combine ijs vs) m.

(* models: semantic_segmentation/computation.py:5-59 compute_intermediates *)
Definition np_intermediates (gts pds : list (list bool)) (gls pls : list Z) (n : nat) : ares array2 :=
  abind (np_zip orb (reduce0 orb gts) (reduce0 orb pds)) (fun covered =>
  abind (amap (fun g => amap (fun p => abind (np_zip andb g p) (fun both => AOk (bsum both))) pds) gts) (fun inter =>
  abind (np_put (np_zeros (S n)) (0, 0)%Z (bsum (map negb covered))) (fun m0 =>
  (* confusion_matrix[np.ix_(groundtruth_labels + 1, prediction_labels + 1)] = ... *)
  abind (abind (amap (stretch (List.length pls)) inter) (stretch (List.length gls))) (fun vals =>
  abind (np_puts m0 (list_prod (map (Z.add 1) gls) (map (Z.add 1) pls)) (List.concat vals)) (fun m1 =>
  abind (abind (np_zip Z.sub (map bsum pds) (reduce0 Z.add inter)) (stretch (List.length pls))) (fun pv =>
  abind (np_puts m1 (map (fun p => (0, 1 + p)%Z) pls) pv) (fun m2 =>
  abind (abind (np_zip Z.sub (map bsum gts) (map zsum inter)) (stretch (List.length gls))) (fun gv =>
  np_puts m2 (map (fun g => (1 + g, 0)%Z) gls) gv)))))))).

(* models: loader.py:68-94 *)
Definition np_masks (size : Z) (bs : list bitmask) : ares (list (list bool)) :=
  match bs with
  | [] => AOk [repeat false (Z.to_nat size)]
  | _ :: _ => np_stack (map bm_bits bs)
  end.

(* models: loader.py:120-201, the rows of one datum, read from the array *)
Definition np_seg_rows (s : segmentation) (datum : nat) (labels : list string) (counts : array2)
    : ares (list srow) :=
  let n := List.length labels in
  let dm := sg_meta s in
  let gm := label_meta labels (sg_gts s) in
  let pm := label_meta labels (sg_pds s) in
  abind (amap (fun i =>
      abind (amap (fun j =>
          abind (np_at counts (Z.of_nat (S i)) (Z.of_nat (S j))) (fun c =>
          AOk (if (0 <? c)%Z then
                 [MkS (sg_uid s) (Z.of_nat datum) (nth_error labels i) (Z.of_nat i)
                      (nth_error labels j) (Z.of_nat j) c (meta_merge (meta_merge dm (gm i)) (pm j))]
               else []))) (seq 0 n)) (fun pairs =>
      abind (np_at counts (Z.of_nat (S i)) 0%Z) (fun g =>
      abind (np_at counts 0%Z (Z.of_nat (S i))) (fun p =>
      AOk (List.concat pairs
           ++ [MkS (sg_uid s) (Z.of_nat datum) (nth_error labels i) (Z.of_nat i) None (-1) g (meta_merge dm (gm i));
               MkS (sg_uid s) (Z.of_nat datum) None (-1) (nth_error labels i) (Z.of_nat i) p
                   (meta_merge (meta_merge dm (gm i)) (pm i))]))))) (seq 0 n)) (fun rows =>
  abind (np_at counts 0%Z 0%Z) (fun b =>
  AOk (List.concat rows ++ [MkS (sg_uid s) (Z.of_nat datum) None (-1) None (-1) b dm]))).

(* models: loader.py:52-205, one iteration of add_data; the label ids are written one by
   one into an array of their number, which is their list *)
Definition np_seg_add_one (l : sloader) (s : segmentation) : ares sloader :=
  let '(labels1, gls) := add_labels (sl_labels l) (map bm_label (sg_gts s)) in
  let '(labels2, pls) := add_labels labels1 (map bm_label (sg_pds s)) in
  abind (np_masks (sg_size s) (sg_gts s)) (fun gts =>
  abind (np_masks (sg_size s) (sg_pds s)) (fun pds =>
  abind (np_intermediates gts pds (map Z.of_nat gls) (map Z.of_nat pls) (List.length labels2)) (fun counts =>
  abind (np_seg_rows s (sl_count l) labels2 counts) (fun rows =>
  AOk (MkSL labels2 (S (sl_count l)) (sl_writes l ++ [rows])))))).
(* models: loader.py:35-205 add_data *)
Definition np_seg_add_data (l : sloader) (ss : list segmentation) : ares sloader := afold np_seg_add_one ss l.

(* m[i, j] += v *)
Definition np_incr (m : array2) (ij : Z * Z) (v : Z) : ares array2 :=
  abind (np_at m (fst ij) (snd ij)) (fun c => np_put m ij (c + v)%Z).
(* models: evaluator.py:357-388, one table *)
Definition np_seg_table (n : nat) (rows : list srow) (m : array2) : ares array2 :=
  let total (P : Z -> bool) (Q : Z -> bool) := usum (filter (fun r => P (s_gt r) && Q (s_pd r)) rows) in
  let null z := (z =? -1)%Z in
  let is i z := (z =? Z.of_nat i)%Z in
  abind (np_incr m (0, 0)%Z (total null null)) (fun m =>
  afold (fun m i =>
    abind (afold (fun m j => np_incr m (Z.of_nat (S i), Z.of_nat (S j)) (total (is i) (is j))) (seq 0 n) m) (fun m =>
    abind (np_incr m (Z.of_nat (S i), 0%Z) (total (is i) null)) (fun m =>
    np_incr m (0%Z, Z.of_nat (S i)) (total null (is i))))) (seq 0 n) m).
(* models: evaluator.py:337-389 _compute_confusion_matrix_intermediate *)
Definition np_seg_matrix (n : nat) (tables : list (list srow)) (datums : expr) : ares array2 :=
  afold (fun m t => np_seg_table n (filter (eval_expr datums) t) m) tables (np_zeros (S n)).

(* m.diagonal() of a square array *)
Definition np_diagonal {A} (m : list (list A)) : ares (list A) :=
  amap (fun i => np_at m (Z.of_nat i) (Z.of_nat i)) (seq 0 (List.length m)).
Record sarrays : Type := MkSA {
  sa_precision : list Q; sa_recall : list Q; sa_f1 : list Q; sa_accuracy : Q;
  sa_ious : list (list Q); sa_unmatched_pd : list Q; sa_unmatched_gt : list Q
}.
(* models: computation.py:62-165 compute_metrics; m[1:] is tl; sums are taken modulo 2^64
   at the end, which is the same *)
Definition np_seg_metrics (m : array2) : ares sarrays :=
  let pixels := u64 (zsum (map zsum m)) in
  let gt := map (fun row => u64 (zsum row)) (tl m) in
  let pd := map u64 (reduce0 Z.add (map (@tl Z) m)) in
  let inter := map (@tl Z) (tl m) in
  let union := map2 (fun g row => map2 (fun p x => u64 (g + p - x)%Z) pd row) gt inter in
  let ious := map2 (map2 qdiv) inter union in
  abind (np_get m 0%Z) (fun row0 =>
  abind (amap (fun row => np_get row 0%Z) (tl m)) (fun col0 =>
  abind (np_diagonal m) (fun diag =>
  abind (np_diagonal inter) (fun diag' =>
  abind (np_at m 0%Z 0%Z) (fun background =>
  let precision := map2 qdiv (tl diag) pd in
  let recall := map2 qdiv (tl diag) gt in
  let f1 := map2 (fun p r => if Qle_bool (p + r) 0 then 0%Q else ((2 * (p * r)) / (p + r))%Q) precision recall in
  AOk (MkSA precision recall f1 (qdiv (u64 (u64 (zsum diag') + background)) pixels)
            ious (map2 qdiv (tl row0) pd) (map2 qdiv col0 gt))))))).

(* index_to_label[i] *)
Definition np_label (d : ldict) (i : nat) : ares (option string) :=
  match ldict_get d (Z.of_nat i) with Some l => AOk l | None => ARaise OutOfBounds end.
(* models: utilities.py:6-88 *)
Definition np_seg_unpack (d : ldict) (a : sarrays) : ares sreport :=
  let n := List.length d in
  let ranged (f : nat -> ares Q) := amap (fun i => abind (np_label d i) (fun l => abind (f i) (fun q => AOk (l, q)))) (seq 0 n) in
  let items (f : Z -> ares Q) := amap (fun kl => abind (f (fst kl)) (fun q => AOk (snd kl, q))) d in
  abind (amap (fun i => abind (np_label d i) (fun l =>
                        abind (ranged (fun j => np_at (sa_ious a) (Z.of_nat i) (Z.of_nat j))) (fun row =>
                        AOk (l, row)))) (seq 0 n)) (fun cm =>
  abind (ranged (fun i => np_get (sa_unmatched_pd a) (Z.of_nat i))) (fun up =>
  abind (ranged (fun i => np_get (sa_unmatched_gt a) (Z.of_nat i))) (fun ug =>
  abind (np_diagonal (sa_ious a)) (fun diag =>
  let miou := match diag with [] => None | _ => Some (fold_right Qplus 0%Q diag / inject_Z (Z.of_nat (List.length diag)))%Q end in
  abind (items (np_get (sa_precision a))) (fun p =>
  abind (items (np_get (sa_recall a))) (fun r =>
  abind (items (np_get (sa_f1 a))) (fun f =>
  abind (items (fun k => np_at (sa_ious a) k k)) (fun u =>
  AOk (MkSR (sa_accuracy a) cm up ug miou p r f u))))))))).
(* models: evaluator.py:391-414 compute_precision_recall_iou *)
Definition np_seg_compute (e : seval) (datums : expr) : ares sreport :=
  abind (np_seg_matrix (List.length (se_labels e)) (se_tables e) datums) (fun m =>
  abind (np_seg_metrics m) (np_seg_unpack (se_labels e))).
