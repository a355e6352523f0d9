(* Literal model of the arrays of compute_precision_recall: the accumulators are lists
   of fixed length, read and written through indices that can be out of range.
   DetModel.v states the same computation with functions on label numbers and bins;
   here an access outside an array raises, as in numpy.  Definitions only. *)
From Verif Require Import Prelude Counting CacheModel ClsModel FlowModel DetModel DetFlowModel.
From Coq Require Import QArith Qminmax Sorting.Sorted.
Local Open Scope nat_scope.
Local Open Scope list_scope.

Inductive aerror : Type := OutOfBounds | BadValue.   (* IndexError, ValueError *)
Inductive ares (A : Type) : Type := AOk (a : A) | ARaise (x : aerror).
Arguments AOk {A} a.
Arguments ARaise {A} x.

Definition abind {A B} (r : ares A) (f : A -> ares B) : ares B :=
  match r with AOk a => f a | ARaise x => ARaise x end.
Fixpoint amap {A B} (f : A -> ares B) (l : list A) : ares (list B) :=
  match l with
  | [] => AOk []
  | a :: t => abind (f a) (fun b => abind (amap f t) (fun bs => AOk (b :: bs)))
  end.
Fixpoint afold {A S} (f : S -> A -> ares S) (l : list A) (s : S) : ares S :=
  match l with
  | [] => AOk s
  | a :: t => abind (f s a) (afold f t)
  end.

(* position of an index on an axis of length n: negative indices count from the end *)
Definition np_pos (n : nat) (i : Z) : option nat :=
  if (0 <=? i)%Z then (if (i <? Z.of_nat n)%Z then Some (Z.to_nat i) else None)
  else if (- Z.of_nat n <=? i)%Z then Some (Z.to_nat (i + Z.of_nat n)) else None.
Definition np_get {A} (a : list A) (i : Z) : ares A :=
  match np_pos (List.length a) i with
  | Some k => match nth_error a k with Some x => AOk x | None => ARaise OutOfBounds end
  | None => ARaise OutOfBounds
  end.
Fixpoint set_nth {A} (a : list A) (k : nat) (x : A) : list A :=
  match a, k with
  | [], _ => []
  | _ :: t, 0 => x :: t
  | y :: t, S k' => y :: set_nth t k' x
  end.
Definition np_set {A} (a : list A) (i : Z) (x : A) : ares (list A) :=
  match np_pos (List.length a) i with Some k => AOk (set_nth a k x) | None => ARaise OutOfBounds end.

(* np.bincount(labels, weights, minlength=n), the weights being 0 or 1: negative labels
   are refused, the result has at least n entries and one for the largest label *)
Definition bincount (n : nat) (xs : list (Z * bool)) : ares (list nat) :=
  if existsb (fun x => (fst x <? 0)%Z) xs then ARaise BadValue
  else AOk (map (fun l => countb (fun x => snd x && (fst x =? Z.of_nat l)%Z) xs)
                (seq 0 (fold_right Nat.max n (map (fun x => S (Z.to_nat (fst x))) xs)))).
(* row[:] = values for a row of n entries; a single value is repeated *)
Definition assign (n : nat) (vals : list nat) : ares (list nat) :=
  match vals with
  | [v] => AOk (repeat v n)
  | _ => if Nat.eqb (List.length vals) n then AOk vals else ARaise BadValue
  end.

(* np.unique(keys, return_index=True): the keys in ascending order, each with the value
   of its first occurrence *)
Definition cell : Type := Z * nat.
Definition cell_dec : forall a b : cell, {a = b} + {a <> b}.
Proof. decide equality; [apply Nat.eq_dec|apply Z.eq_dec]. Defined.
Definition cell_leb (a b : cell) : bool :=
  (fst a <? fst b)%Z || ((fst a =? fst b)%Z && (snd a <=? snd b)).
Fixpoint firsts {V} (seen : list cell) (l : list (cell * V)) : list (cell * V) :=
  match l with
  | [] => []
  | kv :: t => if in_dec cell_dec (fst kv) seen then firsts seen t else kv :: firsts (fst kv :: seen) t
  end.
Definition unique_first {V} (l : list (cell * V)) : list (cell * V) :=
  isort (fun a b => cell_leb (fst a) (fst b)) (firsts [] l).

(* np.argsort(-precision) of one row, applied to the (label, recall) pairs: numpy does
   not fix the order of equal precisions *)
Definition descending (order : list (cell * Q) -> list (cell * Q)) : Prop :=
  forall l, Permutation (order l) l /\ StronglySorted (fun a b => (snd b <= snd a)%Q) (order l).

(* the precision-recall array of one IoU threshold: label, bin -> precision and score *)
Notation panel := (list (list (Q * Z))).
Definition cell_get (p : panel) (k : cell) : ares (Q * Z) :=
  abind (np_get p (fst k)) (fun row => np_get row (Z.of_nat (snd k))).
Definition cell_set (p : panel) (k : cell) (x : Q * Z) : ares panel :=
  abind (np_get p (fst k)) (fun row => abind (np_set row (Z.of_nat (snd k)) x) (np_set p (fst k))).
(* panel[li, ri] = merge(panel[li, ri], values) *)
Definition cells_update {V} (merge : Q * Z -> V -> Q * Z) (kvs : list (cell * V)) (p : panel) : ares panel :=
  abind (amap (fun kv => abind (cell_get p (fst kv)) (fun old => AOk (fst kv, merge old (snd kv)))) kvs)
        (fun new => afold (fun p kx => cell_set p (fst kx) (snd kx)) new p).

Section Arrays.
  Variable eps : Z.
  Variable bin : nat -> nat -> nat.        (* true positives, ground truths -> recall index *)
  Variable order : list (cell * Q) -> list (cell * Q).

  (* models: object_detection/computation.py:428-452 for one threshold pair *)
  Definition score_rows (n : nat) (t : Z) (rows : list drow) (s : Z) : ares (list nat * list nat) :=
    let mask := tp_mask eps t s rows in
    let fps := filter (fun rb => fp_inner eps t s (fst rb) || (tp_inner eps t s (fst rb) && negb (snd rb))) (combine rows mask) in
    abind (abind (bincount n (combine (map d_pl rows) mask)) (assign n)) (fun tp =>
    abind (abind (bincount n (map (fun rb => (d_pl (fst rb), true)) fps)) (assign n)) (fun fp =>
    AOk (tp, fp))).

  (* models: object_detection/computation.py:392, 455-476: for each label in ascending
     order, consecutive numbers for its rows and for its hits *)
  Definition run_label (t : Z) (rows : list drow) (st : list nat * list nat * list (nat * nat)) (l : Z)
      : ares (list nat * list nat * list (nat * nat)) :=
    let '(totals, tps, run) := st in
    let mask := map (fun r => (d_pl r =? l)%Z) rows in
    let total := countb (fun b => b) mask in
    if Nat.eqb total 0 then AOk st
    else
      let hits := map (fun r => (d_pl r =? l)%Z && tp_outer eps t r) rows in
      let tp := countb (fun b => b) hits in
      abind (np_get run l) (fun c =>
      abind (np_set run l (fst c + total, snd c + tp)) (fun run' =>
      AOk (scatter mask (seq (S (fst c)) total) totals, scatter hits (seq (S (snd c)) tp) tps, run'))).
  Definition run_labels (t : Z) (rows : list drow) (run : list (nat * nat)) : ares (list nat * list nat * list (nat * nat)) :=
    afold (run_label t rows) (isort Z.leb (nodup Z.eq_dec (map d_pl rows)))
      (map (fun _ => 0) rows, map (fun _ => 0) rows, run).

  (* models: object_detection/computation.py:478-490 *)
  Definition np_precision (total tp : nat) : Q := match total with O => 0%Q | _ => (qnat tp / qnat total)%Q end.
  (* models: object_detection/computation.py:494-528 for one IoU threshold; [gts] is
     running_gt_count *)
  Definition panel_update (rows : list drow) (gts totals tps : list nat) (p : panel) : ares panel :=
    let labeled := combine (map d_pl rows) (map2 bin tps gts) in
    abind (cells_update (fun old s => (fst old, Z.max (snd old) s))
             (unique_first (combine labeled (map d_score rows))) p) (fun p1 =>
    cells_update (fun old q => (Qmax (fst old) q, snd old))
      (unique_first (order (combine labeled (map2 np_precision totals tps)))) p1).

  (* the accumulators: running counts and precision-recall panels per IoU threshold *)
  Record acc : Type := MkAcc { a_runs : list (list (nat * nat)); a_panels : list panel }.
  Definition acounts : Type := list (list (list nat * list nat)).   (* IoU, score -> TP row, FP row *)

  (* models: object_detection/computation.py:332-531 compute_counts *)
  Definition np_compute_counts (ious scores : list Z) (n : nat) (gts : list nat) (rows : list drow) (a : acc)
      : ares (acounts * acc) :=
    abind (amap (np_get gts) (map d_pl rows)) (fun row_gts =>
    abind (amap (fun tr => abind (amap (score_rows n (fst tr) rows) scores) (fun cs =>
                           abind (run_labels (fst tr) rows (snd tr)) (fun r => AOk (cs, r))))
                (combine ious (a_runs a))) (fun first =>
    abind (amap (fun xp => panel_update rows row_gts (fst (fst (snd (fst xp)))) (snd (fst (snd (fst xp)))) (snd xp))
                (combine first (a_panels a))) (fun panels =>
    AOk (map fst first, MkAcc (map (fun x => snd (snd x)) first) panels)))).

  (* models: object_detection/shared.py:188-206 extract_groundtruth_count_per_label *)
  Definition np_gts (n : nat) (datums : drow -> bool) (tables : list (list drow)) : ares (list nat) :=
    afold (fun g tb =>
      let keys := dkeys zz_dec (fun r => (d_gt r, d_gl r)) (fun r => (0 <=? d_gt r)%Z) (filter datums tb) in
      afold (fun g l => abind (np_get g l) (fun c => np_set g l (c + countb (fun k => (snd k =? l)%Z) keys)))
        (isort Z.leb (nodup Z.eq_dec (map snd keys))) g)
      tables (repeat 0 n).

  (* counts += batch_counts *)
  Definition counts_add (a b : acounts) : acounts :=
    map2 (map2 (fun x y => (map2 Nat.add (fst x) (fst y), map2 Nat.add (snd x) (snd y)))) a b.

  (* models: object_detection/evaluator.py:436-490: the arguments are checked, then the
     arrays are filled from the tables of the ranked cache *)
  Definition np_precision_recall (ious scores : list Z) (e : deval) (datums : drow -> bool)
      : ares (list nat * acounts * list panel) :=
    match ious, scores with
    | [], _ => ARaise BadValue
    | _, [] => ARaise BadValue
    | _, _ =>
        let n := List.length (de_labels e) in
        abind (np_gts n datums (de_detailed e)) (fun gts =>
        abind (afold (fun st tb =>
                 match filter datums tb with
                 | [] => AOk st
                 | rows => abind (np_compute_counts ious scores n gts rows (snd st)) (fun r =>
                           AOk (counts_add (fst st) (fst r), snd r))
                 end) (de_ranked e)
                 (map (fun _ => map (fun _ => (repeat 0 n, repeat 0 n)) scores) ious,
                  MkAcc (map (fun _ => repeat (0, 0) n) ious) (map (fun _ => repeat (repeat (0%Q, 0%Z) 101) n) ious)))
          (fun st => AOk (gts, fst st, a_panels (snd st))))
    end.
End Arrays.
