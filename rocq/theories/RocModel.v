(* Model of the ROC curve construction and ROCAUC of valor_lite/classification. *)
From Verif Require Import Prelude CacheModel Counting ClsModel.
From Coq Require Import QArith.
Local Open Scope nat_scope.
Local Open Scope list_scope.

(* the columns handed to the sort: (pd_label_id, pd_score, match),
   models: classification/evaluator.py:173-187 *)
Record irow : Type := MkI { i_label : Z; i_score : Z; i_match : bool }.
Definition project (r : crow) : irow := MkI (r_pd r) (r_score r) (r_match r).

(* the sort keys: pd_score descending, match ascending *)
Definition roc_sorting : sorting irow := [(i_score, true); (fun r => Z.b2z (i_match r), false)].

(* per-label running values, models: classification/evaluator.py:190-194
   (running_max_fp, running_max_tp, running_max_scores, last_pair) *)
Record rocst : Type := MkRoc { k_fp : nat; k_tp : nat; k_score : Z; k_last : nat * nat }.
Definition rocst0 : rocst := MkRoc 0 0 0 (0, 0).

(* np.cumsum with an initial value in front *)
Fixpoint cumulative (acc : nat) (l : list bool) : list nat :=
  match l with
  | [] => [acc]
  | b :: t => acc :: cumulative (acc + if b then 1 else 0) t
  end.

(* models: classification/evaluator.py:201-238, one label of one table: the
   cumulative counts, the positions where the score changes, the emitted points
   (the cumulative value in front of each change) *)
Definition roc_label_step (st : rocst) (rows : list irow) : rocst * list (nat * nat) :=
  match rows with
  | [] => (st, [])
  | _ :: _ =>
      let tps := map i_match rows in
      let fps := map negb tps in
      let cfp := cumulative (k_fp st) fps in
      let ctp := cumulative (k_tp st) tps in
      let scores := map i_score rows in
      let changes := map (fun ab => negb (fst ab =? snd ab)%Z) (combine (k_score st :: scores) scores) in
      let pts := map snd (filter fst (combine changes (combine cfp ctp))) in
      (MkRoc (last cfp 0) (last ctp 0) (last scores 0%Z) (last pts (k_last st)), pts)
  end.

(* a point of the curve: (label, cumulative fp, cumulative tp) *)
Definition cpoint := (nat * (nat * nat))%type.

Definition upd (f : nat -> rocst) (i : nat) (s : rocst) : nat -> rocst :=
  fun j => if Nat.eqb j i then s else f j.

(* models: classification/evaluator.py:195-238, the loops over tables and labels *)
Fixpoint roc_labels (keys : list nat) (t : list irow) (st : nat -> rocst) : (nat -> rocst) * list cpoint :=
  match keys with
  | [] => (st, [])
  | i :: ks =>
      let '(s', pts) := roc_label_step (st i) (filter (fun r => (i_label r =? Z.of_nat i)%Z) t) in
      let '(st', rest) := roc_labels ks t (upd st i s') in
      (st', map (fun p => (i, p)) pts ++ rest)
  end.
Fixpoint roc_tables (keys : list nat) (ts : list (list irow)) (st : nat -> rocst) : (nat -> rocst) * list cpoint :=
  match ts with
  | [] => (st, [])
  | t :: ts' =>
      let '(st1, p1) := roc_labels keys t st in
      let '(st2, p2) := roc_tables keys ts' st1 in
      (st2, p1 ++ p2)
  end.

(* models: classification/evaluator.py:240-259, the remaining values *)
Definition final_point (st : rocst) : list (nat * nat) :=
  if Nat.eqb (fst (k_last st)) (k_fp st) && Nat.eqb (snd (k_last st)) (k_tp st) then []
  else [(k_fp st, k_tp st)].

(* models: classification/evaluator.py:166-259 _create_rocauc_intermediate: the
   rows written to the roc curve cache; [ts] are the tables of the sorted
   intermediate cache, [keys] the label indices in dictionary order *)
Definition roc_curve (keys : list nat) (ts : list (list irow)) : list cpoint :=
  let '(st, pts) := roc_tables keys ts (fun _ => rocst0) in
  pts ++ concat (map (fun i => map (fun p => (i, p)) (final_point (st i))) (seq 0 (length keys))).

(* ------------------------------------------------------------------ *)
(** * ROCAUC *)

(* numpy_compatibility.py trapezoid: sum of (x[i+1]-x[i]) * (y[i]+y[i+1]) / 2 *)
Fixpoint trapezoid (pts : list (Q * Q)) : Q :=
  match pts with
  | a :: t => match t with
              | b :: _ => ((fst b - fst a) * (snd a + snd b) / 2 + trapezoid t)%Q
              | [] => 0%Q
              end
  | [] => 0%Q
  end.

Definition rate (n : nat) (total : Z) : Q :=
  if (0 <? total)%Z then (inject_Z (Z.of_nat n) / inject_Z total)%Q else 0%Q.

(* models: classification/computation.py:9-90 compute_rocauc for one label; the
   counts are uint64, their difference wraps *)
Definition rocauc_step (gtc pdc : Z) (acc : Q * (nat * nat)) (pts : list (nat * nat)) : Q * (nat * nat) :=
  let '(area, prev) := acc in
  match pts with
  | [] => acc
  | _ :: _ =>
      if (pdc =? 0)%Z then acc else
      let neg := ((pdc - gtc) mod (2 ^ 64))%Z in
      let pts' := if Nat.ltb 0 (fst prev) || Nat.ltb 0 (snd prev) then prev :: pts else pts in
      let prev' := last pts' (0, 0) in
      if Nat.eqb (length pts') 1 then (area, prev')
      else ((area + trapezoid (map (fun p => (rate (fst p) neg, rate (snd p) gtc)) pts'))%Q, prev')
  end.

(* models: classification/evaluator.py:538-559: the loop over the files of the
   roc curve cache, for one label *)
Definition points_of (i : nat) (c : list cpoint) : list (nat * nat) :=
  map snd (filter (fun p => Nat.eqb (fst p) i) c).
Definition rocauc_label (gtc pdc : Z) (i : nat) (files : list (list cpoint)) : Q :=
  fst (fold_left (rocauc_step gtc pdc) (map (points_of i) files) (0%Q, (0, 0))).

(* models: classification/evaluator.py:524-567 compute_rocauc: per-label values
   and their mean (numpy mean of an empty array is nan: [None]) *)
Definition compute_rocauc (n_labels : nat) (tables : list (list crow)) (files : list (list cpoint)) : list Q :=
  map (fun i => rocauc_label (Z.of_nat (gt_count_label tables (Z.of_nat i)))
                             (Z.of_nat (pd_count_label tables (Z.of_nat i))) i files) (seq 0 n_labels).
Definition qsum (l : list Q) : Q := fold_right Qplus 0%Q l.
Definition mean (l : list Q) : option Q :=
  match l with [] => None | _ => Some (qsum l / inject_Z (Z.of_nat (length l)))%Q end.
