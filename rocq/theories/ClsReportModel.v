(* Model of what the classification Evaluator reports: the metric lists assembled by
   compute_precision_recall, compute_rocauc and compute_confusion_matrix from the arrays.
   Definitions only.  An entry [None] stands for an IndexError on the label axis. *)
From Verif Require Import Prelude Counting CacheModel ClsModel RocModel FlowModel ClsFilterModel.
From Coq Require Import String QArith.
Local Notation length := List.length (only parsing).
Local Notation concat := List.concat (only parsing).
Local Open Scope nat_scope.
Local Open Scope list_scope.

(* d[k] = v and d.get(k) of a dict with string keys, in insertion order *)
Fixpoint sput {V} (k : string) (v : V) (d : list (string * V)) : list (string * V) :=
  match d with
  | [] => [(k, v)]
  | (k', v') :: t => if String.eqb k k' then (k', v) :: t else (k', v') :: sput k v t
  end.
Fixpoint sget {V} (d : list (string * V)) (k : string) : option V :=
  match d with
  | [] => None
  | (k', v) :: t => if String.eqb k k' then Some v else sget t k
  end.

(* the dictionary of metric lists returned by compute_precision_recall: (score threshold,
   value) for the accuracy, (label, score threshold, value) for the others; the hardmax
   parameter repeated in every metric is omitted *)
Record cls_metrics : Type := MkMetrics {
  mt_accuracy : list (Z * Q);
  mt_counts : list (string * Z * option counts);
  mt_precision : list (string * Z * option Q);
  mt_recall : list (string * Z * option Q);
  mt_f1 : list (string * Z * option Q)
}.

Section Report.
  Variable e : ceval.

  (* models: classification/utilities.py:32-67: for each item of index_to_label and each
     score threshold, the entry [score_idx, label_idx] of an array *)
  Definition per_label {V} (f : counts -> V) (rows : list (Z * list counts)) : list (string * Z * option V) :=
    concat (map (fun kl =>
      map (fun tr => (snd kl, fst tr, option_map f (nth_error (snd tr) (Z.to_nat (fst kl))))) rows) (ce_labels e)).

  (* models: classification/evaluator.py:593-627 and utilities.py:10-68; [None] = the
     ValueError for an empty list of thresholds *)
  Definition report_metrics (tol : Z) (hardmax : bool) (thrs : list Z) (datums : crow -> bool) : option cls_metrics :=
    match thrs with
    | [] => None
    | _ =>
        let rows := combine thrs (cls_counts tol hardmax thrs datums e) in
        let n := snd (cls_info (fun _ => true) e) in
        Some (MkMetrics
          (map (fun tr => (fst tr, accuracy (map n_tp (snd tr)) n)) rows)
          (per_label (fun c => c) rows)
          (per_label precision rows)
          (per_label recall rows)
          (per_label (fun c => f1 (precision c) (recall c)) rows))
    end.

  (* models: classification/utilities.py:71-88 unpack_rocauc: (label, value) in the order
     of index_to_label, and the mean *)
  Definition report_rocauc : list (string * option Q) * option Q :=
    (map (fun kl => (snd kl, nth_error (cls_rocauc e) (Z.to_nat (fst kl)))) (ce_labels e), mean (cls_rocauc e)).

  (* models: classification/utilities.py:104-108: cm_dict[label][plabel] = int(...) *)
  Definition put_cell (M : confusion) (k : Z) (l : string) (d : list (string * list (string * nat))) (pl : Z * string)
      : list (string * list (string * nat)) :=
    let d := match sget d l with Some _ => d | None => sput l [] d end in
    sput l (sput (snd pl) (cm M k (fst pl)) (match sget d l with Some r => r | None => [] end)) d.
  (* models: classification/utilities.py:99-109: the two dictionaries of one threshold *)
  Definition unpack_matrix (M : confusion) : list (string * list (string * nat)) * list (string * nat) :=
    fold_left (fun acc kl =>
      (fold_left (put_cell M (fst kl) (snd kl)) (ce_labels e) (fst acc),
       sput (snd kl) (cm_unmatched M (fst kl)) (snd acc)))
      (ce_labels e) ([], []).

  (* models: classification/evaluator.py:653-695 and utilities.py:91-119; [None] = ValueError *)
  Definition report_confusion (tol9 : Z) (hardmax : bool) (thrs : list Z) (datums : crow -> bool)
      : option (list (Z * (list (string * list (string * nat)) * list (string * nat)))) :=
    match thrs with
    | [] => None
    | _ => Some (map (fun tm => (fst tm, unpack_matrix (snd tm))) (combine thrs (cls_confusion tol9 hardmax thrs datums e)))
    end.
End Report.
