(* C120: how a prediction is matched with the ground truth when there are many labels.
   Vocabulary: ClsManySpec.v, ClsSpec.v; model: ClsModel.v. *)
From Verif Require Import Prelude Counting ClsModel ClsSpec ClsProofs ClsLemmas ClsDemo ClsManySpec ClsManyProofs.
From Coq Require Import String QArith.
Local Open Scope nat_scope.
Local Open Scope list_scope.

(* Whatever the number of labels, with hardmax the TP count of a label is the number of selected
   datums that predict it and whose ground truth has a near number; the FP count is the number
   of the other datums that predict it. *)
Theorem C120_counts :
  forall cs tables datums sel tol thrs k thr i l,
    Forall accepted cs -> stored cs tables -> selects cs tables datums sel ->
    nth_error thrs k = Some thr -> nth_error (labels_of cs) i = Some l ->
    let pred := decides (fun s => (tol <? Z.abs s)%Z) thr in
    exists row c,
      nth_error (evaluate_counts tol true thrs (List.length (labels_of cs)) datums tables) k = Some row /\
      nth_error row i = Some c /\
      n_tp c = countb (fun c => sel c && (opt_is (pred c) l && near cs (c_groundtruth c) l)) cs /\
      n_fp c = countb (fun c => sel c && (opt_is (pred c) l && negb (near cs (c_groundtruth c) l))) cs.
Proof. exact c120_counts. Qed.
Print Assumptions C120_counts.

(* Full statement: two labels are near only if they are the same label.
   Missing here: more than 100000 labels; there it is false, see C120_refuted. *)
Theorem C120_few_partial :
  forall cs a b, (Z.of_nat (List.length (labels_of cs)) <= 100000)%Z ->
    In a (labels_of cs) -> In b (labels_of cs) -> near cs a b = String.eqb a b.
Proof. exact near_few. Qed.
Print Assumptions C120_few_partial.

Example C120_few_example :
  Forall accepted demo /\ stored demo (rows_of demo) /\ selects demo (rows_of demo) (fun _ => true) (fun _ => true) /\
  labels_of demo <> [] /\ few_labels demo.
Proof.
  split; [apply demo_accepted|]. split; [apply demo_stored|]. split; [apply selects_all|].
  split; [discriminate|]. vm_compute. discriminate.
Qed.

(* With 100002 labels or more: there is an accepted input in which one datum predicts a label
   that is the ground truth of no datum, and that label still gets one TP, no FP and precision 1. *)
Theorem C120_refuted :
  exists cs tol thr l i row c,
    Forall accepted cs /\ stored cs (ld_writes (fst (add_data loader_init cs))) /\
    nth_error (labels_of cs) i = Some l /\
    (forall x, In x cs -> c_groundtruth x <> l) /\
    nth_error (evaluate_counts tol true [thr] (List.length (labels_of cs)) (fun _ => true)
        (ld_writes (fst (add_data loader_init cs)))) 0 = Some row /\
    nth_error row i = Some c /\ n_tp c = 1 /\ n_fp c = 0 /\ precision c == 1.
Proof. exact c120_refuted. Qed.
Print Assumptions C120_refuted.

(* The same at every such size and for every score that passes the threshold. *)
Theorem C120_crowd :
  forall s n tol thr, (100000 <= Z.of_nat (S n))%Z -> (thr <= s)%Z -> (tol < Z.abs s)%Z ->
  exists row c, nth_error (evaluate_counts tol true [thr] (List.length (labels_of (crowd s n))) (fun _ => true)
      (ld_writes (fst (add_data loader_init (crowd s n))))) 0 = Some row /\
    nth_error row (S n) = Some c /\ n_tp c = 1 /\ n_fp c = 0.
Proof. exact c120_crowd. Qed.
Print Assumptions C120_crowd.
