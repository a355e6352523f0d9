(* C13-C20, C24, C46, C47, C50, C52: properties of the classification evaluator.
   Vocabulary: ClsSpec.v; model: ClsModel.v. *)
From Verif Require Import Prelude CacheModel CacheSpec Counting ClsModel ClsSpec ClsLabelProofs ClsProofs
  ClsConfProofs ClsLemmas ClsMore ClsExampleProofs ClsDemo FlowModel FlowProofs.
From Coq Require Import String QArith Lqa.
Local Open Scope nat_scope.
Local Open Scope list_scope.

(* ---------------------------------------------------------------- C13 *)
(* The loader numbers the labels in order of first appearance, without repetition,
   and exactly the labels of the input are numbered. *)
Theorem C13_label_registry :
  forall cs, Forall accepted cs ->
    ld_labels (fst (add_data loader_init cs)) = labels_of cs
    /\ NoDup (labels_of cs)
    /\ (forall l, In l (labels_of cs) <->
          exists c, In c cs /\ (l = c_groundtruth c \/ In l (c_predictions c))).
Proof. exact registry. Qed.
Print Assumptions C13_label_registry.

(* A number once given is never changed by further data, from any loader state. *)
Theorem C13_labels_only_grow :
  forall l cs i v, nth_error (ld_labels l) i = Some v ->
    nth_error (ld_labels (fst (add_data l cs))) i = Some v.
Proof.
  intros l cs i v H. destruct (registry_grows cs l) as (more & ->).
  rewrite nth_error_app1; [exact H|]. apply nth_error_Some. congruence.
Qed.
Print Assumptions C13_labels_only_grow.

(* The label map rebuilt from the stored rows is the loader's, for every datum-aligned
   storage of the rows. *)
Theorem C13_extracted_labels :
  forall cs tables, Forall accepted cs -> stored cs tables ->
    List.length (extract_labels tables) = List.length (labels_of cs)
    /\ forall (i : nat) l, dict_get (extract_labels tables) (Z.of_nat i) = Some l <-> nth_error (labels_of cs) i = Some l.
Proof.
  intros cs tables Ha Hst. split; [apply extracted_length; auto|apply extracted_get; auto].
Qed.
Print Assumptions C13_extracted_labels.

Example C13_example :
  Forall accepted demo /\ stored demo (rows_of demo)
  /\ labels_of demo = ["cat"; "dog"]%string
  /\ extract_labels (rows_of demo) = [(0%Z, "cat"); (1%Z, "dog")]%string.
Proof. split; [apply demo_accepted|]. split; [apply demo_stored|]. split; reflexivity. Qed.

(* ---------------------------------------------------------------- C14 *)
(* The rows written for a datum: one per candidate, with its score, in order; ids
   denote the labels; match says whether the candidate is the ground truth; exactly
   one row is the winner, the first with the highest score. *)
Theorem C14_one_row_per_candidate :
  forall cs d c, Forall accepted cs -> nth_error cs d = Some c ->
    exists rows, nth_error (ld_writes (fst (add_data loader_init cs))) d = Some rows
      /\ List.length (ld_writes (fst (add_data loader_init cs))) = List.length cs
      /\ map (fun r => (r_pd_label r, r_score r)) rows = candidates c
      /\ (forall r, In r rows ->
            r_uid r = c_uid c /\ r_datum r = Z.of_nat d /\ r_gt_label r = c_groundtruth c
            /\ (0 <= r_gt r)%Z /\ nth_error (labels_of cs) (Z.to_nat (r_gt r)) = Some (c_groundtruth c)
            /\ (0 <= r_pd r)%Z /\ nth_error (labels_of cs) (Z.to_nat (r_pd r)) = Some (r_pd_label r)
            /\ r_match r = String.eqb (c_groundtruth c) (r_pd_label r))
      /\ exists pre w post, rows = pre ++ w :: post /\ r_winner w = true
           /\ (forall r, In r pre \/ In r post -> r_winner r = false)
           /\ is_top c (r_pd_label w, r_score w).
Proof. exact datum_rows. Qed.
Print Assumptions C14_one_row_per_candidate.

(* input without candidates is rejected and changes nothing *)
Theorem C14_empty_predictions_rejected :
  forall l c cs, c_predictions c = [] -> add_data l (c :: cs) = (l, false).
Proof. intros l c cs H. cbn. unfold add_one. rewrite H. reflexivity. Qed.
Print Assumptions C14_empty_predictions_rejected.

Example C14_example :
  map (map (fun r => (r_pd_label r, r_winner r, r_match r))) (rows_of demo)
  = [ [("cat", true, true); ("dog", false, false)];
      [("cat", true, false); ("dog", false, true)];
      [("cat", false, false); ("dog", true, true)];
      [("cat", true, true); ("dog", false, false)] ]%string.
Proof. reflexivity. Qed.

(* ---------------------------------------------------------------- C15 *)
(* Counts with hardmax, for any data with distinct candidates, any datum filter, any
   list of thresholds.  A false negative needs the ground truth to be a candidate or
   something to be predicted; a true negative needs the label to be a candidate. *)
Theorem C15_counts_hardmax :
  forall cs tables datums sel tol thrs k thr i l,
    Forall accepted cs -> few_labels cs -> Forall distinct_candidates cs ->
    stored cs tables -> selects cs tables datums sel ->
    nth_error thrs k = Some thr -> nth_error (labels_of cs) i = Some l ->
    let pred := decides (fun s => (tol <? Z.abs s)%Z) thr in
    exists row,
      nth_error (evaluate_counts tol true thrs (List.length (labels_of cs)) datums tables) k = Some row
      /\ nth_error row i = Some (MkCounts
           (countb (fun c => sel c && outcome_tp pred l c) cs)
           (countb (fun c => sel c && outcome_fp pred l c) cs)
           (countb (fun c => sel c && (outcome_fn pred l c && noticed pred c)) cs)
           (countb (fun c => sel c && (smem l (c_predictions c) && outcome_tn pred l c)) cs)).
Proof.
  intros cs tables datums sel tol thrs k thr i l Ha Hf Hd Hst Hsel Hk Hi pred.
  destruct (nth_label cs i l Hi) as (Hlt & Hl & Ei).
  destruct (counts_entry tol true thrs (List.length (labels_of cs)) datums tables k thr i Hk Hlt) as (row & H1 & H2).
  exists row. split; [exact H1|]. rewrite H2, Ei. f_equal. apply counts_hardmax; auto.
Qed.
Print Assumptions C15_counts_hardmax.

(* For complete predictions (every label is a candidate everywhere) the four counts are
   exactly the four outcomes. *)
Theorem C15_counts_hardmax_complete :
  forall cs tables datums sel tol thrs k thr i l,
    Forall accepted cs -> few_labels cs -> Forall distinct_candidates cs ->
    (forall c x, In c cs -> In x (labels_of cs) -> In x (c_predictions c)) ->
    stored cs tables -> selects cs tables datums sel ->
    nth_error thrs k = Some thr -> nth_error (labels_of cs) i = Some l ->
    let pred := decides (fun s => (tol <? Z.abs s)%Z) thr in
    exists row,
      nth_error (evaluate_counts tol true thrs (List.length (labels_of cs)) datums tables) k = Some row
      /\ nth_error row i = Some (MkCounts
           (countb (fun c => sel c && outcome_tp pred l c) cs)
           (countb (fun c => sel c && outcome_fp pred l c) cs)
           (countb (fun c => sel c && outcome_fn pred l c) cs)
           (countb (fun c => sel c && outcome_tn pred l c) cs)).
Proof.
  intros cs tables datums sel tol thrs k thr i l Ha Hf Hd Hcomp Hst Hsel Hk Hi pred.
  destruct (C15_counts_hardmax cs tables datums sel tol thrs k thr i l Ha Hf Hd Hst Hsel Hk Hi) as (row & H1 & H2).
  exists row. split; [exact H1|]. rewrite H2. f_equal. f_equal; apply countb_ext; intros c Hc; f_equal.
  - unfold noticed. assert (smem (c_groundtruth c) (c_predictions c) = true) as ->; [|apply andb_true_r].
    apply smem_In, Hcomp; [exact Hc|apply labels_of_gt; exact Hc].
  - assert (smem l (c_predictions c) = true) as ->; [|reflexivity].
    apply smem_In, Hcomp; [exact Hc|]. eapply nth_error_In; eauto.
Qed.
Print Assumptions C15_counts_hardmax_complete.

(* Counts without hardmax: every candidate reaching the threshold is predicted; a
   ground truth is a false negative when its own score does not reach the threshold or
   when any other label is predicted. *)
Theorem C15_counts_without_hardmax :
  forall cs tables datums sel tol thrs k thr i l,
    Forall accepted cs -> few_labels cs -> Forall distinct_candidates cs ->
    stored cs tables -> selects cs tables datums sel ->
    nth_error thrs k = Some thr -> nth_error (labels_of cs) i = Some l ->
    let pos := positives false (pass_counts tol thr) in
    exists row,
      nth_error (evaluate_counts tol false thrs (List.length (labels_of cs)) datums tables) k = Some row
      /\ nth_error row i = Some (MkCounts
           (countb (fun c => sel c && (String.eqb (c_groundtruth c) l && smem l (pos c))) cs)
           (countb (fun c => sel c && (negb (String.eqb (c_groundtruth c) l) && smem l (pos c))) cs)
           (countb (fun c => sel c && (String.eqb (c_groundtruth c) l
              && ((smem l (c_predictions c) && negb (smem l (pos c))) || other_positive (pass_counts tol thr) l c))) cs)
           (countb (fun c => sel c && (smem l (c_predictions c)
              && (negb (String.eqb (c_groundtruth c) l) && negb (smem l (pos c))))) cs)).
Proof.
  intros cs tables datums sel tol thrs k thr i l Ha Hf Hd Hst Hsel Hk Hi pos.
  destruct (nth_label cs i l Hi) as (Hlt & Hl & Ei).
  destruct (counts_entry tol false thrs (List.length (labels_of cs)) datums tables k thr i Hk Hlt) as (row & H1 & H2).
  exists row. split; [exact H1|]. rewrite H2, Ei. f_equal. apply counts_soft; auto.
Qed.
Print Assumptions C15_counts_without_hardmax.

Example C15_example :
  Forall accepted demo /\ few_labels demo /\ Forall distinct_candidates demo
  /\ (forall c x, In c demo -> In x (labels_of demo) -> In x (c_predictions c))
  /\ stored demo (rows_of demo)
  /\ selects demo (rows_of demo) (fun _ => true) (fun _ => true)
  /\ evaluate_counts 0 true [4; 6]%Z 2 (fun _ => true) (rows_of demo)
     = [[MkCounts 2 1 0 1; MkCounts 1 0 1 2]; [MkCounts 1 1 1 1; MkCounts 1 0 1 2]]
  /\ evaluate_counts 0 false [4; 6]%Z 2 (fun _ => true) (rows_of demo)
     = [[MkCounts 2 1 1 1; MkCounts 2 1 1 1]; [MkCounts 1 1 1 1; MkCounts 1 0 1 2]].
Proof.
  split; [apply demo_accepted|]. split; [apply demo_few|]. split; [apply demo_distinct|].
  split. { intros c x Hc Hx. cbn in Hc, Hx. destruct Hx as [<-|[<-|[]]]; destruct Hc as [<-|[<-|[<-|[<-|[]]]]]; cbn; auto. }
  split; [apply demo_stored|]. split; [apply selects_all|]. split; reflexivity.
Qed.

(* ---------------------------------------------------------------- C16 *)
(* Full claim: TP + FN = number of selected ground truths with the label, always.  That is
   false of the code (see the _refuted theorems); missing are hardmax=False and datums
   whose ground truth is no candidate.
   Conservation with hardmax: every selected ground truth that is a candidate of its
   datum, or whose datum has a prediction, is counted exactly once. *)
Theorem C16_tp_plus_fn_partial :
  forall cs tables datums sel tol thrs k thr i l,
    Forall accepted cs -> few_labels cs -> Forall distinct_candidates cs ->
    stored cs tables -> selects cs tables datums sel ->
    nth_error thrs k = Some thr -> nth_error (labels_of cs) i = Some l ->
    exists row n,
      nth_error (evaluate_counts tol true thrs (List.length (labels_of cs)) datums tables) k = Some row
      /\ nth_error row i = Some n
      /\ n_tp n + n_fn n = countb (fun c => sel c && (String.eqb (c_groundtruth c) l
                                     && noticed (decides (fun s => (tol <? Z.abs s)%Z) thr) c)) cs.
Proof.
  intros cs tables datums sel tol thrs k thr i l Ha Hf Hd Hst Hsel Hk Hi.
  destruct (nth_label cs i l Hi) as (Hlt & _).
  destruct (counts_entry tol true thrs (List.length (labels_of cs)) datums tables k thr i Hk Hlt) as (row & H1 & H2).
  exists row. eexists. split; [exact H1|]. split; [exact H2|]. apply tp_fn_hardmax; auto.
Qed.
Print Assumptions C16_tp_plus_fn_partial.

(* if the ground truth is always a candidate: TP + FN is the number of ground truths *)
Theorem C16_tp_plus_fn_covered_partial :
  forall cs tables datums sel tol thrs k thr i l,
    Forall accepted cs -> few_labels cs -> Forall distinct_candidates cs -> Forall covered cs ->
    stored cs tables -> selects cs tables datums sel ->
    nth_error thrs k = Some thr -> nth_error (labels_of cs) i = Some l ->
    exists row n,
      nth_error (evaluate_counts tol true thrs (List.length (labels_of cs)) datums tables) k = Some row
      /\ nth_error row i = Some n
      /\ n_tp n + n_fn n = countb (fun c => sel c && String.eqb (c_groundtruth c) l) cs.
Proof.
  intros cs tables datums sel tol thrs k thr i l Ha Hf Hd Hcov Hst Hsel Hk Hi.
  destruct (C16_tp_plus_fn_partial cs tables datums sel tol thrs k thr i l Ha Hf Hd Hst Hsel Hk Hi) as (row & n & H1 & H2 & H3).
  exists row, n. split; [exact H1|]. split; [exact H2|]. rewrite H3. apply countb_ext. intros c Hc.
  rewrite Forall_forall in Hcov. unfold noticed.
  assert (smem (c_groundtruth c) (c_predictions c) = true) as -> by (apply smem_In, Hcov, Hc).
  cbn. rewrite andb_true_r. reflexivity.
Qed.
Print Assumptions C16_tp_plus_fn_covered_partial.

Example C16_example : Forall covered demo /\ countb (fun c => String.eqb (c_groundtruth c) "cat") demo = 2.
Proof. split; [apply demo_covered|reflexivity]. Qed.

(* The unrestricted claim is false: a ground truth outside the candidates disappears
   when nothing is predicted (hardmax) ... *)
Theorem C16_uncovered_refuted :
  exists cs i l n m, Forall accepted cs /\ Forall distinct_candidates cs /\ stored cs (rows_of cs)
    /\ nth_error (labels_of cs) i = Some l
    /\ evaluate_counts 0 true [5%Z] (List.length (labels_of cs)) (fun _ => true) (rows_of cs) = [[n; m]]
    /\ i = 0 /\ n_tp n + n_fn n = 0 /\ countb (fun c => String.eqb (c_groundtruth c) l) cs = 1.
Proof.
  exists [MkCls "u" "cat" ["dog"] [3%Z]]%string, 0, "cat"%string, (MkCounts 0 0 0 0), (MkCounts 0 0 0 1).
  assert (Ha : Forall accepted [MkCls "u" "cat" ["dog"] [3%Z]]%string) by (constructor; [split; [discriminate|reflexivity]|constructor]).
  split; [exact Ha|]. split; [repeat constructor; cbn; intuition discriminate|]. split; [apply rows_of_stored; exact Ha|].
  split; [reflexivity|]. split; [|split; [reflexivity|split; reflexivity]].
  vm_compute. reflexivity.
Qed.
Print Assumptions C16_uncovered_refuted.

(* ... and without hardmax one ground truth can be both TP and FN. *)
Theorem C16_without_hardmax_refuted :
  exists cs l n m, Forall accepted cs /\ Forall distinct_candidates cs /\ Forall covered cs /\ stored cs (rows_of cs)
    /\ nth_error (labels_of cs) 0 = Some l
    /\ evaluate_counts 0 false [5%Z] (List.length (labels_of cs)) (fun _ => true) (rows_of cs) = [[n; m]]
    /\ n_tp n + n_fn n = 2 /\ countb (fun c => String.eqb (c_groundtruth c) l) cs = 1.
Proof.
  exists [MkCls "u" "cat" ["cat"; "dog"] [7; 6]%Z]%string, "cat"%string, (MkCounts 1 0 1 0), (MkCounts 0 1 0 0).
  assert (Ha : Forall accepted [MkCls "u" "cat" ["cat"; "dog"] [7; 6]%Z]%string) by (constructor; [split; [discriminate|reflexivity]|constructor]).
  split; [exact Ha|]. split; [repeat constructor; cbn; intuition discriminate|].
  split; [repeat constructor|]. split; [apply rows_of_stored; exact Ha|].
  split; [reflexivity|]. split; [vm_compute; reflexivity|]. split; reflexivity.
Qed.
Print Assumptions C16_without_hardmax_refuted.

(* ---------------------------------------------------------------- C17 *)
(* For all counts: precision, recall and F1 are defined and lie in [0,1]; F1 is the
   harmonic mean (and between precision and recall) unless both are below 1e-9. *)
Theorem C17_metrics_in_unit_interval :
  forall n : counts,
    (0 <= precision n <= 1)%Q /\ (0 <= recall n <= 1)%Q /\ (0 <= f1 (precision n) (recall n) <= 1)%Q
    /\ ((1 # 1000000000) < precision n + recall n ->
          f1 (precision n) (recall n) * (precision n + recall n) == 2 * precision n * recall n
          /\ ((precision n <= f1 (precision n) (recall n) /\ f1 (precision n) (recall n) <= recall n)
              \/ (recall n <= f1 (precision n) (recall n) /\ f1 (precision n) (recall n) <= precision n)))%Q.
Proof.
  intros n. assert (Hp : (0 <= precision n <= 1)%Q) by (apply qdiv_bounds; lia).
  assert (Hr : (0 <= recall n <= 1)%Q) by (apply qdiv_bounds; lia).
  split; [exact Hp|]. split; [exact Hr|]. split; [apply f1_bounds; assumption|].
  intros H. split; [apply f1_harmonic; tauto|apply f1_between; tauto].
Qed.
Print Assumptions C17_metrics_in_unit_interval.

(* they are the usual ratios *)
Theorem C17_metrics_are_ratios :
  forall n : counts,
    ((0 < n_tp n + n_fp n)%nat -> precision n * inject_Z (Z.of_nat (n_tp n + n_fp n)) == inject_Z (Z.of_nat (n_tp n)))%Q
    /\ ((0 < n_tp n + n_fn n)%nat -> recall n * inject_Z (Z.of_nat (n_tp n + n_fn n)) == inject_Z (Z.of_nat (n_tp n)))%Q
    /\ (n_tp n = 0%nat -> precision n == 0 /\ recall n == 0)%Q.
Proof.
  intros n. unfold precision, recall, qdiv_or_0. split; [|split].
  - intros H. destruct (Nat.ltb_spec 0 (n_tp n + n_fp n)); [|lia]. field.
    change 0%Q with (inject_Z 0). rewrite inject_Z_injective. lia.
  - intros H. destruct (Nat.ltb_spec 0 (n_tp n + n_fn n)); [|lia]. field.
    change 0%Q with (inject_Z 0). rewrite inject_Z_injective. lia.
  - intros ->. split; destruct (Nat.ltb 0 _); try reflexivity; unfold Qdiv; apply Qmult_0_l.
Qed.
Print Assumptions C17_metrics_are_ratios.

(* Accuracy lies in [0,1] with hardmax, for every data set and datum filter. *)
Theorem C17_accuracy_in_unit_interval :
  forall cs tables datums sel tol thr,
    Forall accepted cs -> few_labels cs -> stored cs tables -> selects cs tables datums sel ->
    (0 <= reported_accuracy tol true (List.length (labels_of cs)) datums tables thr <= 1)%Q.
Proof.
  intros cs tables datums sel tol thr Ha Hf Hst Hsel.
  rewrite (accuracy_value cs Ha tol thr tables datums sel Hst Hsel). unfold accuracy.
  destruct (Nat.eqb_spec (List.length cs) 0) as [E|N]; [lra|].
  rewrite (tp_sum cs Ha Hf tol thr tables datums sel Hst Hsel).
  pose proof (qdiv_bounds (countb (fun c => sel c && correct (fun s => (tol <? Z.abs s)%Z) thr c) cs) (List.length cs)
               (countb_le_length _ _)) as B.
  unfold qdiv_or_0 in B. destruct (Nat.ltb_spec 0 (List.length cs)); [exact B|lia].
Qed.
Print Assumptions C17_accuracy_in_unit_interval.

Example C17_example :
  precision (MkCounts 2 1 0 1) == 2 # 3 /\ recall (MkCounts 2 1 0 1) == 1
  /\ f1 (precision (MkCounts 2 1 0 1)) (recall (MkCounts 2 1 0 1)) == 4 # 5
  /\ reported_accuracy 0 true 2 (fun _ => true) (rows_of demo) 4 == 3 # 4.
Proof. repeat split; vm_compute; reflexivity. Qed.

(* Without hardmax and with a repeated candidate accuracy exceeds 1. *)
Theorem C17_accuracy_without_hardmax_refuted :
  exists cs, Forall accepted cs /\ stored cs (rows_of cs)
    /\ (1 < reported_accuracy 0 false (List.length (labels_of cs)) (fun _ => true) (rows_of cs) 5)%Q.
Proof.
  exists [MkCls "u" "cat" ["cat"; "cat"] [7; 6]%Z]%string.
  assert (Ha : Forall accepted [MkCls "u" "cat" ["cat"; "cat"] [7; 6]%Z]%string) by (constructor; [split; [discriminate|reflexivity]|constructor]).
  split; [exact Ha|]. split; [apply rows_of_stored; exact Ha|]. vm_compute. reflexivity.
Qed.
Print Assumptions C17_accuracy_without_hardmax_refuted.

(* ---------------------------------------------------------------- C18 *)
(* Any two datum-aligned splits of the same rows (in any order) give the same counts,
   confusion matrices and number of datums, for every filter expression on rows. *)
Theorem C18_split_independence :
  forall t1 t2, Permutation (List.concat t1) (List.concat t2) -> aligned r_datum t1 -> aligned r_datum t2 ->
    (forall tol hm thrs n datums, evaluate_counts tol hm thrs n datums t1 = evaluate_counts tol hm thrs n datums t2)
    /\ (forall tol9 hm thrs datums,
          Forall2 (fun a b => (forall g p, cm a g p = cm b g p) /\ (forall g, cm_unmatched a g = cm_unmatched b g))
            (evaluate_confusion tol9 hm thrs datums t1) (evaluate_confusion tol9 hm thrs datums t2))
    /\ (forall datums, extract_counts datums t1 = extract_counts datums t2).
Proof.
  intros t1 t2 Hp H1 H2. split; [|split]; intros.
  - apply counts_split; auto.
  - apply confusion_split; auto.
  - apply datums_split; auto.
Qed.
Print Assumptions C18_split_independence.

(* alignment matters: cutting a datum apart changes the counts *)
Example C18_example :
  Permutation (List.concat (rows_of demo)) (List.concat [List.concat (rows_of demo)])
  /\ aligned r_datum (rows_of demo) /\ aligned r_datum [List.concat (rows_of demo)]
  /\ (let rows := rows_of [MkCls "u" "dog" ["cat"; "fox"; "dog"] [6; 6; 1]%Z]%string in
      evaluate_counts 0 false [3%Z] 3 (fun _ => true) (map (fun r => [r]) (List.concat rows))
      <> evaluate_counts 0 false [3%Z] 3 (fun _ => true) rows).
Proof.
  split; [cbn [List.concat]; rewrite app_nil_r; reflexivity|]. split; [apply demo_stored|].
  split; [apply aligned_single|]. vm_compute. discriminate.
Qed.

(* ---------------------------------------------------------------- C19 *)
(* Every entry of the confusion matrix, in terms of the input. *)
Theorem C19_confusion_entries :
  forall cs tables datums sel tol9 hm thrs k thr,
    Forall accepted cs -> stored cs tables -> selects cs tables datums sel -> nth_error thrs k = Some thr ->
    exists M, nth_error (evaluate_confusion tol9 hm thrs datums tables) k = Some M
      /\ (forall i j g p, nth_error (labels_of cs) i = Some g -> nth_error (labels_of cs) j = Some p ->
            cm M (Z.of_nat i) (Z.of_nat j)
            = countb (fun c => sel c && (String.eqb (c_groundtruth c) g
                         && smem p (positives hm (pass_cm tol9 (firstn (S k) thrs)) c))) cs)
      /\ (forall i g, nth_error (labels_of cs) i = Some g ->
            cm_unmatched M (Z.of_nat i)
            = countb (fun c => sel c && (String.eqb (c_groundtruth c) g
                         && match positives hm (pass_cm tol9 (firstn (S k) thrs)) c with [] => true | _ => false end)) cs).
Proof.
  intros cs tables datums sel tol9 hm thrs k thr. apply confusion_entry.
Qed.
Print Assumptions C19_confusion_entries.

(* With hardmax every selected ground truth is in its row or among the unmatched. *)
Theorem C19_rows_conserve_ground_truths :
  forall cs tables datums sel tol9 thrs k thr M i g,
    Forall accepted cs -> stored cs tables -> selects cs tables datums sel -> nth_error thrs k = Some thr ->
    nth_error (evaluate_confusion tol9 true thrs datums tables) k = Some M ->
    nth_error (labels_of cs) i = Some g ->
    list_sum_nat (map (fun j => cm M (Z.of_nat i) (Z.of_nat j)) (seq 0 (List.length (labels_of cs))))
      + cm_unmatched M (Z.of_nat i)
    = countb (fun c => sel c && String.eqb (c_groundtruth c) g) cs.
Proof. intros cs tables datums sel tol9 thrs k thr M i g. apply confusion_conserves. Qed.
Print Assumptions C19_rows_conserve_ground_truths.

Example C19_example :
  exists M, nth_error (evaluate_confusion 0 true [4; 6]%Z (fun _ => true) (rows_of demo)) 1 = Some M
  /\ [cm M 0 0; cm M 0 1; cm_unmatched M 0] = [1; 0; 1]%nat /\ [cm M 1 0; cm M 1 1; cm_unmatched M 1] = [1; 1; 0]%nat.
Proof. eexists. split; [reflexivity|]. vm_compute. auto. Qed.

(* ---------------------------------------------------------------- C20 *)
(* Full claim: for every list of thresholds.  False of the code, see below; C19 gives the
   entries for an arbitrary list.
   For an ascending list of thresholds the matrix reported at a threshold is the one
   for that threshold alone. *)
Theorem C20_ascending_thresholds_partial :
  forall cs tables datums sel tol9 hm thrs k thr,
    Forall accepted cs -> stored cs tables -> selects cs tables datums sel ->
    StronglySorted Z.le thrs -> nth_error thrs k = Some thr ->
    exists M M1, nth_error (evaluate_confusion tol9 hm thrs datums tables) k = Some M
      /\ evaluate_confusion tol9 hm [thr] datums tables = [M1]
      /\ (forall i j, i < List.length (labels_of cs) -> j < List.length (labels_of cs) ->
            cm M (Z.of_nat i) (Z.of_nat j) = cm M1 (Z.of_nat i) (Z.of_nat j))
      /\ (forall i, i < List.length (labels_of cs) -> cm_unmatched M (Z.of_nat i) = cm_unmatched M1 (Z.of_nat i)).
Proof.
  intros cs tables datums sel tol9 hm thrs k thr Ha Hst Hsel Hs Hk.
  destruct (confusion_entry cs tol9 hm thrs tables datums sel k thr Ha Hst Hsel Hk) as (M & HM & Hcm & Hun).
  destruct (confusion_entry cs tol9 hm [thr] tables datums sel 0 thr Ha Hst Hsel eq_refl) as (M1 & HM1 & Hcm1 & Hun1).
  exists M, M1. split; [exact HM|]. split.
  { unfold evaluate_confusion, masks in *. cbn in *. congruence. }
  assert (E : forall c, positives hm (pass_cm tol9 (firstn (S k) thrs)) c = positives hm (pass_cm tol9 (firstn 1 [thr])) c).
  { intros c. unfold positives. destruct hm.
    - destruct (top c) as [[l s]|]; [|reflexivity]. rewrite (pass_ascending tol9 thrs k thr s Hs Hk). reflexivity.
    - f_equal. apply filter_ext. intros p. apply (pass_ascending tol9 thrs k thr _ Hs Hk). }
  split.
  - intros i j Hi Hj. destruct (nth_error (labels_of cs) i) as [g|] eqn:Eg; [|apply nth_error_None in Eg; lia].
    destruct (nth_error (labels_of cs) j) as [p|] eqn:Ep; [|apply nth_error_None in Ep; lia].
    rewrite (Hcm i j g p Eg Ep), (Hcm1 i j g p Eg Ep). apply countb_ext. intros c _. rewrite E. reflexivity.
  - intros i Hi. destruct (nth_error (labels_of cs) i) as [g|] eqn:Eg; [|apply nth_error_None in Eg; lia].
    rewrite (Hun i g Eg), (Hun1 i g Eg). apply countb_ext. intros c _. rewrite E. reflexivity.
Qed.
Print Assumptions C20_ascending_thresholds_partial.

Example C20_example : StronglySorted Z.le [4; 6]%Z /\ nth_error [4; 6]%Z 1 = Some 6%Z.
Proof. split; [repeat constructor; discriminate|reflexivity]. Qed.

(* In general it is not: thresholds in front of it also apply. *)
Theorem C20_any_order_refuted :
  exists cs tol9 thrs k thr M M1, Forall accepted cs /\ stored cs (rows_of cs) /\ nth_error thrs k = Some thr
    /\ nth_error (evaluate_confusion tol9 true thrs (fun _ => true) (rows_of cs)) k = Some M
    /\ evaluate_confusion tol9 true [thr] (fun _ => true) (rows_of cs) = [M1]
    /\ cm M 0 0 <> cm M1 0 0.
Proof.
  exists demo, 0%Z, [6; 4]%Z, 1, 4%Z. eexists. eexists. split; [apply demo_accepted|]. split; [apply demo_stored|].
  split; [reflexivity|]. split; [reflexivity|]. split; [reflexivity|]. vm_compute. discriminate.
Qed.
Print Assumptions C20_any_order_refuted.

(* ---------------------------------------------------------------- C24 *)
(* The filtered cache consists of exactly the stored rows whose datum is selected and
   whose ground truth and prediction are selected (a ground truth / prediction is
   selected when some row about it satisfies the expression); order and alignment are
   kept. *)
Theorem C24_filter_keeps_selected_rows :
  forall datums gts pds tables, aligned r_datum tables ->
    let all := List.concat tables in
    List.concat (filter_tables datums gts pds tables)
    = filter (fun r => datums r
        && match gts with None => true | Some f => existsb (fun x => datums x && f x && same_gt r x) all end
        && match pds with None => true | Some f => existsb (fun x => datums x && f x && same_pd r x) all end) all
    /\ aligned r_datum (filter_tables datums gts pds tables).
Proof.
  intros datums gts pds tables H all. split; [apply filter_tables_rows; exact H|apply filter_tables_aligned; exact H].
Qed.
Print Assumptions C24_filter_keeps_selected_rows.

(* In terms of the input: expressions on datum, ground truth and candidate keep exactly
   the candidates for which all three hold. *)
Theorem C24_filter_on_input :
  forall cs tables datums sel gts sg pds (sp : classification -> string * Z -> bool) r,
    Forall accepted cs -> Forall distinct_candidates cs -> stored cs tables ->
    selects cs tables datums sel -> selects cs tables gts sg ->
    (forall r d c, In r (List.concat tables) -> r_datum r = Z.of_nat d -> nth_error cs d = Some c ->
       pds r = sp c (r_pd_label r, r_score r)) ->
    In r (List.concat (filter_tables datums (Some gts) (Some pds) tables))
    <-> In r (List.concat tables) /\
        exists d c, r_datum r = Z.of_nat d /\ nth_error cs d = Some c
          /\ sel c = true /\ sg c = true /\ sp c (r_pd_label r, r_score r) = true.
Proof. exact filter_stored. Qed.
Print Assumptions C24_filter_on_input.

(* Evaluating the cache filtered by datums gives what evaluating with that datum filter
   gives. *)
Theorem C24_filter_then_evaluate :
  forall tables datums,
    (forall tol hm thrs n, evaluate_counts tol hm thrs n (fun _ => true) (filter_tables datums None None tables)
                           = evaluate_counts tol hm thrs n datums tables)
    /\ (forall tol9 hm thrs, evaluate_confusion tol9 hm thrs (fun _ => true) (filter_tables datums None None tables)
                             = evaluate_confusion tol9 hm thrs datums tables).
Proof.
  intros tables datums. split; intros; [apply counts_after_filter|apply confusion_after_filter].
Qed.
Print Assumptions C24_filter_then_evaluate.

Example C24_example :
  aligned r_datum (rows_of demo)
  /\ map (map (fun r => (r_datum r, r_pd_label r)))
       (filter_tables (fun r => (0 <? r_datum r)%Z) (Some (fun r => String.eqb (r_gt_label r) "dog"))
          (Some (fun r => (5 <? r_score r)%Z)) (rows_of demo))
     = [ []; [(1%Z, "cat"%string)]; [(2%Z, "dog"%string)]; [] ].
Proof. split; [apply demo_stored|reflexivity]. Qed.

(* ---------------------------------------------------------------- C46 *)
Theorem C46_schema_rejects_reserved_names :
  forall reserved fields,
    (generate_schema reserved fields = None <-> exists f, In f fields /\ In (fst f) reserved)
    /\ (forall s, generate_schema reserved fields = Some s ->
          s = reserved ++ map fst fields /\ (NoDup reserved -> NoDup (map fst fields) -> NoDup s)).
Proof. intros. split; [apply schema_rejected|apply schema_accepted]. Qed.
Print Assumptions C46_schema_rejects_reserved_names.

Theorem C46_metadata_fields_roundtrip :
  forall fields, NoDup (map fst fields) -> decode_fields (encode_fields fields) = fields.
Proof. exact encode_fields_id. Qed.
Print Assumptions C46_metadata_fields_roundtrip.

Example C46_example :
  generate_schema reserved_fields [("scene", "string"); ("match", "bool")]%string = None
  /\ generate_schema reserved_fields [("scene", "string")]%string = Some (reserved_fields ++ ["scene"%string])
  /\ decode_fields (encode_fields [("b", "int64"); ("a", "string")]%string) = [("b", "int64"); ("a", "string")]%string.
Proof. repeat split; reflexivity. Qed.

(* ---------------------------------------------------------------- C47 *)
(* The matrix with examples lists exactly as many examples as the plain matrix counts,
   in every cell, for all tables and thresholds. *)
Theorem C47_examples_match_counts :
  forall tables datums tol9 hm thrs k M,
    nth_error (evaluate_confusion tol9 hm thrs datums tables) k = Some M ->
    (forall g p, exists ex, nth_error (evaluate_cell tol9 hm thrs datums tables g p) k = Some ex /\ List.length ex = cm M g p)
    /\ (forall g, exists ex, nth_error (evaluate_unmatched tol9 hm thrs datums tables g) k = Some ex /\ List.length ex = cm_unmatched M g).
Proof. intros tables datums tol9 hm thrs k M. apply cells_count. Qed.
Print Assumptions C47_examples_match_counts.

(* and the examples are exactly the datums concerned, each once, with the right score *)
Theorem C47_examples_are_the_datums :
  forall cs tables datums sel tol9 hm thrs k thr,
    Forall accepted cs -> Forall distinct_candidates cs -> stored cs tables -> selects cs tables datums sel ->
    nth_error thrs k = Some thr ->
    let pos := positives hm (pass_cm tol9 (firstn (S k) thrs)) in
    (forall i j g p, nth_error (labels_of cs) i = Some g -> nth_error (labels_of cs) j = Some p ->
       exists ex, nth_error (evaluate_cell tol9 hm thrs datums tables (Z.of_nat i) (Z.of_nat j)) k = Some ex
         /\ Permutation ex (map (fun c => (Some (c_uid c), score_of p c))
              (filter (fun c => sel c && (String.eqb (c_groundtruth c) g && smem p (pos c))) cs)))
    /\ (forall i g, nth_error (labels_of cs) i = Some g ->
       exists ex, nth_error (evaluate_unmatched tol9 hm thrs datums tables (Z.of_nat i)) k = Some ex
         /\ Permutation ex (map (fun c => Some (c_uid c))
              (filter (fun c => sel c && (String.eqb (c_groundtruth c) g
                                && match pos c with [] => true | _ => false end)) cs))).
Proof.
  intros cs tables datums sel tol9 hm thrs k thr Ha Hd Hst Hsel Hk pos.
  destruct (masks_nth tol9 hm thrs k thr Hk) as (m & Em & Hm). unfold evaluate_cell, evaluate_unmatched. split.
  - intros i j g p Hi Hj. destruct (nth_label cs i g Hi) as (_ & Hg & ->), (nth_label cs j p Hj) as (_ & Hp & ->).
    rewrite nth_error_map, Em. eexists. split; [reflexivity|]. apply cell_examples_meaning; auto.
  - intros i g Hi. destruct (nth_label cs i g Hi) as (_ & Hg & ->).
    rewrite nth_error_map, Em. eexists. split; [reflexivity|]. apply unmatched_examples_meaning; auto.
Qed.
Print Assumptions C47_examples_are_the_datums.

Example C47_example :
  evaluate_cell 0 true [4; 6]%Z (fun _ => true) (rows_of demo) 1 0 = [[(Some "u1"%string, Some 6%Z)]; [(Some "u1"%string, Some 6%Z)]]
  /\ evaluate_unmatched 0 true [4; 6]%Z (fun _ => true) (rows_of demo) 0 = [[]; [Some "u3"%string]].
Proof. split; reflexivity. Qed.

(* ---------------------------------------------------------------- C50 *)
(* Full claim: divided by the number of selected datums.  False of the code for a proper
   filter, see below.
   Accuracy with hardmax: correctly classified selected datums over all datums. *)
Theorem C50_accuracy_partial :
  forall cs tables datums sel tol thr,
    Forall accepted cs -> few_labels cs -> cs <> [] -> stored cs tables -> selects cs tables datums sel ->
    (reported_accuracy tol true (List.length (labels_of cs)) datums tables thr
     == inject_Z (Z.of_nat (countb (fun c => sel c && correct (fun s => (tol <? Z.abs s)%Z) thr c) cs))
        / inject_Z (Z.of_nat (List.length cs)))%Q.
Proof.
  intros cs tables datums sel tol thr Ha Hf Hne Hst Hsel. apply accuracy_meaning; auto.
Qed.
Print Assumptions C50_accuracy_partial.

Example C50_example : demo <> [] /\ reported_accuracy 0 true 2 (fun _ => true) (rows_of demo) 4 == 3 # 4.
Proof. split; [discriminate|vm_compute; reflexivity]. Qed.

(* With a proper datum filter this is not the fraction of the selected datums. *)
Theorem C50_filtered_accuracy_refuted :
  exists cs datums sel, Forall accepted cs /\ stored cs (rows_of cs) /\ selects cs (rows_of cs) datums sel
    /\ forallb (fun c => implb (sel c) (correct (fun s => (0 <? Z.abs s)%Z) 4 c)) cs = true
    /\ (reported_accuracy 0 true (List.length (labels_of cs)) datums (rows_of cs) 4 < 1)%Q
    /\ existsb sel cs = true.
Proof.
  exists demo, (fun r => String.eqb (r_uid r) "u0"), (fun c => String.eqb (c_uid c) "u0").
  split; [apply demo_accepted|]. split; [apply demo_stored|].
  split.
  { intros r d c Hr Hd Hc.
    destruct (stored_row demo demo_accepted _ r demo_stored Hr) as (d' & c' & Hc' & Hcan & _).
    pose proof (canon_In _ _ _ _ Hcan) as (Eu & Ed & _). assert (d' = d) by lia. subst d'. congruence. }
  split; [reflexivity|]. split; vm_compute; reflexivity.
Qed.
Print Assumptions C50_filtered_accuracy_refuted.

(* ---------------------------------------------------------------- C52 *)
(* compute_examples: one entry per datum and threshold; the ground truth is listed as
   true positive exactly when it is predicted and as false negative otherwise; the
   false positives are exactly the other predicted labels, each once. *)
Theorem C52_datum_examples :
  forall cs tables tol9 hm thrs, Forall accepted cs -> few_labels cs -> stored cs tables ->
    let out := evaluate_examples tol9 hm thrs tables in
    List.length out = List.length cs * List.length thrs
    /\ (forall e, In e out -> exists d c k thr ex, nth_error cs d = Some c /\ nth_error thrs k = Some thr
          /\ e = (Some (c_uid c), thr, ex)
          /\ example_meaning cs (positives hm (pass_cm tol9 (firstn (S k) thrs)) c) c ex)
    /\ (forall d c k thr, nth_error cs d = Some c -> nth_error thrs k = Some thr ->
          exists ex, In (Some (c_uid c), thr, ex) out
          /\ example_meaning cs (positives hm (pass_cm tol9 (firstn (S k) thrs)) c) c ex).
Proof.
  intros cs tables tol9 hm thrs Ha Hf Hst out. split; [apply examples_length; auto|]. split.
  - intros e He. destruct (examples_sound cs tables tol9 hm thrs e Ha Hf Hst He) as (d & c & k & thr & ex & Hc & Hk & E & Hok).
    exists d, c, k, thr, ex. repeat (split; [assumption|]). apply example_ok_meaning; auto. eapply nth_error_In; eauto.
  - intros d c k thr Hc Hk. destruct (examples_complete cs tables tol9 hm thrs d c k thr Ha Hf Hst Hc Hk) as (ex & Hin & Hok).
    exists ex. split; [exact Hin|]. apply example_ok_meaning; auto. eapply nth_error_In; eauto.
Qed.
Print Assumptions C52_datum_examples.

Example C52_example :
  evaluate_examples 0 false [4%Z] (rows_of demo)
  = [ (Some "u0"%string, 4%Z, MkEx [0%Z] [] []);
      (Some "u1"%string, 4%Z, MkEx [1%Z] [0%Z] []);
      (Some "u2"%string, 4%Z, MkEx [1%Z] [] []);
      (Some "u3"%string, 4%Z, MkEx [0%Z] [1%Z] []) ].
Proof. reflexivity. Qed.
