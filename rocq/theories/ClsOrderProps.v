(* C136: several filters of a classification evaluator.
   Vocabulary: ClsOrderSpec.v; [fargs]: the arguments of one call of Evaluator.filter with
   their meaning on the candidates of the data; [filter_calls e xs r]: calling filter with
   [xs] one after the other, each time into memory or into files, ends in [r];
   [remains w xs]: the candidates of [w] that every call selects; [same_reports]: equal
   precision, recall, f1, accuracy, counts, confusion matrices, summaries and ROC AUC.
   Model: ClsModel.v, RocModel.v, ClsFilterModel.v, ClsReportModel.v. *)
From Verif Require Import Prelude Counting CacheModel CacheSpec ClsModel ClsSpec ClsLabelProofs ClsProofs RocModel FlowModel FlowProofs FlowMore ClsDemo
  ClsFilterModel ClsFilterSpec ClsFilterProofs ClsFilterMain ClsFilterProps ClsReportModel ClsReportSpec ClsOrderSpec ClsOrderProofs.
From Coq Require Import String QArith.
Local Notation length := List.length (only parsing).
Local Open Scope nat_scope.
Local Open Scope list_scope.

Theorem C136_any_order : forall cs w e1 e2 xs ys r1 r2,
  Forall distinct_candidates cs -> Forall (fargs_ok cs) xs -> Permutation xs ys ->
  cls_evaluator cs w e1 -> cls_evaluator cs w e2 -> filter_calls e1 xs r1 -> filter_calls e2 ys r2 ->
  (r1 = EmptyCache /\ r2 = EmptyCache /\ forall c l, In c cs -> In l (c_predictions c) -> remains w xs c l = false)
  \/ (exists f1 f2, r1 = Done f1 /\ r2 = Done f2 /\ same_reports cs (remains w xs) f1 f2).
Proof. exact any_order. Qed.
Print Assumptions C136_any_order.

Theorem C136_in_one_call : forall cs w e1 e2 xs r1 r2,
  Forall distinct_candidates cs -> Forall (fargs_ok cs) xs ->
  cls_evaluator cs w e1 -> cls_evaluator cs w e2 -> filter_calls e1 xs r1 -> filter_call e2 (together xs) r2 ->
  (r1 = EmptyCache /\ r2 = EmptyCache /\ forall c l, In c cs -> In l (c_predictions c) -> remains w xs c l = false)
  \/ (exists f1 f2, r1 = Done f1 /\ r2 = Done f2 /\ same_reports cs (remains w xs) f1 f2).
Proof. exact in_one_call. Qed.
Print Assumptions C136_in_one_call.

(* ------------------------------------------------ examples *)
Definition dog_truth_row (r : crow) : bool := String.eqb (r_gt_label r) "dog".
Definition dog_truth : cview := fun c _ => String.eqb (c_groundtruth c) "dog".
Definition keep_cats : fargs := MkFargs (fun _ => true) None (Some cat_row) all_kept all_kept cat_cand.
Definition dog_truths : fargs := MkFargs (fun _ => true) (Some dog_truth_row) None all_kept dog_truth all_kept.
(* a ground truth expression that looks at the candidate *)
Definition dog_cand_row (r : crow) : bool := String.eqb (r_pd_label r) "dog".
Definition dog_cand : cview := fun _ l => String.eqb l "dog".
Definition dog_predicted : fargs := MkFargs (fun _ => true) (Some dog_cand_row) None all_kept dog_cand all_kept.

Lemma dog_truth_expresses : expresses demo dog_truth_row dog_truth.
Proof.
  intros r d c Hr Hd Hc. cbn in Hr.
  repeat (destruct Hr as [<-|Hr]; [cbn in Hd; destruct d as [|[|[|[|d]]]]; try (exfalso; lia); cbn in Hc; injection Hc as <-; reflexivity|]).
  destruct Hr.
Qed.
Lemma keep_cats_ok : fargs_ok demo keep_cats.
Proof. split; [intros ? ? ? _ _ _; reflexivity|]. split; [intros ? ?; reflexivity|]. split; [apply cat_expresses|intros ? ? ? _ _ _; reflexivity]. Qed.
Lemma dog_truths_ok : fargs_ok demo dog_truths.
Proof. split; [intros ? ? ? _ _ _; reflexivity|]. split; [exact dog_truth_expresses|]. split; [intros ? ?; reflexivity|intros ? ? ? _ _ _; reflexivity]. Qed.
Lemma demo_mem_ok : cls_evaluator demo all_kept (cmem demo).
Proof. apply cmem_ok; [apply demo_accepted|discriminate]. Qed.

(* the two filters in both orders, in memory and in files, leave the two cat candidates of
   the two dogs *)
Definition filter_mem (e : ceval) (x : fargs) : fresult ceval := cls_filter_mem 10 one_by_one e (x_datums x) (x_gts x) (x_pds x).
Definition filter_file (e : ceval) (x : fargs) : fresult ceval := cls_filter_file 3 2 one_by_one e (x_datums x) (x_gts x) (x_pds x).
Definition cats_dogs : ceval := Eval vm_compute in cgot (filter_mem (cgot (filter_mem (cmem demo) keep_cats)) dog_truths).
Definition dogs_cats : ceval := Eval vm_compute in cgot (filter_file (cgot (filter_mem (cmem demo) dog_truths)) keep_cats).
Example C136_example :
  filter_calls (cmem demo) [keep_cats; dog_truths] (Done cats_dogs) /\ filter_calls (cmem demo) [dog_truths; keep_cats] (Done dogs_cats) /\
  cls_info (fun _ => true) cats_dogs = (2, 2, 2) /\
  same_reports demo (remains all_kept [keep_cats; dog_truths]) cats_dogs dogs_cats.
Proof.
  assert (A : filter_calls (cmem demo) [keep_cats; dog_truths] (Done cats_dogs)).
  { eapply calls_cons; [exact (call_mem (cmem demo) keep_cats 10 one_by_one)|].
    eapply calls_cons; [|constructor].
    assert (E : Done cats_dogs = filter_mem (cgot (filter_mem (cmem demo) keep_cats)) dog_truths) by (vm_compute; reflexivity).
    rewrite E. apply call_mem. }
  assert (B : filter_calls (cmem demo) [dog_truths; keep_cats] (Done dogs_cats)).
  { eapply calls_cons; [exact (call_mem (cmem demo) dog_truths 10 one_by_one)|].
    eapply calls_cons; [|constructor].
    assert (E : Done dogs_cats = filter_file (cgot (filter_mem (cmem demo) dog_truths)) keep_cats) by (vm_compute; reflexivity).
    rewrite E. apply call_file. apply one_by_one_ok. }
  split; [exact A|]. split; [exact B|]. split; [vm_compute; reflexivity|].
  assert (P : Permutation [keep_cats; dog_truths] [dog_truths; keep_cats]) by apply perm_swap.
  assert (X : Forall (fargs_ok demo) [keep_cats; dog_truths]) by (constructor; [apply keep_cats_ok|]; constructor; [apply dog_truths_ok|constructor]).
  destruct (C136_any_order _ _ _ _ _ _ _ _ demo_distinct X P demo_mem_ok demo_mem_ok A B) as [(E & _)|(f1 & f2 & E1 & E2 & S)]; [discriminate|].
  injection E1 as <-. injection E2 as <-. exact S.
Qed.

(* the condition on the ground truth expression is needed: with one that looks at the
   candidates, one order keeps four candidates and the other raises *)
Theorem C136_condition_needed :
  Forall distinct_candidates demo /\ cls_evaluator demo all_kept (cmem demo) /\
  (forall cs, expresses cs dog_cand_row dog_cand) /\ fargs_ok demo keep_cats /\ ~ about_datum demo (x_sg dog_predicted) /\
  (exists f, filter_calls (cmem demo) [dog_predicted; keep_cats] (Done f) /\ cls_info (fun _ => true) f = (4, 2, 4)) /\
  filter_calls (cmem demo) [keep_cats; dog_predicted] EmptyCache.
Proof.
  split; [exact demo_distinct|]. split; [exact demo_mem_ok|]. split; [intros cs r d c _ _ _; reflexivity|]. split; [exact keep_cats_ok|].
  split; [|split].
  - intros H. specialize (H (MkCls "u0" "cat" ["cat"; "dog"] [9; 1]%Z) "cat" "dog")%string. cbn in H. discriminate H; auto.
  - exists (cgot (filter_mem (cgot (filter_mem (cmem demo) dog_predicted)) keep_cats)). split; [|vm_compute; reflexivity].
    eapply calls_cons; [exact (call_mem (cmem demo) dog_predicted 10 one_by_one)|].
    eapply calls_cons; [|constructor]. exact (call_mem (cgot (filter_mem (cmem demo) dog_predicted)) keep_cats 10 one_by_one).
  - eapply calls_cons; [exact (call_mem (cmem demo) keep_cats 10 one_by_one)|].
    apply calls_raise; [|discriminate]. exact (call_mem (cgot (filter_mem (cmem demo) keep_cats)) dog_predicted 10 one_by_one).
Qed.
Print Assumptions C136_condition_needed.
