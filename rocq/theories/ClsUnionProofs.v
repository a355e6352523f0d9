(* C146: classification metrics of a union. *)
From Verif Require Import Prelude Counting CacheModel CacheSpec ClsModel ClsSpec ClsLabelProofs ClsProofs ClsConfProofs RocModel RocProofs RocMain RocCurve
  FlowModel FlowProofs FlowMore ClsLemmas ClsMore ClsFilterModel ClsFilterSpec ClsFilterProofs ClsFilterCounts ClsFilterMain ClsFilterRoc
  ClsReportModel ClsReportSpec ClsReportProofs ClsReportMore ClsThrSpec ClsThrProofs ClsZeroProofs SegReorderSpec UnionProofs.
From Coq Require Import String QArith.
Local Notation length := List.length (only parsing).
Local Open Scope nat_scope.
Local Open Scope list_scope.

Lemma counts_app u hm pass cs1 cs2 l : data_counts u hm pass (cs1 ++ cs2) l = counts_sum (data_counts u hm pass cs1 l) (data_counts u hm pass cs2 l).
Proof. unfold data_counts, counts_sum. cbn [n_tp n_fp n_fn n_tn]. rewrite !countb_app. reflexivity. Qed.
Lemma precision_union a b : lies_between (precision a) (precision b) (precision (counts_sum a b)).
Proof.
  unfold precision, counts_sum. cbn [n_tp n_fp]. replace (n_tp a + n_tp b + (n_fp a + n_fp b)) with (n_tp a + n_fp a + (n_tp b + n_fp b)) by lia. apply ratio_between; lia.
Qed.
Lemma recall_union a b : lies_between (recall a) (recall b) (recall (counts_sum a b)).
Proof.
  unfold recall, counts_sum. cbn [n_tp n_fn]. replace (n_tp a + n_tp b + (n_fn a + n_fn b)) with (n_tp a + n_fn a + (n_tp b + n_fn b)) by lia. apply ratio_between; lia.
Qed.
Lemma f1_union a b : (Z.of_nat (n_tp a + n_fn a + (n_tp b + n_fn b)) < 1000000000)%Z ->
  lies_between (f1 (precision a) (recall a)) (f1 (precision b) (recall b)) (f1 (precision (counts_sum a b)) (recall (counts_sum a b))).
Proof.
  intros H. unfold precision, recall, counts_sum. cbn [n_tp n_fp n_fn].
  replace (n_tp a + n_tp b + (n_fp a + n_fp b)) with (n_tp a + n_fp a + (n_tp b + n_fp b)) by lia.
  replace (n_tp a + n_tp b + (n_fn a + n_fn b)) with (n_tp a + n_fn a + (n_tp b + n_fn b)) by lia. apply f1_union_between; lia.
Qed.
Lemma counts_sum_0r c : counts_sum c (MkCounts 0 0 0 0) = c.
Proof. destruct c as [x y z k]. unfold counts_sum. cbn [n_tp n_fp n_fn n_tn]. rewrite !Nat.add_0_r. reflexivity. Qed.
Lemma counts_sum_0l c : counts_sum (MkCounts 0 0 0 0) c = c.
Proof. destruct c. reflexivity. Qed.
Lemma table_In {V} (f : string -> Z -> V) ls thrs l t : In l ls -> In t thrs -> In (l, t, Some (f l t)) (table_of ls thrs f).
Proof.
  intros Hl Ht. unfold table_of. apply in_concat. eexists. split; [apply in_map_iff; exists l; split; [reflexivity|exact Hl]|]. apply in_map_iff. exists t. auto.
Qed.

Section Parts.
  Variables cs1 cs2 : list classification.
  Variable w : cview.
  Hypothesis Hdist : Forall distinct_candidates (cs1 ++ cs2).
  Variables e1 e2 e : ceval.
  Hypothesis He1 : cls_evaluator cs1 w e1.
  Hypothesis He2 : cls_evaluator cs2 w e2.
  Hypothesis He : cls_evaluator (cs1 ++ cs2) w e.
  Variables (d1 d2 d : crow -> bool) (sel : cview).
  Hypothesis H1 : expresses cs1 d1 sel.
  Hypothesis H2 : expresses cs2 d2 sel.
  Hypothesis H : expresses (cs1 ++ cs2) d sel.
  Let D1 : Forall distinct_candidates cs1 := proj1 (proj1 (Forall_app _ _ _) Hdist).
  Let D2 : Forall distinct_candidates cs2 := proj2 (proj1 (Forall_app _ _ _) Hdist).

  Theorem union_metrics tol hm thrs m1 m2 m : few_labels (cs1 ++ cs2) -> (Z.of_nat (length (cs1 ++ cs2)) < 500000000)%Z ->
    report_metrics e1 tol hm thrs d1 = Some m1 -> report_metrics e2 tol hm thrs d2 = Some m2 -> report_metrics e tol hm thrs d = Some m ->
    forall f, In f [mt_precision; mt_recall; mt_f1] -> forall l t q, In (l, t, Some q) (f m) ->
      (forall q1 q2, In (l, t, Some q1) (f m1) -> In (l, t, Some q2) (f m2) -> lies_between q1 q2 q) /\
      (forall q1, In (l, t, Some q1) (f m1) -> (forall q2, ~ In (l, t, Some q2) (f m2)) -> q = q1) /\
      (forall q2, (forall q1, ~ In (l, t, Some q1) (f m1)) -> In (l, t, Some q2) (f m2) -> q = q2) /\
      ~ ((forall q1, ~ In (l, t, Some q1) (f m1)) /\ (forall q2, ~ In (l, t, Some q2) (f m2))).
  Proof.
    intros Hf Hl M1 M2 M.
    destruct (parts_few cs1 cs2 w e1 e2 e He1 He2 He Hf) as [F1 F2].
    assert (Hne : thrs <> []) by (intros ->; cbn in M; discriminate).
    destruct (metrics_report cs1 D1 w e1 He1 F1 tol hm thrs d1 sel H1 Hne) as (ls1 & P1 & _ & E1). cbn zeta in E1. rewrite M1 in E1. injection E1 as ->.
    destruct (metrics_report cs2 D2 w e2 He2 F2 tol hm thrs d2 sel H2 Hne) as (ls2 & P2 & _ & E2). cbn zeta in E2. rewrite M2 in E2. injection E2 as ->.
    destruct (metrics_report _ Hdist w e He Hf tol hm thrs d sel H Hne) as (ls & P & _ & E). cbn zeta in E. rewrite M in E. injection E as ->. clear M M1 M2.
    set (u := cselect w sel).
    assert (G : forall g : counts -> Q, (forall l t, lies_between (g (data_counts u hm (pass_counts tol t) cs1 l)) (g (data_counts u hm (pass_counts tol t) cs2 l)) (g (data_counts u hm (pass_counts tol t) (cs1 ++ cs2) l))) ->
      forall l t q, In (l, t, Some q) (table_of ls thrs (fun l t => g (data_counts u hm (pass_counts tol t) (cs1 ++ cs2) l))) ->
      (forall q1 q2, In (l, t, Some q1) (table_of ls1 thrs (fun l t => g (data_counts u hm (pass_counts tol t) cs1 l))) -> In (l, t, Some q2) (table_of ls2 thrs (fun l t => g (data_counts u hm (pass_counts tol t) cs2 l))) -> lies_between q1 q2 q) /\
      (forall q1, In (l, t, Some q1) (table_of ls1 thrs (fun l t => g (data_counts u hm (pass_counts tol t) cs1 l))) -> (forall q2, ~ In (l, t, Some q2) (table_of ls2 thrs (fun l t => g (data_counts u hm (pass_counts tol t) cs2 l)))) -> q = q1) /\
      (forall q2, (forall q1, ~ In (l, t, Some q1) (table_of ls1 thrs (fun l t => g (data_counts u hm (pass_counts tol t) cs1 l)))) -> In (l, t, Some q2) (table_of ls2 thrs (fun l t => g (data_counts u hm (pass_counts tol t) cs2 l))) -> q = q2) /\
      ~ ((forall q1, ~ In (l, t, Some q1) (table_of ls1 thrs (fun l t => g (data_counts u hm (pass_counts tol t) cs1 l)))) /\ (forall q2, ~ In (l, t, Some q2) (table_of ls2 thrs (fun l t => g (data_counts u hm (pass_counts tol t) cs2 l)))))).
    { intros g B l t q Hq. apply In_table in Hq. destruct Hq as (Il & It & Eq). injection Eq as ->.
      assert (N1 : (forall q1, ~ In (l, t, Some q1) (table_of ls1 thrs (fun l t => g (data_counts u hm (pass_counts tol t) cs1 l)))) -> ~ In l (labels_of cs1)).
      { intros X Y. apply (X (g (data_counts u hm (pass_counts tol t) cs1 l))). apply (table_In (fun l t => g (data_counts u hm (pass_counts tol t) cs1 l))); [apply (Permutation_in _ (Permutation_sym P1)), Y|exact It]. }
      assert (N2 : (forall q2, ~ In (l, t, Some q2) (table_of ls2 thrs (fun l t => g (data_counts u hm (pass_counts tol t) cs2 l)))) -> ~ In l (labels_of cs2)).
      { intros X Y. apply (X (g (data_counts u hm (pass_counts tol t) cs2 l))). apply (table_In (fun l t => g (data_counts u hm (pass_counts tol t) cs2 l))); [apply (Permutation_in _ (Permutation_sym P2)), Y|exact It]. }
      split; [|split; [|split]].
      - intros q1 q2 X1 X2. apply In_table in X1, X2. destruct X1 as (_ & _ & X1), X2 as (_ & _ & X2). injection X1 as ->. injection X2 as ->. apply B.
      - intros q1 X1 X2. apply In_table in X1. destruct X1 as (_ & _ & X1). injection X1 as ->. rewrite counts_app, (data_counts_absent cs2 (ev_acc _ _ _ He2) u hm _ l (N2 X2)), counts_sum_0r. reflexivity.
      - intros q2 X1 X2. apply In_table in X2. destruct X2 as (_ & _ & X2). injection X2 as ->. rewrite counts_app, (data_counts_absent cs1 (ev_acc _ _ _ He1) u hm _ l (N1 X1)), counts_sum_0l. reflexivity.
      - intros [X1 X2]. apply N1 in X1. apply N2 in X2. apply (Permutation_in _ P) in Il. pose proof (ev_acc _ _ _ He) as Ha.
        apply (labels_of_spec _ l Ha) in Il. destruct Il as (c & Hc & Il). apply in_app_iff in Hc. destruct Hc as [Hc|Hc].
        + apply X1. apply (labels_of_spec cs1 l (ev_acc _ _ _ He1)). eauto.
        + apply X2. apply (labels_of_spec cs2 l (ev_acc _ _ _ He2)). eauto. }
    intros f [<-|[<-|[<-|[]]]]; cbn [mt_precision mt_recall mt_f1].
    - apply (G precision). intros l t. rewrite counts_app. apply precision_union.
    - apply (G recall). intros l t. rewrite counts_app. apply recall_union.
    - apply (G (fun c => f1 (precision c) (recall c))). intros l t. rewrite counts_app. apply f1_union.
      pose proof (tp_fn_bound cs1 u hm (pass_counts tol t) l). pose proof (tp_fn_bound cs2 u hm (pass_counts tol t) l). rewrite app_length in Hl. lia.
  Qed.
End Parts.
