(* C142: classification scores equal to one. *)
From Verif Require Import Prelude Counting CacheModel CacheSpec ClsModel ClsSpec ClsLabelProofs ClsProofs ClsConfProofs RocModel RocProofs RocMain RocCurve
  FlowModel FlowProofs FlowMore ClsLemmas ClsMore ClsFilterModel ClsFilterSpec ClsFilterProofs ClsFilterCounts ClsFilterMain ClsFilterRoc
  ClsReportModel ClsReportSpec ClsReportProofs ClsReportMore ClsThrSpec ClsThrProofs PerfectProofs ClsPerfectSpec.
From Coq Require Import String QArith Lqa.
Local Notation length := List.length (only parsing).
Local Notation concat := List.concat (only parsing).
Local Open Scope nat_scope.
Local Open Scope list_scope.

Lemma qdiv_one a b : (qdiv_or_0 a (a + b) == 1)%Q <-> 0 < a /\ b = 0.
Proof.
  unfold qdiv_or_0. destruct (Nat.ltb_spec 0 (a + b)) as [H|H].
  - rewrite ratio_one by exact H. lia.
  - split; [intros X; discriminate X|lia].
Qed.
Lemma f1_one_iff p r : (0 <= p <= 1)%Q -> (0 <= r <= 1)%Q -> ((f1 p r == 1)%Q <-> (p == 1)%Q /\ (r == 1)%Q).
Proof.
  intros Hp Hr. unfold f1. destruct (Qlt_le_dec (1 # 1000000000) (p + r)) as [H|H].
  - assert (N : ~ (p + r == 0)%Q) by (intros X; rewrite X in H; discriminate H). split.
    + intros E. assert (X : (2 * p * r == p + r)%Q).
      { setoid_replace (2 * p * r)%Q with ((2 * p * r / (p + r)) * (p + r))%Q by (field; exact N). rewrite E. ring. }
      assert (A : (0 <= p * (1 - r))%Q) by (apply Qmult_le_0_compat; lra). assert (B : (0 <= r * (1 - p))%Q) by (apply Qmult_le_0_compat; lra).
      assert (A0 : (p * (1 - r) == 0)%Q) by lra. assert (B0 : (r * (1 - p) == 0)%Q) by lra.
      apply Qmult_integral in A0, B0. destruct A0 as [A0|A0], B0 as [B0|B0]; lra.
    + intros [E1 E2]. rewrite E1, E2. reflexivity.
  - split; [intros X; discriminate X|]. intros [E1 E2]. rewrite E1, E2 in H. exfalso. apply (Qlt_not_le _ _ (eq_refl : (1 # 1000000000 < 1 + 1)%Q) H).
Qed.

Section Counts.
  Variables (cs : list classification) (u : cview) (hm : bool) (pass : Z -> bool) (l : string).
  Lemma precision_perfect : (precision (data_counts u hm pass cs l) == 1)%Q <-> never_wrong cs u hm pass l.
  Proof.
    unfold precision. rewrite qdiv_one. unfold data_counts. cbn [n_tp n_fp]. rewrite countb_pos, countb_zero. unfold v_tp, v_fp, never_wrong. split.
    - intros [(c & Hc & X) A]. apply andb_true_iff in X. destruct X as [_ X]. apply smem_In in X. split; [eauto|].
      intros c' Hc' H. specialize (A c' Hc'). apply smem_In in H. rewrite H, andb_true_r in A. apply negb_false_iff, String.eqb_eq in A. exact A.
    - intros [(c & Hc & X) A]. split.
      + exists c. split; [exact Hc|]. apply andb_true_iff. split; [apply String.eqb_eq, A; assumption|apply smem_In, X].
      + intros c' Hc'. destruct (smem l (vpositives u hm pass c')) eqn:E; [|apply andb_false_r]. apply smem_In in E. rewrite (A c' Hc' E), String.eqb_refl. reflexivity.
  Qed.
  Lemma recall_perfect : (recall (data_counts u hm pass cs l) == 1)%Q <-> never_missed cs u hm pass l.
  Proof.
    unfold recall. rewrite qdiv_one. unfold data_counts. cbn [n_tp n_fn]. rewrite countb_pos, countb_zero. unfold v_tp, v_fn, never_missed. split.
    - intros [(c & Hc & X) A]. apply andb_true_iff in X. destruct X as [X1 X]. apply String.eqb_eq in X1. apply smem_In in X. split; [exists c; auto|].
      intros c' Hc' H. specialize (A c' Hc'). apply String.eqb_eq in H. rewrite H in A. cbn [andb] in A. apply orb_false_iff in A. destruct A as [A1 A2]. split.
      + intros Hin. apply smem_In in Hin. rewrite Hin in A1. cbn [andb] in A1. apply negb_false_iff in A1. apply smem_In, A1.
      + intros x Hx. destruct (String.eqb_spec x l) as [E|E]; [exact E|]. exfalso. apply not_true_iff_false in A2. apply A2. apply existsb_exists. exists x.
        split; [exact Hx|]. apply negb_true_iff, String.eqb_neq, E.
    - intros [(c & Hc & X1 & X) A]. split.
      + exists c. split; [exact Hc|]. apply andb_true_iff. split; [apply String.eqb_eq, X1|apply smem_In, X].
      + intros c' Hc'. destruct (String.eqb_spec (c_groundtruth c') l) as [E|E]; [|reflexivity]. cbn [andb]. destruct (A c' Hc' E) as [A1 A2]. apply orb_false_iff. split.
        * destruct (smem l (c_predictions (viewed u c'))) eqn:F; [|reflexivity]. cbn [andb]. apply smem_In in F. apply A1, smem_In in F. rewrite F. reflexivity.
        * apply not_true_iff_false. intros Y. apply existsb_exists in Y. destruct Y as (x & Hx & Y). rewrite (A2 x Hx), String.eqb_refl in Y. discriminate.
  Qed.
  Lemma f1_perfect : (f1 (precision (data_counts u hm pass cs l)) (recall (data_counts u hm pass cs l)) == 1)%Q <-> never_wrong cs u hm pass l /\ never_missed cs u hm pass l.
  Proof. rewrite f1_one_iff by (apply qdiv_bounds; lia). rewrite precision_perfect, recall_perfect. reflexivity. Qed.
End Counts.

Section Cls.
  Variables (cs : list classification).
  Hypothesis Hd : Forall distinct_candidates cs.
  Variables (w : cview) (e : ceval).
  Hypothesis He : cls_evaluator cs w e.
  Let Ha : Forall accepted cs := ev_acc cs w e He.
  Lemma predicted_visible sel hm pass c : In c cs -> smem (c_groundtruth c) (vpositives (cselect w sel) hm pass c) = true -> visible w c = true.
  Proof.
    intros Hc H. apply smem_In in H. unfold vpositives in H. apply filter_In in H. destruct H as [H X]. unfold cselect in X. apply andb_true_iff in X.
    unfold visible. apply existsb_exists. exists (c_groundtruth c). split; [|apply X].
    exact (positives_sub hm pass c _ H).
  Qed.
  Theorem perfect_metrics tol hm thrs datums sel m : few_labels cs -> expresses cs datums sel ->
    report_metrics e tol hm thrs datums = Some m ->
    let u := cselect w sel in
    (forall t a, In (t, a) (mt_accuracy m) -> (a == 1)%Q <->
       forall c, In c cs -> visible w c = true -> In (c_groundtruth c) (vpositives u hm (pass_counts tol t) c)) /\
    (forall l t q, In (l, t, Some q) (mt_precision m) -> (q == 1)%Q <-> never_wrong cs u hm (pass_counts tol t) l) /\
    (forall l t q, In (l, t, Some q) (mt_recall m) -> (q == 1)%Q <-> never_missed cs u hm (pass_counts tol t) l) /\
    (forall l t q, In (l, t, Some q) (mt_f1 m) -> (q == 1)%Q <-> never_wrong cs u hm (pass_counts tol t) l /\ never_missed cs u hm (pass_counts tol t) l).
  Proof.
    intros Hf Hs Hm u. split.
    { intros t a Hi. apply In_nth_error in Hi. destruct Hi as [k Hi].
      destruct (read_accuracy cs Hd w e He tol hm thrs datums sel m k t a Hf Hs Hm Hi) as [_ ->].
      unfold data_accuracy. rewrite ratio_one by (apply (ev_visible_pos cs Hd w e He)).
      rewrite countb_all by (intros c Hc; apply predicted_visible, Hc). split; intros X c Hc V; specialize (X c Hc V); apply smem_In; exact X. }
    assert (Hne : thrs <> []) by (intros ->; cbn in Hm; discriminate).
    destruct (metrics_report cs Hd w e He Hf tol hm thrs datums sel Hs Hne) as (ls & _ & _ & E). cbn zeta in E.
    rewrite Hm in E. injection E as ->. cbn [mt_precision mt_recall mt_f1].
    split; [|split]; intros l t q Hi; apply In_table in Hi; destruct Hi as (_ & _ & Hi); injection Hi as ->.
    - apply precision_perfect.
    - apply recall_perfect.
    - apply f1_perfect.
  Qed.
End Cls.
