(* C143: classification scores equal to zero. *)
From Verif Require Import Prelude Counting CacheModel CacheSpec ClsModel ClsSpec ClsLabelProofs ClsProofs ClsConfProofs RocModel RocProofs RocMain RocCurve
  FlowModel FlowProofs FlowMore ClsLemmas ClsMore ClsFilterModel ClsFilterSpec ClsFilterProofs ClsFilterCounts ClsFilterMain ClsFilterRoc
  ClsReportModel ClsReportSpec ClsReportProofs ClsReportMore ClsThrSpec ClsThrProofs PerfectProofs ZeroProofs ClsPerfectSpec ClsPerfectProofs.
From Coq Require Import String QArith Lqa.
Local Notation length := List.length (only parsing).
Local Open Scope nat_scope.
Local Open Scope list_scope.

Section Counts.
  Variables (cs : list classification) (u : cview) (hm : bool) (pass : Z -> bool) (l : string).
  Lemma no_tp : n_tp (data_counts u hm pass cs l) = 0 <-> forall c, In c cs -> c_groundtruth c = l -> ~ In l (vpositives u hm pass c).
  Proof.
    unfold data_counts. cbn [n_tp]. rewrite countb_zero. unfold v_tp. split; intros A c Hc.
    - intros E H. specialize (A c Hc). apply String.eqb_eq in E. apply smem_In in H. rewrite E, H in A. discriminate.
    - destruct (String.eqb_spec (c_groundtruth c) l) as [E|E]; [|reflexivity]. cbn [andb]. destruct (smem l (vpositives u hm pass c)) eqn:F; [|reflexivity].
      exfalso. apply smem_In in F. exact (A c Hc E F).
  Qed.
  Lemma tp_fn_bound : n_tp (data_counts u hm pass cs l) + n_fn (data_counts u hm pass cs l) <= length cs + length cs.
  Proof. unfold data_counts. cbn [n_tp n_fn]. apply Nat.add_le_mono; apply countb_le_length. Qed.
End Counts.

Section Cls.
  Variables (cs : list classification).
  Hypothesis Hd : Forall distinct_candidates cs.
  Variables (w : cview) (e : ceval).
  Hypothesis He : cls_evaluator cs w e.
  Theorem zero_metrics tol hm thrs datums sel m : few_labels cs -> (Z.of_nat (length cs) < 500000000)%Z -> expresses cs datums sel ->
    report_metrics e tol hm thrs datums = Some m ->
    let u := cselect w sel in
    let never l t := forall c, In c cs -> c_groundtruth c = l -> ~ In l (vpositives u hm (pass_counts tol t) c) in
    (forall t a, In (t, a) (mt_accuracy m) -> (a == 0)%Q <-> forall c, In c cs -> ~ In (c_groundtruth c) (vpositives u hm (pass_counts tol t) c)) /\
    (forall l t q, In (l, t, Some q) (mt_precision m) -> (q == 0)%Q <-> never l t) /\
    (forall l t q, In (l, t, Some q) (mt_recall m) -> (q == 0)%Q <-> never l t) /\
    (forall l t q, In (l, t, Some q) (mt_f1 m) -> (q == 0)%Q <-> never l t).
  Proof.
    intros Hf Hl Hs Hm u never. split.
    { intros t a Hi. apply In_nth_error in Hi. destruct Hi as [k Hi].
      destruct (read_accuracy cs Hd w e He tol hm thrs datums sel m k t a Hf Hs Hm Hi) as [_ ->].
      pose proof (ev_visible_pos cs Hd w e He) as V. unfold data_accuracy.
      set (x := countb (fun c => smem (c_groundtruth c) (vpositives (cselect w sel) hm (pass_counts tol t) c)) cs).
      assert (B : x <= countb (visible w) cs) by (apply countb_mono; intros c Hc; apply (predicted_visible cs), Hc).
      transitivity (x = 0); [|unfold x; rewrite countb_zero; split].
      - pose proof (qdiv_zero x (countb (visible w) cs) B) as Z. unfold qdiv_or_0 in Z. apply Nat.ltb_lt in V. rewrite V in Z. exact Z.
      - intros X c Hc H. apply smem_In in H. specialize (X c Hc). fold u in X. congruence.
      - intros X c Hc. apply not_true_iff_false. intros H. apply smem_In in H. exact (X c Hc H). }
    assert (Hne : thrs <> []) by (intros ->; cbn in Hm; discriminate).
    destruct (metrics_report cs Hd w e He Hf tol hm thrs datums sel Hs Hne) as (ls & _ & _ & E). cbn zeta in E.
    rewrite Hm in E. injection E as ->. cbn [mt_precision mt_recall mt_f1].
    split; [|split]; intros l t q Hi; apply In_table in Hi; destruct Hi as (_ & _ & Hi); injection Hi as ->; unfold never; rewrite <- no_tp.
    - apply qdiv_zero, Nat.le_add_r.
    - apply qdiv_zero, Nat.le_add_r.
    - apply f1_zero_iff; [apply Nat.le_add_r|apply Nat.le_add_r|]. pose proof (tp_fn_bound cs u hm (pass_counts tol t) l). fold u. lia.
  Qed.
End Cls.
