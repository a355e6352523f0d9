(* The classification report as binary64 numbers, against the data (C112). *)
From Verif Require Import Prelude Counting CacheModel CacheSpec ClsModel ClsSpec ClsLabelProofs ClsProofs ClsConfProofs RocModel RocCurve FlowModel FlowProofs FlowMore ClsLemmas ClsMore ClsFilterModel ClsFilterSpec ClsFilterProofs ClsFilterCounts ClsFilterMain ClsReportModel
  ClsReportSpec ClsReportProofs FloatModel FloatProofs RndProofs FReportModel FReportSpec FReportProofs FReportMain.
From Coq Require Import Lia String QArith Qabs Lqa Permutation.
Local Notation length := List.length (only parsing).
Local Notation concat := List.concat (only parsing).
Local Open Scope Z_scope.

(* SPEC: a table with one entry per label and threshold, each related to its label and threshold *)
Definition ftable (ls : list string) (thrs : list Z) (R : string -> Z -> Q -> Prop) (tbl : list (string * Z * option Q)) : Prop :=
  exists g, tbl = table_of ls thrs g /\ forall l t, R l t (g l t).

Lemma share_quot a b : share a b = qdiv_or_0 a b.
Proof. unfold share, qdiv_or_0. destruct b; reflexivity. Qed.
Lemma share_rounded a b : Z.of_nat a <= 2 ^ 53 -> Z.of_nat b <= 2 ^ 53 -> rounded (share a b) (fdiv a b).
Proof. rewrite share_quot. apply fdiv_rounded. Qed.
Lemma f1_share_nearly tp fp fn : Z.of_nat (tp + fp) <= 1000000000 -> Z.of_nat (tp + fn) <= 1000000000 ->
  nearly 5 (f1_share tp fp fn) (ff1 (fdiv tp (tp + fp)) (fdiv tp (tp + fn))).
Proof.
  intros B1 B2. unfold fdiv. rewrite !Nat2Z.inj_add in *. apply (reports_nearly (Z.of_nat tp) (Z.of_nat fp) (Z.of_nat fn)); try lia; [| |apply ff1_reports; lia].
  - intros H. unfold f1_share, share. replace tp with 0%nat by lia. cbn [Nat.mul Nat.add]. destruct (fp + fn =? 0)%nat; [reflexivity|]. unfold Qdiv. apply Qmult_0_l.
  - intros H. unfold f1_share, share. destruct (Nat.eqb_spec (2 * tp + fp + fn) 0) as [E|_]; [lia|].
    replace (Z.of_nat (2 * tp)) with (2 * Z.of_nat tp) by lia. replace (Z.of_nat (2 * tp + fp + fn)) with (2 * Z.of_nat tp + Z.of_nat fp + Z.of_nat fn) by lia. reflexivity.
Qed.

Section Cls.
  Variable cs : list classification.
  Hypothesis Hdist : Forall distinct_candidates cs.
  Variable w : cview.
  Variable e : ceval.
  Hypothesis He : cls_evaluator cs w e.
  Hypothesis Hfew : few_labels cs.
  Let G : cgood cs w e := ev_good cs Hdist w e He.
  Theorem fmetrics_report tol hm thrs datums sel : expresses cs datums sel -> thrs <> [] -> 2 * Z.of_nat (length cs) <= 2 ^ 53 ->
    exists ls f, Permutation ls (labels_of cs) /\ ls = map snd (ce_labels e) /\ report_fmetrics e tol hm thrs datums = Some f /\
    let u := cselect w sel in let pass := pass_counts tol in
    let tp l t := countb (v_tp u hm (pass t) l) cs in let fp l t := countb (v_fp u hm (pass t) l) cs in let fn l t := countb (v_fn u hm (pass t) l) cs in
    (exists g, mt_accuracy f = map (fun t => (t, g t)) thrs /\
       forall t, rounded (share (countb (fun c => smem (c_groundtruth c) (vpositives u hm (pass t) c)) cs) (countb (visible w) cs)) (g t)) /\
    mt_counts f = table_of ls thrs (fun l t => data_counts u hm (pass t) cs l) /\
    ftable ls thrs (fun l t => rounded (share (tp l t) (tp l t + fp l t))) (mt_precision f) /\
    ftable ls thrs (fun l t => rounded (share (tp l t) (tp l t + fn l t))) (mt_recall f) /\
    (2 * Z.of_nat (length cs) <= 1000000000 -> ftable ls thrs (fun l t => nearly 5 (f1_share (tp l t) (fp l t) (fn l t))) (mt_f1 f)).
  Proof.
    intros Hs Hne Hsz. exists (map snd (ce_labels e)). eexists. split; [apply (items_labels cs w e G)|]. split; [reflexivity|].
    split. { unfold report_fmetrics. destruct thrs as [|t0 ts] eqn:Et; [congruence|]. rewrite <- Et. cbn zeta. reflexivity. }
    cbn zeta. cbn [mt_accuracy mt_counts mt_precision mt_recall mt_f1]. rewrite !(per_label_table cs Hdist w e He Hfew _ tol hm thrs datums sel Hs).
    assert (B : forall P : classification -> bool, (countb P cs <= length cs)%nat) by (intros P; apply countb_le_length).
    split; [|split; [reflexivity|split; [|split]]].
    - exists (fun t => fdiv (countb (fun c => smem (c_groundtruth c) (vpositives (cselect w sel) hm (pass_counts tol t) c)) cs) (countb (visible w) cs)). split.
      + unfold cls_counts. rewrite evaluate_counts_total. apply map_combine_nth. intros k x Hx. eexists. split; [apply map_nth_error; exact Hx|]. cbn [fst snd]. f_equal.
        unfold cls_info. cbn [snd]. rewrite map_map, (ev_n cs Hdist w e He), (ev_visible cs Hdist w e He). rewrite faccuracy_quot.
        rewrite (tp_sum_view cs (ev_acc cs w e He) Hdist w e G datums sel Hs Hfew tol x hm). reflexivity.
      + intros t. apply share_rounded; match goal with |- context [countb ?P cs] => pose proof (B P) end; lia.
    - eexists. split; [reflexivity|]. intros l t. cbn [n_tp n_fp n_fn data_counts].
      pose proof (B (v_tp (cselect w sel) hm (pass_counts tol t) l)). pose proof (B (v_fp (cselect w sel) hm (pass_counts tol t) l)). apply share_rounded; cbn [n_tp n_fp n_fn]; lia.
    - eexists. split; [reflexivity|]. intros l t.
      pose proof (B (v_tp (cselect w sel) hm (pass_counts tol t) l)). pose proof (B (v_fn (cselect w sel) hm (pass_counts tol t) l)). apply share_rounded; cbn [n_tp n_fp n_fn data_counts]; lia.
    - intros Hf. eexists. split; [reflexivity|]. intros l t.
      pose proof (B (v_tp (cselect w sel) hm (pass_counts tol t) l)). pose proof (B (v_fp (cselect w sel) hm (pass_counts tol t) l)). pose proof (B (v_fn (cselect w sel) hm (pass_counts tol t) l)).
      apply f1_share_nearly; lia.
  Qed.
End Cls.
