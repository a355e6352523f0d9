(* Lemmas for C148, mean ROC AUC. *)
From Verif Require Import Prelude Counting CacheModel CacheSpec ClsModel ClsSpec ClsLabelProofs ClsProofs ClsConfProofs RocModel RocProofs RocMain RocCurve
  FlowModel FlowProofs FlowMore ClsLemmas ClsMore ClsFilterModel ClsFilterSpec ClsFilterProofs ClsFilterCounts ClsFilterMain ClsFilterRoc
  ClsReportModel RocPerfectProofs MeanExtremeProofs.
From Verif Require DetModel.
From Coq Require Import String QArith Lia.
Local Notation length := List.length (only parsing).
Local Open Scope nat_scope.
Local Open Scope list_scope.

Theorem mean_roc_extremes cs w e m : Forall distinct_candidates cs -> cls_evaluator cs w e -> (Z.of_nat (length cs) < 2 ^ 64)%Z ->
  let kept := reduced w cs in
  (forall l i, has_number e l i -> let o := outcomes l kept in
     (origin_kept i (ce_curve e) \/ unmixed_top o) /\ top_nonzero o /\ keeps_truth cs w l /\ pos_of o <> [] /\ neg_of o <> []) ->
  snd (report_rocauc e) = Some m ->
  ((m == 1)%Q <-> forall l, In l (labels_of cs) -> forall c d x y, In c kept -> In d kept -> c_groundtruth c = l -> c_groundtruth d <> l ->
     In (l, x) (candidates c) -> In (l, y) (candidates d) -> (y < x)%Z) /\
  ((m == 0)%Q <-> forall l, In l (labels_of cs) -> forall c d x y, In c kept -> In d kept -> c_groundtruth c = l -> c_groundtruth d <> l ->
     In (l, x) (candidates c) -> In (l, y) (candidates d) -> (x < y)%Z).
Proof.
  intros Hd He Hz kept Hc Hm. unfold report_rocauc in Hm. cbn [snd] in Hm.
  assert (HL : length (cls_rocauc e) = length (labels_of cs)).
  { unfold cls_rocauc, compute_rocauc. rewrite map_length, seq_length. apply (ev_n cs Hd w e He). }
  assert (A : forall P : Q -> Prop, (forall v, In v (cls_rocauc e) -> P v) <->
    (forall l i v, In l (labels_of cs) -> has_number e l i -> nth_error (cls_rocauc e) i = Some v -> P v)).
  { intros P. split.
    - intros H l i v _ _ Hv. apply H. apply (nth_error_In _ i Hv).
    - intros H v Hv. apply In_nth_error in Hv. destruct Hv as (i & Hi).
      destruct (nth_error (labels_of cs) i) as [l|] eqn:El.
      + apply (H l i v); [apply (nth_error_In _ i El)|apply (ev_labels cs Hd w e He); exact El|exact Hi].
      + apply nth_error_None in El. assert (i < length (cls_rocauc e)) by (apply nth_error_Some; congruence). lia. }
  assert (X : forall l i, has_number e l i -> exists v, nth_error (cls_rocauc e) i = Some v /\ (0 <= v <= 1)%Q /\
      ((v == 1)%Q <-> forall c d x y, In c kept -> In d kept -> c_groundtruth c = l -> c_groundtruth d <> l -> In (l, x) (candidates c) -> In (l, y) (candidates d) -> (y < x)%Z) /\
      ((v == 0)%Q <-> forall c d x y, In c kept -> In d kept -> c_groundtruth c = l -> c_groundtruth d <> l -> In (l, x) (candidates c) -> In (l, y) (candidates d) -> (x < y)%Z)).
  { intros l i Hn. destruct (Hc l i Hn) as (C1 & C2 & C3 & C4 & C5).
    destruct (roc_extremes cs w e Hd He l i Hn C1 C2 C3 Hz C4 C5) as (v & Ev & V1 & V0 & _).
    destruct (covered_rocauc cs Hd w e He l i Hn C1 C2 C3 Hz C4 C5) as (v' & Ev' & _ & R). exists v. replace v' with v in R by congruence. auto. }
  assert (N : forall l, In l (labels_of cs) -> exists i, has_number e l i).
  { intros l Hl. apply In_nth_error in Hl. destruct Hl as (i & Hi). exists i. apply (ev_labels cs Hd w e He). exact Hi. }
  assert (B : forall v, In v (cls_rocauc e) -> (0 <= v <= 1)%Q).
  { apply A. intros l i v _ Hn Hv. destruct (X l i Hn) as (v' & Ev & R & _). congruence. }
  destruct (qmean_extremes _ m B Hm) as [E1 E0]. split.
  - rewrite E1, (A (fun v => (v == 1)%Q)). split.
    + intros H l Hl. destruct (N l Hl) as (i & Hn). destruct (X l i Hn) as (v & Ev & _ & V1 & _). apply V1. apply (H l i v Hl Hn Ev).
    + intros H l i v Hl Hn Hv. destruct (X l i Hn) as (v' & Ev & _ & V1 & _). replace v with v' by congruence. apply V1. apply H. exact Hl.
  - rewrite E0, (A (fun v => (v == 0)%Q)). split.
    + intros H l Hl. destruct (N l Hl) as (i & Hn). destruct (X l i Hn) as (v & Ev & _ & _ & V0). apply V0. apply (H l i v Hl Hn Ev).
    + intros H l i v Hl Hn Hv. destruct (X l i Hn) as (v' & Ev & _ & _ & V0). replace v with v' by congruence. apply V0. apply H. exact Hl.
Qed.
