(* C143: segmentation scores equal to zero. *)
From Verif Require Import Prelude Counting CacheModel CacheSpec ClsModel ClsSpec ClsLabelProofs FlowModel DetFlowModel SegModel SegSpec
  SegPixelProofs SegStoreProofs SegMetricProofs SegInfoProofs SegMore SegReorderSpec SegReorderProofs SegSwapSpec SegSwapProofs PerfectProofs ZeroProofs SegPerfectSpec SegPerfectProofs.
From Coq Require Import QArith String Lia.
Local Open Scope nat_scope.
Local Open Scope list_scope.

Lemma fraction_zero a b : a <= b -> ((fraction a b == 0)%Q <-> a = 0).
Proof.
  intros H. unfold fraction. destruct b as [|b]; [split; [lia|reflexivity]|]. pose proof (qdiv_zero a (S b) H) as Z. exact Z.
Qed.

Section View.
  Variables (ss : list segmentation) (v : view).
  Notation vpixel := (vpixel ss v).
  Lemma vcount_zero P : vcount ss v P = 0 <-> forall s p, vpixel s p -> P (vgt v s p) (vpd v s p) = false.
  Proof.
    unfold vcount. rewrite npix_flat, countb_zero. split.
    - intros A s p H. apply (A (s, p)). apply kept_pixels, H.
    - intros A [s p] H. apply A. apply kept_pixels, H.
  Qed.
  Lemma both_zero l k : vcount ss v (fun g p => is_label g l && is_label p k) = 0 <-> forall s p, vpixel s p -> ~ (vgt v s p = Some l /\ vpd v s p = Some k).
  Proof.
    rewrite vcount_zero. split; intros A s p H.
    - intros [E1 E2]. specialize (A s p H). apply is_label_iff in E1, E2. rewrite E1, E2 in A. discriminate.
    - apply not_true_iff_false. intros X. apply andb_true_iff in X. rewrite !is_label_iff in X. exact (A s p H X).
  Qed.
  Theorem scores_zero L r : report_ok ss v L r ->
    let apart l := forall s p, vpixel s p -> ~ (vgt v s p = Some l /\ vpd v s p = Some l) in
    ((sr_accuracy r == 0)%Q <-> forall s p, vpixel s p -> vgt v s p <> vpd v s p) /\
    (forall l q, In (Some l, q) (sr_precision r) -> (q == 0)%Q <-> apart l) /\
    (forall l q, In (Some l, q) (sr_recall r) -> (q == 0)%Q <-> apart l) /\
    (forall l q, In (Some l, q) (sr_f1 r) -> (q == 0)%Q <-> apart l) /\
    (forall l q, In (Some l, q) (sr_iou r) -> (q == 0)%Q <-> apart l).
  Proof.
    intros (A & _ & _ & _ & _ & P & R & F & I) apart. split.
    { rewrite A. unfold spec_accuracy. rewrite fraction_zero by (apply vcount_le; reflexivity). rewrite vcount_zero. split; intros X s p H; specialize (X s p H).
      - intros E. apply same_iff in E. congruence.
      - apply not_true_iff_false. rewrite same_iff. exact X. }
    assert (B1 : forall l, vcount ss v (fun g p => is_label g l && is_label p l) <= vcount ss v (fun g _ => is_label g l)) by (intros l; apply vcount_le; intros g p H; apply andb_true_iff in H; apply H).
    assert (B2 : forall l, vcount ss v (fun g p => is_label g l && is_label p l) <= vcount ss v (fun _ p => is_label p l)) by (intros l; apply vcount_le; intros g p H; apply andb_true_iff in H; apply H).
    assert (B3 : forall l, vcount ss v (fun g p => is_label g l && is_label p l) <= vcount ss v (fun g p => is_label g l || is_label p l)) by (intros l; apply vcount_le; intros g p H; apply andb_true_iff in H; destruct H as [-> _]; reflexivity).
    split; [|split; [|split]]; intros l q H; unfold apart; rewrite <- both_zero; specialize (B1 l); specialize (B2 l); specialize (B3 l).
    - destruct (lists_In _ _ _ _ _ P H) as (l' & E & _ & Q). injection E as <-. rewrite Q. unfold spec_precision. apply fraction_zero. exact B2.
    - destruct (lists_In _ _ _ _ _ R H) as (l' & E & _ & Q). injection E as <-. rewrite Q. unfold spec_recall. apply fraction_zero. exact B1.
    - destruct (lists_In _ _ _ _ _ F H) as (l' & E & _ & Q). injection E as <-. rewrite Q. unfold spec_f1. rewrite fraction_zero by lia. lia.
    - destruct (lists_In _ _ _ _ _ I H) as (l' & E & _ & Q). injection E as <-. rewrite Q. unfold spec_iou. apply fraction_zero. exact B3.
  Qed.
End View.
