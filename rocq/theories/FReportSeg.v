(* The float report of segmentation against the fractions of pixels (C112, C113). *)
From Verif Require Import Prelude Counting CacheModel FlowModel SegModel SegSpec SegPixelProofs SegProofs SegStoreProofs SegLabelProofs SegFlowProofs SegMetricProofs
  FloatModel FloatProofs RndProofs FReportModel FReportSpec FReportSegSpec FReportProofs FReportMain FReportDet.
From Coq Require Import Lia String QArith Qabs Qminmax Lqa Permutation.
Local Notation length := List.length (only parsing).
Local Notation concat := List.concat (only parsing).
Local Open Scope Z_scope.

Lemma fraction_ratio a b : fraction a b = ratio (Z.of_nat a) (Z.of_nat b).
Proof. rewrite <- qdiv_fraction. reflexivity. Qed.
Lemma fraction_rounded a b : Z.of_nat a <= 2 ^ 53 -> Z.of_nat b <= 2 ^ 53 -> rounded (fraction a b) (fdiv a b).
Proof. intros Ha Hb. rewrite fraction_ratio. apply ratio_rounded; lia. Qed.

Section Matrix.
  Variables (ss : list segmentation) (v : view) (m : matrix).
  Local Notation L := (seg_labels ss).
  Local Notation n := (List.length (seg_labels ss)).
  Hypothesis Hm : forall i j, (i <= n)%nat -> (j <= n)%nat -> m i j = Z.of_nat (cell ss v i j).
  Hypothesis Hsmall : Z.of_nat (vcount ss v (fun _ _ => true)) <= 2 ^ 53.
  Lemma small64 : Z.of_nat (vcount ss v (fun _ _ => true)) < 2 ^ 64.
  Proof. lia. Qed.
  Lemma count53 P : Z.of_nat (vcount ss v P) <= 2 ^ 53.
  Proof. pose proof (vcount_mono ss v P (fun _ _ => true) (fun _ _ _ => eq_refl)). lia. Qed.
  (* every quotient of the exact matrix is one of two counts *)
  Definition counts_quot (f : Q) (g : Q) (a b : nat) : Prop := f = fraction a b /\ g = fdiv a b.

  Lemma fm_accuracy_ok : rounded (spec_accuracy ss v) (fm_accuracy n m).
  Proof.
    unfold fm_accuracy. rewrite (total_count ss v m Hm small64).
    assert (X : u64 (u64 (zsum (map (fun i => m (S i) (S i)) (seq 0 n))) + m 0%nat 0%nat) = Z.of_nat (vcount ss v same)).
    { unfold u64 at 1 2. rewrite Zplus_mod_idemp_l. rewrite (diag_count ss v m Hm). apply (small_count ss v m Hm small64). }
    cbv zeta. rewrite X. apply fraction_rounded; apply count53.
  Qed.
  Lemma fm_iou_ok i j a b : nth_error L i = Some a -> nth_error L j = Some b -> rounded (spec_iou ss v a b) (fm_iou n m i j) /\ fl (fm_iou n m i j).
  Proof.
    intros Hi Hj. split; [|apply fdivz_fl]. pose proof (lt_n ss v m Hm i a Hi) as Bi. pose proof (lt_n ss v m Hm j b Hj) as Bj. unfold fm_iou. cbv zeta.
    rewrite (mrow_count ss v m Hm small64 _ Bi), (mcol_count ss v m Hm small64 _ Bj), (Hm _ _ Bi Bj). unfold cell.
    assert (Li : labn (seg_labels ss) (S i) = Some a) by exact Hi. assert (Lj : labn (seg_labels ss) (S j) = Some b) by exact Hj. rewrite Li, Lj.
    assert (E1 : vcount ss v (fun g p => same g (Some a) && same p (Some b)) = vcount ss v (fun g p => is_label g a && is_label p b))
      by (apply vcount_ext; intros; rewrite !is_label_same; reflexivity).
    rewrite E1. pose proof (vcount_or ss v (fun g _ => is_label g a) (fun _ p => is_label p b)) as E. cbv beta in E.
    rewrite (vcount_ext ss v (fun g _ => same g (Some a)) (fun g _ => is_label g a)) by (intros; rewrite is_label_same; reflexivity).
    rewrite (vcount_ext ss v (fun _ p => same p (Some b)) (fun _ p => is_label p b)) by (intros; rewrite is_label_same; reflexivity).
    replace (u64 _) with (Z.of_nat (vcount ss v (fun g p => is_label g a || is_label p b))).
    - apply fraction_rounded; apply count53.
    - symmetry. etransitivity; [|apply (small_count ss v m Hm small64)]. f_equal. lia.
  Qed.
  Lemma fm_upd_ok j l : nth_error L j = Some l -> rounded (spec_unmatched_pd ss v l) (fm_unmatched_pd n m j).
  Proof.
    intros Hj. pose proof (lt_n ss v m Hm j l Hj) as Bj. unfold fm_unmatched_pd. rewrite (mcol_count ss v m Hm small64 _ Bj), (Hm 0%nat (S j)) by lia.
    unfold cell. assert (Lj : labn (seg_labels ss) (S j) = Some l) by exact Hj. rewrite Lj.
    rewrite (vcount_ext ss v (fun g p => same g (labn (seg_labels ss) 0) && same p (Some l)) (fun g p => same g None && is_label p l)) by (intros; rewrite is_label_same; reflexivity).
    rewrite (vcount_ext ss v (fun _ p => same p (Some l)) (fun _ p => is_label p l)) by (intros; rewrite is_label_same; reflexivity).
    apply fraction_rounded; apply count53.
  Qed.
  Lemma fm_ugt_ok j l : nth_error L j = Some l -> rounded (spec_unmatched_gt ss v l) (fm_unmatched_gt n m j).
  Proof.
    intros Hj. pose proof (lt_n ss v m Hm j l Hj) as Bj. unfold fm_unmatched_gt. rewrite (mrow_count ss v m Hm small64 _ Bj), (Hm (S j) 0%nat) by lia.
    unfold cell. assert (Lj : labn (seg_labels ss) (S j) = Some l) by exact Hj. rewrite Lj.
    rewrite (vcount_ext ss v (fun g p => same g (Some l) && same p (labn (seg_labels ss) 0)) (fun g p => is_label g l && same p None)) by (intros; rewrite is_label_same; reflexivity).
    rewrite (vcount_ext ss v (fun g _ => same g (Some l)) (fun g _ => is_label g l)) by (intros; rewrite is_label_same; reflexivity).
    apply fraction_rounded; apply count53.
  Qed.
  Local Notation common l := (vcount ss v (fun g p => is_label g l && is_label p l)).
  Local Notation pds l := (vcount ss v (fun _ p => is_label p l)).
  Local Notation gts l := (vcount ss v (fun g _ => is_label g l)).
  Lemma diag_cell j l : nth_error L j = Some l -> m (S j) (S j) = Z.of_nat (common l) /\ mcol n m (S j) = Z.of_nat (pds l) /\ mrow n m (S j) = Z.of_nat (gts l).
  Proof.
    intros Hj. pose proof (lt_n ss v m Hm j l Hj) as Bj. rewrite (mrow_count ss v m Hm small64 _ Bj), (mcol_count ss v m Hm small64 _ Bj), (Hm (S j) (S j) Bj Bj). unfold cell.
    assert (Lj : labn (seg_labels ss) (S j) = Some l) by exact Hj. rewrite Lj.
    repeat match goal with |- _ /\ _ => split end; f_equal; apply vcount_ext; intros; rewrite ?is_label_same; reflexivity.
  Qed.
  Lemma fm_precision_ok j l : nth_error L j = Some l -> rounded (spec_precision ss v l) (fm_precision n m j).
  Proof. intros Hj. destruct (diag_cell j l Hj) as (E1 & E2 & _). unfold fm_precision. rewrite E1, E2. apply fraction_rounded; apply count53. Qed.
  Lemma fm_recall_ok j l : nth_error L j = Some l -> rounded (spec_recall ss v l) (fm_recall n m j).
  Proof. intros Hj. destruct (diag_cell j l Hj) as (E1 & _ & E2). unfold fm_recall. rewrite E1, E2. apply fraction_rounded; apply count53. Qed.
  Lemma fm_f1_ok j l : nth_error L j = Some l -> nearly 5 (spec_f1 ss v l) (fm_f1 n m j).
  Proof.
    intros Hj. destruct (diag_cell j l Hj) as (E1 & E2 & E3). unfold fm_f1, fm_precision, fm_recall. rewrite E1, E2, E3.
    assert (A1 : (common l <= gts l)%nat) by (apply vcount_mono; intros g p H; apply andb_true_iff in H; tauto).
    assert (A2 : (common l <= pds l)%nat) by (apply vcount_mono; intros g p H; apply andb_true_iff in H; tauto).
    pose proof (count53 (fun g _ => is_label g l)) as B1. pose proof (count53 (fun _ p => is_label p l)) as B2. cbv beta in B1, B2.
    unfold spec_f1. set (c := common l) in *. set (g := gts l) in *. set (p := pds l) in *. rewrite fraction_ratio.
    replace (Z.of_nat p) with (Z.of_nat c + Z.of_nat (p - c)) by lia. replace (Z.of_nat g) with (Z.of_nat c + Z.of_nat (g - c)) by lia.
    apply (reports_nearly (Z.of_nat c) (Z.of_nat (p - c)) (Z.of_nat (g - c))); try lia.
    - intros Z0. replace (Z.of_nat (2 * c)) with 0 by lia. apply ratio_0.
    - intros Hc. unfold ratio. replace (0 <? Z.of_nat (g + p)) with true by lia.
      replace (Z.of_nat (2 * c)) with (2 * Z.of_nat c) by lia. replace (Z.of_nat (g + p)) with (2 * Z.of_nat c + Z.of_nat (p - c) + Z.of_nat (g - c)) by lia. reflexivity.
    - apply fseg_f1_reports; lia.
  Qed.
End Matrix.

Lemma flists_labs L (R : string -> Q -> Prop) (f : nat -> Q) :
  (forall i l, nth_error L i = Some l -> R l (f i)) ->
  flists_of L R (map (fun i => (Some (lab L i), f i)) (seq 0 (length L))).
Proof. intros H. apply Forall2_labs. intros i l Hi. split; [reflexivity|]. apply H. exact Hi. Qed.
Lemma map_some_inj {A} : forall l m : list A, map Some l = map Some m -> l = m.
Proof. induction l as [|a l IH]; intros [|b m] H; try discriminate H; [reflexivity|]. injection H as -> H. f_equal. apply IH. exact H. Qed.
Section Seg.
  Variable nsum : list Q -> Q.
  Hypothesis Hsum : summation nsum.
  Theorem freport_correct ss v m :
    (forall i j, (i <= List.length (seg_labels ss))%nat -> (j <= List.length (seg_labels ss))%nat -> m i j = Z.of_nat (cell ss v i j)) ->
    Z.of_nat (vcount ss v (fun _ _ => true)) <= 2 ^ 53 -> Z.of_nat (length (seg_labels ss)) <= 2 ^ 53 ->
    exists rep, seg_freport nsum (enum (seg_labels ss)) m = Some rep /\ freport_ok ss v (seg_labels ss) rep.
  Proof.
    intros Hm Hs HL. unfold seg_freport. rewrite enum_length. rewrite !by_items_enum, !by_range_enum. rewrite map_map. cbn [fst snd].
    rewrite (all_some_map _ (fun i => (Some (lab (seg_labels ss) i), map (fun j => (Some (lab (seg_labels ss) j), fm_iou (List.length (seg_labels ss)) m i j)) (seq 0 (List.length (seg_labels ss)))))).
    2:{ intros i _. rewrite by_range_enum. reflexivity. }
    eexists. split; [reflexivity|]. unfold freport_ok. cbn [sr_accuracy sr_confusion sr_unmatched_pd sr_unmatched_gt sr_miou sr_precision sr_recall sr_f1 sr_iou].
    split; [apply (fm_accuracy_ok ss v m Hm Hs)|].
    split. { apply Forall2_labs. intros i a Hi. split; [reflexivity|]. apply flists_labs. intros j b Hj. apply (fm_iou_ok ss v m Hm Hs i j a b Hi Hj). }
    split. { apply flists_labs. intros i l Hi. apply (fm_upd_ok ss v m Hm Hs i l Hi). }
    split. { apply flists_labs. intros i l Hi. apply (fm_ugt_ok ss v m Hm Hs i l Hi). }
    split.
    { set (L := seg_labels ss) in *. set (n := length L) in *. rewrite map_map. cbn [snd].
      assert (X : Forall2 (within 1) (map (fun l => spec_iou ss v l l) L) (map (fun i => fm_iou n m i i) (seq 0 n)) /\
                  Forall unit_range (map (fun i => fm_iou n m i i) (seq 0 n)) /\ Forall fl (map (fun i => fm_iou n m i i) (seq 0 n))).
      { rewrite (list_labs L) at 1. fold n. rewrite map_map. apply map_pair. intros i Hi. apply in_seq in Hi.
        assert (Li : nth_error L i = Some (lab L i)) by (apply lab_nth; fold n; lia).
        destruct (fm_iou_ok ss v m Hm Hs i i _ _ Li Li) as [(_ & R1 & R2 & _ & R3) F].
        assert (U : (0 <= spec_iou ss v (lab L i) (lab L i) <= 1)%Q).
        { apply fraction_range. apply vcount_mono. intros g p H. apply andb_true_iff in H. destruct H as [-> _]. reflexivity. }
        split; [|split; [split; [exact R1|apply R3; tauto]|exact F]]. unfold within. eapply Qle_trans; [exact R2|]. change (inject_Z 1) with 1%Q. destruct U. lra. }
      destruct X as (X1 & X2 & X3). unfold fm_miou. destruct (fmean_avg nsum Hsum 1 _ _ X1 X2 X3) as (N & A & _).
      { rewrite map_length, seq_length. exact HL. }
      rewrite map_length, seq_length in N. destruct (fmean nsum _) as [q|] eqn:Ef.
      - destruct A as (xs & A1 & A2 & A3). apply map_some_inj in A1.
        subst xs. assert (NE : L <> []) by (intros ->; apply A2; reflexivity). split; [exact NE|]. split; [exact A3|].
        unfold near_average, DetModel.qmean in N. destruct (map (fun l => spec_iou ss v l l) L) eqn:El; [destruct L; [congruence|discriminate]|].
        rewrite <- El in *. unfold qmean. exact N.
      - destruct A as [A|A]; [|apply in_map_iff in A; destruct A as (? & ? & _); discriminate].
        apply map_eq_nil, map_eq_nil in A. unfold n in A. destruct L; [reflexivity|discriminate]. }
    split. { apply flists_labs. intros i l Hi. apply (fm_precision_ok ss v m Hm Hs i l Hi). }
    split. { apply flists_labs. intros i l Hi. apply (fm_recall_ok ss v m Hm Hs i l Hi). }
    split. { apply flists_labs. intros i l Hi. apply (fm_f1_ok ss v m Hm Hs i l Hi). }
    apply flists_labs. intros i l Hi. apply (fm_iou_ok ss v m Hm Hs i i l l Hi Hi).
  Qed.
  Theorem fcompute_correct ss v e ed sel :
    obtained ss v e -> Forall clean ss -> total_pixels ss <= 2 ^ 53 -> Z.of_nat (length (seg_labels ss)) <= 2 ^ 53 -> datum_expr ss ed sel ->
    exists rep, seg_fcompute nsum e ed = Some rep /\ freport_ok ss (with_datums v sel) (seg_labels ss) rep.
  Proof.
    intros Ho Hc Hn HL He. destruct (obtained_holds ss v e Ho Hc) as (_ & HT & HLL). assert (Hn' : countable ss) by (unfold countable; lia).
    unfold seg_fcompute. rewrite HLL. apply freport_correct; [| |exact HL].
    - intros i j Hi Hj. apply (matrix_cell ss v _ ed sel i j); auto.
      + destruct i as [|i]; [reflexivity|]. cbn. rewrite lab_nth by lia. reflexivity.
      + destruct j as [|j]; [reflexivity|]. cbn. rewrite lab_nth by lia. reflexivity.
    - eapply Z.le_trans; [apply vcount_bound; exact Hc|exact Hn].
  Qed.
End Seg.
