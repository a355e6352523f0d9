(* C145: relations between the metrics of one label of a segmentation report. *)
From Verif Require Import Prelude Counting CacheModel CacheSpec ClsModel ClsSpec ClsLabelProofs FlowModel DetFlowModel SegModel SegSpec
  SegPixelProofs SegStoreProofs SegMetricProofs SegInfoProofs SegMore SegReorderSpec SegReorderProofs SegSwapSpec SegSwapProofs PerfectProofs SegPerfectSpec SegPerfectProofs.
From Coq Require Import QArith String Lia.
Local Open Scope nat_scope.
Local Open Scope list_scope.

Lemma fraction_cross a b c d : 0 < b -> 0 < d -> a * d <= c * b -> (fraction a b <= fraction c d)%Q.
Proof.
  intros Hb Hd H. unfold fraction. destruct b as [|b]; [lia|]. destruct d as [|d]; [lia|].
  apply Qle_shift_div_l; [unfold Qlt, inject_Z; cbn [Qnum Qden]; lia|].
  setoid_replace (inject_Z (Z.of_nat a) / inject_Z (Z.of_nat (S b)) * inject_Z (Z.of_nat (S d)))%Q with ((inject_Z (Z.of_nat a) * inject_Z (Z.of_nat (S d))) / inject_Z (Z.of_nat (S b)))%Q
    by (field; intros X; unfold Qeq in X; cbn in X; lia).
  apply Qle_shift_div_r; [unfold Qlt, inject_Z; cbn [Qnum Qden]; lia|].
  rewrite <- !inject_Z_mult, <- Zle_Qle. nia.
Qed.
Lemma fraction_0 b : (fraction 0 b == 0)%Q.
Proof. unfold fraction. destruct b; [reflexivity|]. unfold Qdiv. apply Qmult_0_l. Qed.
Lemma fraction_add a b d : a + b <= d -> (fraction a d + fraction b d <= 1)%Q.
Proof.
  intros H. unfold fraction. destruct d as [|d]; [discriminate|].
  assert (N : ~ (inject_Z (Z.of_nat (S d)) == 0)%Q) by (intros X; unfold Qeq in X; cbn in X; lia).
  setoid_replace (inject_Z (Z.of_nat a) / inject_Z (Z.of_nat (S d)) + inject_Z (Z.of_nat b) / inject_Z (Z.of_nat (S d)))%Q
    with ((inject_Z (Z.of_nat a) + inject_Z (Z.of_nat b)) / inject_Z (Z.of_nat (S d)))%Q by (field; exact N).
  apply Qle_shift_div_r; [unfold Qlt, inject_Z; cbn [Qnum Qden]; lia|]. rewrite Qmult_1_l, <- inject_Z_plus, <- Zle_Qle. lia.
Qed.
Section Numbers.
  Variables (a g p u : nat).
  Hypothesis Hg : a <= g.
  Hypothesis Hp : a <= p.
  Hypothesis Hu : u + a = g + p.
  Lemma dice : (fraction (2 * a) (g + p) * (1 + fraction a u) == 2 * fraction a u)%Q.
  Proof.
    destruct (Nat.eq_0_gt_0_cases a) as [->|Ha]; [rewrite Nat.mul_0_r, !fraction_0; reflexivity|].
    unfold fraction. destruct (g + p) as [|n] eqn:E1; [lia|]. destruct u as [|m]; [lia|].
    assert (X : (inject_Z (Z.of_nat (S n)) == inject_Z (Z.of_nat (S m)) + inject_Z (Z.of_nat a))%Q) by (rewrite <- inject_Z_plus, <- Nat2Z.inj_add, Hu; reflexivity).
    rewrite X. rewrite Nat2Z.inj_mul, inject_Z_mult. change (inject_Z (Z.of_nat 2)) with 2%Q. field.
    split; [intros Y|rewrite <- inject_Z_plus; intros Y]; unfold Qeq in Y; cbn [Qnum Qden inject_Z] in Y; lia.
  Qed.
  Lemma iou_below : (fraction a u <= fraction a p)%Q /\ (fraction a u <= fraction a g)%Q /\ (fraction a u <= fraction (2 * a) (g + p))%Q.
  Proof.
    destruct (Nat.eq_0_gt_0_cases a) as [->|Ha]; [rewrite Nat.mul_0_r, !fraction_0; repeat split; apply Qle_refl|].
    repeat split; apply fraction_cross; nia.
  Qed.
  Lemma f1_between : (fraction a p <= fraction (2 * a) (g + p) <= fraction a g)%Q \/ (fraction a g <= fraction (2 * a) (g + p) <= fraction a p)%Q.
  Proof.
    destruct (Nat.eq_0_gt_0_cases a) as [->|Ha]; [left; rewrite Nat.mul_0_r, !fraction_0; split; apply Qle_refl|].
    destruct (Nat.le_ge_cases g p) as [L|L]; [left|right]; split; apply fraction_cross; nia.
  Qed.
End Numbers.

Section View.
  Variables (ss : list segmentation) (v : view).
  Lemma vcount_split P R : (forall g p, P g p = true -> R g p = true -> False) -> forall T, (forall g p, P g p = true -> T g p = true) -> (forall g p, R g p = true -> T g p = true) ->
    vcount ss v P + vcount ss v R <= vcount ss v T.
  Proof.
    intros D T H1 H2. unfold vcount. rewrite !npix_flat. induction (all_pixels (filter (v_datum v) ss)) as [|[s x] t IH]; [cbn; lia|]. unfold countb in *. cbn [filter fst snd].
    specialize (D (vgt v s x) (vpd v s x)). specialize (H1 (vgt v s x) (vpd v s x)). specialize (H2 (vgt v s x) (vpd v s x)).
    destruct (P (vgt v s x) (vpd v s x)), (R (vgt v s x) (vpd v s x)); cbn [List.length]; try (exfalso; apply D; reflexivity);
      try rewrite H1 by reflexivity; try rewrite H2 by reflexivity; destruct (T (vgt v s x) (vpd v s x)); cbn [List.length]; lia.
  Qed.
  Lemma union_count l : vcount ss v (fun g p => is_label g l || is_label p l) + vcount ss v (fun g p => is_label g l && is_label p l) = vcount ss v (fun g _ => is_label g l) + vcount ss v (fun _ p => is_label p l).
  Proof.
    unfold vcount. rewrite !npix_flat. induction (all_pixels (filter (v_datum v) ss)) as [|[s p] t IH]; [reflexivity|]. unfold countb in *. cbn [filter fst snd].
    destruct (is_label (vgt v s p) l), (is_label (vpd v s p) l); cbn [orb andb List.length]; lia.
  Qed.
  Theorem relations L r : report_ok ss v L r -> forall l pr rc f i un_p un_g,
    In (Some l, pr) (sr_precision r) -> In (Some l, rc) (sr_recall r) -> In (Some l, f) (sr_f1 r) -> In (Some l, i) (sr_iou r) ->
    In (Some l, un_p) (sr_unmatched_pd r) -> In (Some l, un_g) (sr_unmatched_gt r) ->
    (f * (1 + i) == 2 * i)%Q /\ (i <= pr)%Q /\ (i <= rc)%Q /\ (i <= f)%Q /\ ((pr <= f <= rc)%Q \/ (rc <= f <= pr)%Q) /\ (pr + un_p <= 1)%Q /\ (rc + un_g <= 1)%Q.
  Proof.
    intros (_ & _ & UP & UG & _ & P & R & F & I) l pr rc f i un_p un_g HP HR HF HI HUP HUG.
    destruct (lists_In _ _ _ _ _ P HP) as (l1 & E & _ & Q1). injection E as <-. destruct (lists_In _ _ _ _ _ R HR) as (l2 & E & _ & Q2). injection E as <-.
    destruct (lists_In _ _ _ _ _ F HF) as (l3 & E & _ & Q3). injection E as <-. destruct (lists_In _ _ _ _ _ I HI) as (l4 & E & _ & Q4). injection E as <-.
    destruct (lists_In _ _ _ _ _ UP HUP) as (l5 & E & _ & Q5). injection E as <-. destruct (lists_In _ _ _ _ _ UG HUG) as (l6 & E & _ & Q6). injection E as <-.
    rewrite Q1, Q2, Q3, Q4, Q5, Q6. unfold spec_precision, spec_recall, spec_f1, spec_iou, spec_unmatched_pd, spec_unmatched_gt.
    set (a := vcount ss v (fun g p => is_label g l && is_label p l)). set (u := vcount ss v (fun g p => is_label g l || is_label p l)).
    set (g := vcount ss v (fun g _ => is_label g l)). set (p := vcount ss v (fun _ p => is_label p l)).
    assert (Hg : a <= g) by (apply vcount_le; intros x y H; apply andb_true_iff in H; apply H).
    assert (Hp : a <= p) by (apply vcount_le; intros x y H; apply andb_true_iff in H; apply H).
    assert (Hu : u + a = g + p) by apply union_count.
    destruct (iou_below a g p u Hg Hp Hu) as (I1 & I2 & I3).
    split; [apply dice; assumption|]. split; [exact I1|]. split; [exact I2|]. split; [exact I3|]. split; [exact (f1_between a g p u Hg Hp Hu)|].
    split; apply fraction_add; apply vcount_split; intros x y; cbn; destruct x, y; cbn; intros; try discriminate; try reflexivity; try assumption;
      repeat match goal with H : _ && _ = true |- _ => apply andb_true_iff in H; destruct H end; try discriminate; try assumption.
  Qed.
End View.
