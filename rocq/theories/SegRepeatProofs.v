(* C140: segmentation reports of data listed several times. *)
From Verif Require Import Prelude Counting CacheModel CacheSpec ClsModel ClsSpec ClsLabelProofs FlowModel DetFlowModel SegModel SegSpec
  SegPixelProofs SegStoreProofs SegMetricProofs SegInfoProofs SegMore SegReorderSpec SegReorderProofs RepeatSpec RepeatProofs.
From Coq Require Import QArith String Lia.
Local Open Scope nat_scope.
Local Open Scope list_scope.

Lemma fraction_scale n a b : 0 < n -> (fraction (n * a) (n * b) == fraction a b)%Q.
Proof.
  intros Hn. unfold fraction. destruct b as [|b]; [rewrite Nat.mul_0_r; reflexivity|].
  destruct (n * S b) as [|m] eqn:E; [nia|]. rewrite <- E. apply ratio_scale; lia.
Qed.
Lemma zsum_copies n (l : list Z) : zsum (List.concat (repeat l n)) = (Z.of_nat n * zsum l)%Z.
Proof. induction n as [|m IH]; [reflexivity|]. cbn [repeat List.concat]. rewrite zsum_app, IH, Nat2Z.inj_succ. ring. Qed.

Section Seg.
  Variables (n : nat) (ss ss' : list segmentation).
  Hypothesis Hn : 0 < n.
  Hypothesis HC : copies n ss ss'.

  Lemma vcount_copies v P : vcount ss' v P = n * vcount ss v P.
  Proof. unfold vcount, npix. apply copies_sum, copies_filter, HC. Qed.
  Lemma labels_copies : Permutation (seg_labels ss) (seg_labels ss').
  Proof.
    apply NoDup_Permutation; [apply seg_labels_NoDup|apply seg_labels_NoDup|].
    intros x. rewrite !seg_labels_In. split; intros (s & Hs & Hx); exists s; (split; [|exact Hx]); apply (copies_In n ss ss' HC Hn); exact Hs.
  Qed.
  Lemma clean_copies : Forall clean ss -> Forall clean ss'.
  Proof. rewrite !Forall_forall. intros H s Hs. apply H, (copies_incl n ss ss' HC s Hs). Qed.
  Lemma total_copies p : total_pixels (filter p ss') = (Z.of_nat n * total_pixels (filter p ss))%Z.
  Proof.
    unfold total_pixels. pose proof (copies_map sg_size n _ _ (copies_filter p n ss ss' HC)) as H. unfold copies in H.
    pose proof (zsum_perm (fun x => x) _ _ H) as E. rewrite !map_id in E. rewrite E. apply zsum_copies.
  Qed.

  Section View.
    Variable v : view.
    Lemma iou_copies a b : (spec_iou ss v a b == spec_iou ss' v a b)%Q.
    Proof. unfold spec_iou. rewrite !vcount_copies, fraction_scale by exact Hn. reflexivity. Qed.
    Lemma report_copies r r' : report_ok ss v (seg_labels ss) r -> report_ok ss' v (seg_labels ss') r' -> report_alike r r'.
    Proof.
      intros (A1 & C1 & U1 & G1 & M1 & P1 & R1 & F1 & I1) (A2 & C2 & U2 & G2 & M2 & P2 & R2 & F2 & I2).
      assert (HL := labels_copies).
      split. { rewrite A1, A2. unfold spec_accuracy. rewrite !vcount_copies, fraction_scale by exact Hn. reflexivity. }
      split.
      { destruct (sr_miou r) as [m1|], (sr_miou r') as [m2|]; cbn.
        - destruct M1 as [_ M1], M2 as [_ M2]. rewrite M1, M2. apply (qmean_perm _ _ _ _ HL). intros l. apply iou_copies.
        - destruct M1 as [M1 _]. apply M1. rewrite M2 in HL. apply Permutation_sym, Permutation_nil in HL. exact HL.
        - destruct M2 as [M2 _]. apply M2. rewrite M1 in HL. apply Permutation_nil in HL. exact HL.
        - exact I. }
      split. { apply (rows_same _ _ _ _ _ _ HL) with (3 := C2) (2 := C1). intros a l. apply iou_copies. }
      split. { apply (lists_same _ _ _ _ _ _ HL) with (3 := U2) (2 := U1). intros l. unfold spec_unmatched_pd. rewrite !vcount_copies, fraction_scale by exact Hn. reflexivity. }
      split. { apply (lists_same _ _ _ _ _ _ HL) with (3 := G2) (2 := G1). intros l. unfold spec_unmatched_gt. rewrite !vcount_copies, fraction_scale by exact Hn. reflexivity. }
      split. { apply (lists_same _ _ _ _ _ _ HL) with (3 := P2) (2 := P1). intros l. unfold spec_precision. rewrite !vcount_copies, fraction_scale by exact Hn. reflexivity. }
      split. { apply (lists_same _ _ _ _ _ _ HL) with (3 := R2) (2 := R1). intros l. unfold spec_recall. rewrite !vcount_copies, fraction_scale by exact Hn. reflexivity. }
      split. { apply (lists_same _ _ _ _ _ _ HL) with (3 := F2) (2 := F1). intros l. unfold spec_f1. rewrite !vcount_copies.
        replace (2 * (n * vcount ss v (fun g p => is_label g l && is_label p l))) with (n * (2 * vcount ss v (fun g p => is_label g l && is_label p l))) by lia.
        rewrite <- Nat.mul_add_distr_l, fraction_scale by exact Hn. reflexivity. }
      apply (lists_same _ _ _ _ _ _ HL) with (3 := I2) (2 := I1). intros l. apply iou_copies.
    Qed.
  End View.

  Theorem seg_copies v e e' ed ed' sel : Forall clean ss -> countable ss -> countable ss' ->
    obtained ss v e -> obtained ss' v e' -> datum_expr ss ed sel -> datum_expr ss' ed' sel ->
    exists r r', seg_compute e ed = Some r /\ seg_compute e' ed' = Some r' /\ report_alike r r'.
  Proof.
    intros Hc Hk Hk' O O' D D'.
    destruct (compute_correct ss v e ed sel O Hc Hk D) as (r & E & R).
    destruct (compute_correct ss' v e' ed' sel O' (clean_copies Hc) Hk' D') as (r' & E' & R').
    exists r, r'. split; [exact E|]. split; [exact E'|]. exact (report_copies _ r r' R R').
  Qed.
  Theorem seg_copies_info v w e e' ed eg ep ed' eg' ep' : Forall clean ss -> countable ss -> countable ss' ->
    obtained ss v e -> obtained ss' v e' ->
    datum_expr ss ed (v_datum w) -> gt_expr ss eg (v_gt w) -> pd_expr ss ep (v_pd w) ->
    datum_expr ss' ed' (v_datum w) -> gt_expr ss' eg' (v_gt w) -> pd_expr ss' ep' (v_pd w) ->
    let i := seg_info e ed eg ep in let i' := seg_info e' ed' eg' ep' in
    si_labels i' = si_labels i /\ si_datums i' = n * si_datums i /\ si_pixels i' = (Z.of_nat n * si_pixels i)%Z /\
    si_gt_pixels i' = (Z.of_nat n * si_gt_pixels i)%Z /\ si_pd_pixels i' = (Z.of_nat n * si_pd_pixels i)%Z.
  Proof.
    intros Hc Hk Hk' O O' D1 G1 P1 D2 G2 P2 i i'.
    destruct (info_correct ss v w e ed eg ep O Hc Hk D1 G1 P1) as (L1 & A1 & T1 & X1 & Y1).
    destruct (info_correct ss' v w e' ed' eg' ep' O' (clean_copies Hc) Hk' D2 G2 P2) as (L2 & A2 & T2 & X2 & Y2).
    assert (F := copies_filter (fun s => v_datum v s && v_datum w s) n _ _ HC). unfold i, i'.
    split. { rewrite L1, L2. apply Permutation_length, Permutation_sym, labels_copies. }
    split. { rewrite A1, A2. apply (copies_length n _ _ F). }
    split. { rewrite T1, T2. apply total_copies. }
    split; [rewrite X1, X2|rewrite Y1, Y2]; rewrite <- Nat2Z.inj_mul; f_equal; apply (copies_sum n _ _ F).
  Qed.
End Seg.
