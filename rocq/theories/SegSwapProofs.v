(* C141: segmentation reports when ground truths and predictions are exchanged. *)
From Verif Require Import Prelude Counting CacheModel CacheSpec ClsModel ClsSpec ClsLabelProofs FlowModel DetFlowModel SegModel SegSpec
  SegPixelProofs SegStoreProofs SegMetricProofs SegInfoProofs SegMore SegReorderSpec SegReorderProofs SegSwapSpec.
From Coq Require Import QArith String Lia.
Local Open Scope nat_scope.
Local Open Scope list_scope.

Lemma filter_exchange (p q : segmentation -> bool) ss : (forall s, In s ss -> p (exchange s) = q s) ->
  filter p (map exchange ss) = map exchange (filter q ss).
Proof.
  induction ss as [|s t IH]; intros H; [reflexivity|]. cbn [map filter]. rewrite (H s) by (left; reflexivity).
  rewrite IH by (intros x Hx; apply H; right; exact Hx). destruct (q s); reflexivity.
Qed.
Lemma npix_exchange l P P' : (forall s p, In s l -> P' (exchange s) p = P s p) -> npix (map exchange l) P' = npix l P.
Proof.
  intros H. unfold npix. rewrite map_map. f_equal. apply map_ext_in. intros s Hs. unfold pixels. cbn [exchange sg_size].
  unfold countb. f_equal. apply filter_ext. intros p. apply H, Hs.
Qed.
Lemma total_exchange l : total_pixels (map exchange l) = total_pixels l.
Proof. unfold total_pixels. rewrite map_map. reflexivity. Qed.
Lemma labels_exchange ss : Permutation (seg_labels ss) (seg_labels (map exchange ss)).
Proof.
  apply NoDup_Permutation; [apply seg_labels_NoDup|apply seg_labels_NoDup|]. intros x. rewrite !seg_labels_In. split.
  - intros (s & Hs & Hx). exists (exchange s). split; [apply in_map, Hs|]. unfold seg_datum_labels in *. cbn [exchange sg_gts sg_pds].
    apply in_app_iff in Hx. apply in_app_iff. tauto.
  - intros (s' & Hs & Hx). apply in_map_iff in Hs. destruct Hs as (s & <- & Hs). exists s. split; [exact Hs|]. unfold seg_datum_labels in *.
    cbn [exchange sg_gts sg_pds] in Hx. apply in_app_iff in Hx. apply in_app_iff. tauto.
Qed.
Lemma clean_exchange ss : Forall clean ss -> Forall clean (map exchange ss).
Proof.
  rewrite !Forall_forall. intros H s' Hs. apply in_map_iff in Hs. destruct Hs as (s & <- & Hs).
  destruct (H s Hs) as ((Z0 & S) & D1 & D2 & N1 & N2). repeat split; cbn [exchange sg_gts sg_pds sg_size]; try assumption. intros b Hb. apply S. tauto.
Qed.
Lemma same_sym a b : same a b = same b a.
Proof. destruct a, b; cbn; try reflexivity. apply String.eqb_sym. Qed.

Section View.
  Variables (ss : list segmentation) (v v' : view).
  Hypothesis Hv : exchanged_view ss v v'.
  Lemma kept_same f g o : (forall l, f l = g l) -> kept f o = kept g o.
  Proof. intros H. destruct o as [l|]; [cbn; rewrite H|]; reflexivity. Qed.
  Lemma vgt_exchange s p : In s ss -> vgt v' (exchange s) p = vpd v s p.
  Proof. intros Hs. destruct (Hv s Hs) as [_ H]. unfold vgt, vpd. apply (kept_same (v_gt v' (exchange s))). intros l. apply H. Qed.
  Lemma vpd_exchange s p : In s ss -> vpd v' (exchange s) p = vgt v s p.
  Proof. intros Hs. destruct (Hv s Hs) as [_ H]. unfold vgt, vpd. apply (kept_same (v_pd v' (exchange s))). intros l. apply H. Qed.
  Lemma vcount_exchange P P' : (forall g p, P' g p = P p g) -> vcount (map exchange ss) v' P' = vcount ss v P.
  Proof.
    intros H. unfold vcount. rewrite (filter_exchange (v_datum v') (v_datum v)) by (intros s Hs; apply Hv, Hs).
    apply npix_exchange. intros s p Hs. apply filter_In in Hs. rewrite vgt_exchange, vpd_exchange by apply Hs. apply H.
  Qed.
  Lemma iou_exchange a b : spec_iou (map exchange ss) v' b a = spec_iou ss v a b.
  Proof. unfold spec_iou. f_equal; apply vcount_exchange; intros; [apply andb_comm|apply orb_comm]. Qed.
  Lemma both_exchange l : vcount (map exchange ss) v' (fun g p => is_label g l && is_label p l) = vcount ss v (fun g p => is_label g l && is_label p l).
  Proof. apply vcount_exchange. intros. apply andb_comm. Qed.
  Lemma gts_exchange l : vcount (map exchange ss) v' (fun g _ => is_label g l) = vcount ss v (fun _ p => is_label p l).
  Proof. apply vcount_exchange. reflexivity. Qed.
  Lemma pds_exchange l : vcount (map exchange ss) v' (fun _ p => is_label p l) = vcount ss v (fun g _ => is_label g l).
  Proof. apply vcount_exchange. reflexivity. Qed.

  Lemma lists_In L f out a q : lists_of L f out -> In (a, q) out -> exists l, a = Some l /\ In l L /\ (q == f l)%Q.
  Proof. induction 1 as [|l x L' out' [E Q] _ IH]; intros H; [destruct H|]. destruct H as [->|H]; [exists l; cbn in *; auto|]. destruct (IH H) as (m & A & B & C). exists m. cbn. auto. Qed.
  Lemma lists_has L f out l : lists_of L f out -> In l L -> exists q, In (Some l, q) out /\ (q == f l)%Q.
  Proof.
    induction 1 as [|l0 [a q] L' out' [E Q] _ IH]; intros H; [destruct H|]. cbn [fst snd] in E, Q. subst a. destruct H as [->|H]; [exists q; split; [left; reflexivity|exact Q]|].
    destruct (IH H) as (q' & A & B). exists q'. split; [right; exact A|exact B].
  Qed.
  Lemma F2_right {A B} (R : A -> B -> Prop) l m : Forall2 R l m -> forall y, In y m -> exists x, In x l /\ R x y.
  Proof. induction 1 as [|x y l m Hxy _ IH]; intros z Hz; [destruct Hz|]. destruct Hz as [->|Hz]; [exists x; cbn; auto|]. destruct (IH z Hz) as (x' & ? & ?). exists x'. cbn. auto. Qed.
  Lemma F2_left {A B} (R : A -> B -> Prop) l m : Forall2 R l m -> forall x, In x l -> exists y, In y m /\ R x y.
  Proof. induction 1 as [|x y l m Hxy _ IH]; intros z Hz; [destruct Hz|]. destruct Hz as [->|Hz]; [exists y; cbn; auto|]. destruct (IH z Hz) as (y' & ? & ?). exists y'. cbn. auto. Qed.
  Lemma rows_transposed L L' (f f' : string -> string -> Q) A B : Permutation L L' -> (forall a b, (f a b == f' b a)%Q) ->
    Forall2 (fun a x => fst x = Some a /\ lists_of L (f a) (snd x)) L A ->
    Forall2 (fun a x => fst x = Some a /\ lists_of L' (f' a) (snd x)) L' B -> transposed A B.
  Proof.
    intros HL Hf HA HB a b row q Hr Hq.
    assert (X : exists l, a = Some l /\ In l L /\ lists_of L (f l) row).
    { destruct (F2_right _ _ _ HA _ Hr) as (l & Il & E & Q). exists l. auto. }
    destruct X as (la & -> & Ia & Rr). destruct (lists_In _ _ _ _ _ Rr Hq) as (lb & -> & Ib & Eq).
    assert (Y : exists row', In (Some lb, row') B /\ lists_of L' (f' lb) row').
    { destruct (F2_left _ _ _ HB _ (Permutation_in _ HL Ib)) as ([k row'] & Ir & E & Q). cbn [fst snd] in E, Q. subst k. exists row'. auto. }
    destruct Y as (row' & Hr' & Rr'). destruct (lists_has _ _ _ la Rr' (Permutation_in _ HL Ia)) as (q' & Hq' & Eq').
    exists row', q'. split; [exact Hr'|]. split; [exact Hq'|]. rewrite Eq, Eq'. apply Hf.
  Qed.

  Lemma report_exchange r r' : report_ok ss v (seg_labels ss) r -> report_ok (map exchange ss) v' (seg_labels (map exchange ss)) r' -> report_exchanged r r'.
  Proof.
    intros (A1 & C1 & U1 & G1 & M1 & P1 & R1 & F1 & I1) (A2 & C2 & U2 & G2 & M2 & P2 & R2 & F2 & I2).
    assert (HL := labels_exchange ss).
    split. { rewrite A1, A2. unfold spec_accuracy. rewrite (vcount_exchange same same) by (intros; apply same_sym).
      rewrite (vcount_exchange (fun _ _ => true) (fun _ _ => true)) by reflexivity. reflexivity. }
    split.
    { destruct (sr_miou r) as [m1|], (sr_miou r') as [m2|]; cbn.
      - destruct M1 as [_ M1], M2 as [_ M2]. rewrite M1, M2. apply (qmean_perm _ _ _ _ HL). intros l. rewrite iou_exchange. reflexivity.
      - destruct M1 as [M1 _]. apply M1. rewrite M2 in HL. apply Permutation_sym, Permutation_nil in HL. exact HL.
      - destruct M2 as [M2 _]. apply M2. rewrite M1 in HL. apply Permutation_nil in HL. exact HL.
      - exact I. }
    split. { apply (rows_transposed _ _ _ _ _ _ HL) with (3 := C2) (2 := C1). intros a b. rewrite iou_exchange. reflexivity. }
    split. { apply (rows_transposed _ _ _ _ _ _ (Permutation_sym HL)) with (3 := C1) (2 := C2). intros a b. rewrite iou_exchange. reflexivity. }
    split. { apply (lists_same _ _ _ _ _ _ HL) with (3 := G2) (2 := U1). intros l. unfold spec_unmatched_pd, spec_unmatched_gt. rewrite gts_exchange.
      rewrite (vcount_exchange (fun g p => same g None && is_label p l)) by (intros; apply andb_comm). reflexivity. }
    split. { apply (lists_same _ _ _ _ _ _ HL) with (3 := U2) (2 := G1). intros l. unfold spec_unmatched_pd, spec_unmatched_gt. rewrite pds_exchange.
      rewrite (vcount_exchange (fun g p => is_label g l && same p None)) by (intros; apply andb_comm). reflexivity. }
    split. { apply (lists_same _ _ _ _ _ _ HL) with (3 := R2) (2 := P1). intros l. unfold spec_precision, spec_recall. rewrite both_exchange, gts_exchange. reflexivity. }
    split. { apply (lists_same _ _ _ _ _ _ HL) with (3 := P2) (2 := R1). intros l. unfold spec_precision, spec_recall. rewrite both_exchange, pds_exchange. reflexivity. }
    split. { apply (lists_same _ _ _ _ _ _ HL) with (3 := F2) (2 := F1). intros l. unfold spec_f1. rewrite both_exchange, gts_exchange, pds_exchange, Nat.add_comm. reflexivity. }
    apply (lists_same _ _ _ _ _ _ HL) with (3 := I2) (2 := I1). intros l. rewrite iou_exchange. reflexivity.
  Qed.
End View.

Theorem seg_exchange ss v v' : exchanged_view ss v v' -> Forall clean ss -> countable ss ->
  forall e e' ed ed' sel sel', obtained ss v e -> obtained (map exchange ss) v' e' ->
  datum_expr ss ed sel -> datum_expr (map exchange ss) ed' sel' -> (forall s, In s ss -> sel' (exchange s) = sel s) ->
  exists r r', seg_compute e ed = Some r /\ seg_compute e' ed' = Some r' /\ report_exchanged r r'.
Proof.
  intros Hv Hc Hk e e' ed ed' sel sel' O O' D D' Hs.
  destruct (compute_correct ss v e ed sel O Hc Hk D) as (r & E & R).
  assert (Hk' : countable (map exchange ss)) by (unfold countable; rewrite total_exchange; exact Hk).
  destruct (compute_correct (map exchange ss) v' e' ed' sel' O' (clean_exchange ss Hc) Hk' D') as (r' & E' & R').
  exists r, r'. split; [exact E|]. split; [exact E'|]. refine (report_exchange ss _ _ _ r r' R R').
  intros s H. destruct (Hv s H) as [X Y]. split; [cbn; rewrite X, (Hs s H); reflexivity|exact Y].
Qed.
Theorem seg_exchange_info ss v v' w w' : exchanged_view ss v v' -> exchanged_view ss w w' -> Forall clean ss -> countable ss ->
  forall e e' ed eg ep ed' eg' ep', obtained ss v e -> obtained (map exchange ss) v' e' ->
  datum_expr ss ed (v_datum w) -> gt_expr ss eg (v_gt w) -> pd_expr ss ep (v_pd w) ->
  datum_expr (map exchange ss) ed' (v_datum w') -> gt_expr (map exchange ss) eg' (v_gt w') -> pd_expr (map exchange ss) ep' (v_pd w') ->
  let i := seg_info e ed eg ep in let i' := seg_info e' ed' eg' ep' in
  si_labels i' = si_labels i /\ si_datums i' = si_datums i /\ si_pixels i' = si_pixels i /\
  si_gt_pixels i' = si_pd_pixels i /\ si_pd_pixels i' = si_gt_pixels i.
Proof.
  intros Hv Hw Hc Hk e e' ed eg ep ed' eg' ep' O O' D1 G1 P1 D2 G2 P2 i i'.
  assert (Hk' : countable (map exchange ss)) by (unfold countable; rewrite total_exchange; exact Hk).
  destruct (info_correct ss v w e ed eg ep O Hc Hk D1 G1 P1) as (L1 & A1 & T1 & X1 & Y1).
  destruct (info_correct _ v' w' e' ed' eg' ep' O' (clean_exchange ss Hc) Hk' D2 G2 P2) as (L2 & A2 & T2 & X2 & Y2).
  assert (F : filter (fun s => v_datum v' s && v_datum w' s) (map exchange ss) = map exchange (filter (fun s => v_datum v s && v_datum w s) ss)).
  { apply filter_exchange. intros s H. destruct (Hv s H) as [X _], (Hw s H) as [Y _]. rewrite X, Y. reflexivity. }
  unfold i, i'. rewrite F in *.
  assert (OL : forall f g o, (forall l, f l = g l) -> on_label f o = on_label g o) by (intros f g [l|] H; [apply H|reflexivity]).
  split. { rewrite L1, L2. apply Permutation_length, Permutation_sym, labels_exchange. }
  split. { rewrite A1, A2. apply map_length. }
  split. { rewrite T1, T2. apply total_exchange. }
  split; [rewrite X2, Y1|rewrite Y2, X1]; f_equal; apply npix_exchange; intros s p H; apply filter_In in H; destruct H as [H _]; destruct (Hw s H) as [_ W].
  - rewrite (vgt_exchange ss v v' Hv) by exact H. apply OL. intros l. apply W.
  - rewrite (vpd_exchange ss v v' Hv) by exact H. apply OL. intros l. apply W.
Qed.
