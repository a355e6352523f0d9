(* C142: segmentation scores equal to one. *)
From Verif Require Import Prelude Counting CacheModel CacheSpec ClsModel ClsSpec ClsLabelProofs FlowModel DetFlowModel SegModel SegSpec
  SegPixelProofs SegStoreProofs SegMetricProofs SegInfoProofs SegMore SegReorderSpec SegReorderProofs SegSwapSpec SegSwapProofs PerfectProofs SegPerfectSpec.
From Coq Require Import QArith String Lia.
Local Open Scope nat_scope.
Local Open Scope list_scope.

Definition all_pixels (ss : list segmentation) : list (segmentation * nat) := List.concat (map (fun s => map (pair s) (pixels s)) ss).
Lemma npix_flat ss P : npix ss P = countb (fun x => P (fst x) (snd x)) (all_pixels ss).
Proof.
  unfold npix, all_pixels. rewrite countb_concat, map_map. f_equal. apply map_ext. intros s. rewrite countb_map. reflexivity.
Qed.
Lemma all_pixels_In ss s p : In (s, p) (all_pixels ss) <-> In s ss /\ In p (pixels s).
Proof.
  unfold all_pixels. rewrite in_concat. split.
  - intros (r & Hr & Hx). apply in_map_iff in Hr. destruct Hr as (s0 & <- & Hs). apply in_map_iff in Hx. destruct Hx as (p0 & E & Hp). injection E as -> ->. auto.
  - intros [Hs Hp]. exists (map (pair s) (pixels s)). split; [apply in_map_iff; eauto|apply in_map, Hp].
Qed.
Lemma fraction_one a b : (fraction a b == 1)%Q <-> 0 < b /\ a = b.
Proof.
  unfold fraction. destruct b as [|b]; [split; [intros H; discriminate H|lia]|]. rewrite ratio_one by lia. split; [auto with arith|]. intros [_ H]. exact H.
Qed.

Section View.
  Variables (ss : list segmentation) (v : view).
  Notation vpixel := (vpixel ss v).
  Lemma kept_pixels s p : In (s, p) (all_pixels (filter (v_datum v) ss)) <-> vpixel s p.
  Proof. rewrite all_pixels_In, filter_In. unfold SegPerfectSpec.vpixel. tauto. Qed.
  Lemma vcount_pos P : 0 < vcount ss v P <-> exists s p, vpixel s p /\ P (vgt v s p) (vpd v s p) = true.
  Proof.
    unfold vcount. rewrite npix_flat, countb_pos. split.
    - intros ([s p] & H & E). exists s, p. split; [apply kept_pixels, H|exact E].
    - intros (s & p & H & E). exists (s, p). split; [apply kept_pixels, H|exact E].
  Qed.
  Lemma vcount_all P R : (forall g p, P g p = true -> R g p = true) ->
    (vcount ss v P = vcount ss v R <-> forall s p, vpixel s p -> R (vgt v s p) (vpd v s p) = true -> P (vgt v s p) (vpd v s p) = true).
  Proof.
    intros H. unfold vcount. rewrite !npix_flat. rewrite countb_all by (intros [s p] _; apply H). split.
    - intros X s p Hp. apply (X (s, p)). apply kept_pixels, Hp.
    - intros X [s p] Hp. apply X. apply kept_pixels, Hp.
  Qed.
  Lemma vcount_le P R : (forall g p, P g p = true -> R g p = true) -> vcount ss v P <= vcount ss v R.
  Proof. intros H. unfold vcount. rewrite !npix_flat. apply countb_mono. intros [s p] _. apply H. Qed.
  Lemma is_label_iff o l : is_label o l = true <-> o = Some l.
  Proof. destruct o as [x|]; cbn; [rewrite String.eqb_eq; split; congruence|split; discriminate]. Qed.
  Lemma same_iff a b : same a b = true <-> a = b.
  Proof. destruct a, b; cbn; try rewrite String.eqb_eq; split; congruence. Qed.

  Lemma accuracy_one : (spec_accuracy ss v == 1)%Q <-> (exists s p, vpixel s p) /\ forall s p, vpixel s p -> vgt v s p = vpd v s p.
  Proof.
    unfold spec_accuracy. rewrite fraction_one, vcount_pos, (vcount_all same (fun _ _ => true)) by reflexivity. split.
    - intros [(s & p & H & _) A]. split; [eauto|]. intros s' p' H'. apply same_iff, A; auto.
    - intros [(s & p & H) A]. split; [eauto|]. intros s' p' H' _. apply same_iff, A, H'.
  Qed.
  Lemma precision_one l : (spec_precision ss v l == 1)%Q <-> (exists s p, vpixel s p /\ vpd v s p = Some l) /\ forall s p, vpixel s p -> vpd v s p = Some l -> vgt v s p = Some l.
  Proof.
    unfold spec_precision. rewrite fraction_one, vcount_pos, (vcount_all _ (fun _ p => is_label p l)) by (intros g p H; apply andb_true_iff in H; apply H). split.
    - intros [(s & p & H & E) A]. split; [exists s, p; split; [exact H|apply is_label_iff, E]|]. intros s' p' H' E'. apply is_label_iff in E'.
      specialize (A s' p' H' E'). apply andb_true_iff in A. apply is_label_iff, A.
    - intros [(s & p & H & E) A]. split; [exists s, p; split; [exact H|apply is_label_iff, E]|]. intros s' p' H' E'. apply andb_true_iff. split; [|exact E'].
      apply is_label_iff, A; [exact H'|apply is_label_iff, E'].
  Qed.
  Lemma recall_one l : (spec_recall ss v l == 1)%Q <-> (exists s p, vpixel s p /\ vgt v s p = Some l) /\ forall s p, vpixel s p -> vgt v s p = Some l -> vpd v s p = Some l.
  Proof.
    unfold spec_recall. rewrite fraction_one, vcount_pos, (vcount_all _ (fun g _ => is_label g l)) by (intros g p H; apply andb_true_iff in H; apply H). split.
    - intros [(s & p & H & E) A]. split; [exists s, p; split; [exact H|apply is_label_iff, E]|]. intros s' p' H' E'. apply is_label_iff in E'.
      specialize (A s' p' H' E'). apply andb_true_iff in A. apply is_label_iff, A.
    - intros [(s & p & H & E) A]. split; [exists s, p; split; [exact H|apply is_label_iff, E]|]. intros s' p' H' E'. apply andb_true_iff. split; [exact E'|].
      apply is_label_iff, A; [exact H'|apply is_label_iff, E'].
  Qed.
  Notation alike := (alike ss v).
  Lemma iou_one l : (spec_iou ss v l l == 1)%Q <-> alike l.
  Proof.
    unfold spec_iou, SegPerfectSpec.alike. rewrite fraction_one, vcount_pos, (vcount_all _ (fun g p => is_label g l || is_label p l)) by (intros g p H; apply andb_true_iff in H; destruct H as [-> _]; reflexivity). split.
    - intros [(s & p & H & E) A]. split.
      + exists s, p. split; [exact H|]. specialize (A s p H E). apply andb_true_iff in A. apply is_label_iff, A.
      + intros s' p' H'. split; intros E'; apply is_label_iff in E'; specialize (A s' p' H'); rewrite E', ?orb_true_r in A; cbn [orb] in A; specialize (A eq_refl); apply andb_true_iff in A; apply is_label_iff, A.
    - intros [(s & p & H & E) A]. split; [exists s, p; split; [exact H|]; apply is_label_iff in E; rewrite E; reflexivity|].
      intros s' p' H' E'. apply orb_true_iff in E'. rewrite !is_label_iff in E'. apply andb_true_iff. rewrite !is_label_iff. specialize (A s' p' H'). tauto.
  Qed.
  Lemma f1_one l : (spec_f1 ss v l == 1)%Q <-> alike l.
  Proof.
    rewrite <- iou_one. unfold spec_f1.
    assert (B1 : vcount ss v (fun g p => is_label g l && is_label p l) <= vcount ss v (fun g _ => is_label g l)) by (apply vcount_le; intros g p H; apply andb_true_iff in H; apply H).
    assert (B2 : vcount ss v (fun g p => is_label g l && is_label p l) <= vcount ss v (fun _ p => is_label p l)) by (apply vcount_le; intros g p H; apply andb_true_iff in H; apply H).
    assert (U : vcount ss v (fun g p => is_label g l || is_label p l) + vcount ss v (fun g p => is_label g l && is_label p l) = vcount ss v (fun g _ => is_label g l) + vcount ss v (fun _ p => is_label p l)).
    { unfold vcount. rewrite !npix_flat. induction (all_pixels (filter (v_datum v) ss)) as [|[s p] t IH]; [reflexivity|]. unfold countb in *. cbn [filter fst snd].
      destruct (is_label (vgt v s p) l), (is_label (vpd v s p) l); cbn [orb andb List.length]; lia. }
    unfold spec_iou. rewrite !fraction_one. lia.
  Qed.

  Theorem scores_one L r : report_ok ss v L r ->
    ((sr_accuracy r == 1)%Q <-> (exists s p, vpixel s p) /\ forall s p, vpixel s p -> vgt v s p = vpd v s p) /\
    (forall l q, In (Some l, q) (sr_precision r) -> (q == 1)%Q <-> (exists s p, vpixel s p /\ vpd v s p = Some l) /\ forall s p, vpixel s p -> vpd v s p = Some l -> vgt v s p = Some l) /\
    (forall l q, In (Some l, q) (sr_recall r) -> (q == 1)%Q <-> (exists s p, vpixel s p /\ vgt v s p = Some l) /\ forall s p, vpixel s p -> vgt v s p = Some l -> vpd v s p = Some l) /\
    (forall l q, In (Some l, q) (sr_f1 r) -> (q == 1)%Q <-> alike l) /\
    (forall l q, In (Some l, q) (sr_iou r) -> (q == 1)%Q <-> alike l).
  Proof.
    intros (A & _ & _ & _ & _ & P & R & F & I). split; [rewrite A; apply accuracy_one|].
    split; [|split; [|split]]; intros l q H.
    - destruct (lists_In _ _ _ _ _ P H) as (l' & E & _ & Q). injection E as <-. rewrite Q. apply precision_one.
    - destruct (lists_In _ _ _ _ _ R H) as (l' & E & _ & Q). injection E as <-. rewrite Q. apply recall_one.
    - destruct (lists_In _ _ _ _ _ F H) as (l' & E & _ & Q). injection E as <-. rewrite Q. apply f1_one.
    - destruct (lists_In _ _ _ _ _ I H) as (l' & E & _ & Q). injection E as <-. rewrite Q. apply iou_one.
  Qed.
End View.

Theorem seg_perfect ss v e ed sel r : Forall clean ss -> countable ss -> obtained ss v e -> datum_expr ss ed sel -> seg_compute e ed = Some r ->
  report_ok ss (with_datums v sel) (seg_labels ss) r.
Proof. intros Hc Hk Ho Hd Hr. destruct (compute_correct ss v e ed sel Ho Hc Hk Hd) as (r' & E & R). congruence. Qed.
