(* The metrics computed from the confusion matrix are the set-theoretic ones. *)
From Verif Require Import Prelude Counting CacheModel CacheSpec ClsModel ClsSpec ClsLabelProofs FlowModel DetFlowModel SegModel SegSpec SegPixelProofs SegProofs SegStoreProofs SegLabelProofs SegFlowProofs.
From Coq Require Import QArith Qfield Lqa String.
Local Open Scope nat_scope.
Local Open Scope list_scope.

(* ------------------------------------------------------------------ sums of pixel counts *)
Lemma npix_split ss (G : segmentation -> nat -> bool) (H : nat -> segmentation -> nat -> bool) n :
  (forall s p, In s ss -> countb (fun j => H j s p) (seq 0 n) = 1) ->
  list_sum_nat (map (fun j => npix ss (fun s p => G s p && H j s p)) (seq 0 n)) = npix ss G.
Proof.
  intros Hone. unfold npix. rewrite list_sum_swap. apply list_sum_nat_ext. intros s Hs.
  rewrite list_sum_map_countb, <- list_sum_nat_if. apply list_sum_nat_ext. intros p _.
  destruct (G s p) eqn:E; cbn [andb]; [apply Hone; exact Hs|]. apply countb_false. reflexivity.
Qed.
Lemma npix_or ss P Q : npix ss (fun s p => P s p || Q s p) + npix ss (fun s p => P s p && Q s p) = npix ss P + npix ss Q.
Proof.
  unfold npix. rewrite <- !list_sum_nat_add. apply list_sum_nat_ext. intros s _. rewrite <- !list_sum_nat_if, <- !list_sum_nat_add.
  apply list_sum_nat_ext. intros p _. destruct (P s p), (Q s p); reflexivity.
Qed.
Lemma npix_mono ss P Q : (forall s p, P s p = true -> Q s p = true) -> npix ss P <= npix ss Q.
Proof.
  intros H. unfold npix. induction ss as [|s ss IH]; [reflexivity|]. cbn [map list_sum_nat fold_right].
  unfold list_sum_nat in IH. pose proof (countb_mono (P s) (Q s) (pixels s) (fun p _ => H s p)). lia.
Qed.

Section View.
  Variables (ss : list segmentation) (v : view).
  Let L := seg_labels ss.
  Let n := List.length L.

  Lemma label_at_In bs p l : label_at bs p = Some l -> In l (map bm_label bs).
  Proof.
    unfold label_at. destruct (find _ bs) as [b|] eqn:E; [|discriminate]. cbn. intros H. injection H as <-.
    apply in_map. apply List.find_some in E. apply E.
  Qed.
  Lemma labels_in s l : In s ss -> In l (seg_datum_labels s) -> In l L.
  Proof.
    intros Hs Hl. unfold L, seg_labels. apply first_appearance_In. right. apply in_concat. exists (seg_datum_labels s).
    split; [apply in_map; exact Hs|exact Hl].
  Qed.
  Lemma kept_some f o l : kept f o = Some l -> o = Some l.
  Proof. destruct o as [x|]; cbn; [|discriminate]. destruct (f x); congruence. Qed.
  Lemma vgt_in s p l : In s ss -> vgt v s p = Some l -> In l L.
  Proof.
    intros Hs H. apply kept_some in H. apply label_at_In in H. apply (labels_in s); [exact Hs|].
    apply in_app_iff. left. exact H.
  Qed.
  Lemma vpd_in s p l : In s ss -> vpd v s p = Some l -> In l L.
  Proof.
    intros Hs H. apply kept_some in H. apply label_at_In in H. apply (labels_in s); [exact Hs|].
    apply in_app_iff. right. exact H.
  Qed.

  Lemma vcount_ext P Q : (forall g p, P g p = Q g p) -> vcount ss v P = vcount ss v Q.
  Proof. intros H. apply npix_ext. intros. apply H. Qed.
  Lemma vcount_pd_sum P :
    list_sum_nat (map (fun j => vcount ss v (fun g p => P g p && same p (labn L j))) (seq 0 (S n))) = vcount ss v P.
  Proof.
    unfold vcount. apply (npix_split _ (fun s p => P (vgt v s p) (vpd v s p)) (fun j s p => same (vpd v s p) (labn L j))).
    intros s p Hs. apply filter_In in Hs. destruct Hs as [Hs _]. apply labn_unique; [apply seg_labels_NoDup|].
    intros l Hl. eapply vpd_in; eassumption.
  Qed.
  Lemma vcount_gt_sum P :
    list_sum_nat (map (fun i => vcount ss v (fun g p => P g p && same g (labn L i))) (seq 0 (S n))) = vcount ss v P.
  Proof.
    unfold vcount. apply (npix_split _ (fun s p => P (vgt v s p) (vpd v s p)) (fun j s p => same (vgt v s p) (labn L j))).
    intros s p Hs. apply filter_In in Hs. destruct Hs as [Hs _]. apply labn_unique; [apply seg_labels_NoDup|].
    intros l Hl. eapply vgt_in; eassumption.
  Qed.
  Lemma vcount_mono P Q : (forall g p, P g p = true -> Q g p = true) -> vcount ss v P <= vcount ss v Q.
  Proof. intros H. apply npix_mono. intros s p. apply H. Qed.
  Lemma vcount_or P Q : vcount ss v (fun g p => P g p || Q g p) + vcount ss v (fun g p => P g p && Q g p) = vcount ss v P + vcount ss v Q.
  Proof. apply npix_or. Qed.
End View.

Lemma same_trans a b c : same a c && same b c = same a b && same a c.
Proof.
  destruct a as [x|], b as [y|], c as [z|]; cbn; try reflexivity; try (destruct (String.eqb x z); reflexivity).
  destruct (String.eqb_spec x z), (String.eqb_spec y z), (String.eqb_spec x y); try reflexivity; congruence.
  all: rewrite ?andb_false_r; reflexivity.
Qed.

(* ------------------------------------------------------------------ the metrics *)
Lemma qdiv_fraction a b : qdiv (Z.of_nat a) (Z.of_nat b) = fraction a b.
Proof. unfold qdiv, fraction. destruct b as [|b]; [reflexivity|]. destruct (0 <? Z.of_nat (S b))%Z eqn:E; [reflexivity|lia]. Qed.
Lemma fraction_range a b : a <= b -> (0 <= fraction a b <= 1)%Q.
Proof.
  intros H. unfold fraction. destruct b as [|b]; [split; discriminate|].
  assert (P : (0 < inject_Z (Z.of_nat (S b)))%Q) by (unfold Qlt, inject_Z; cbn [Qnum Qden]; lia).
  split.
  - apply Qle_shift_div_l; [exact P|]. unfold Qle, inject_Z, Qmult; cbn [Qnum Qden]; lia.
  - apply Qle_shift_div_r; [exact P|]. unfold Qle, inject_Z, Qmult; cbn [Qnum Qden]; lia.
Qed.

Section Matrix.
  Variables (ss : list segmentation) (v : view) (m : matrix).
  Let L := seg_labels ss.
  Let n := List.length L.
  Definition cell (i j : nat) : nat := vcount ss v (fun g p => same g (labn L i) && same p (labn L j)).
  Hypothesis Hm : forall i j, i <= n -> j <= n -> m i j = Z.of_nat (cell i j).
  Hypothesis Hsmall : (Z.of_nat (vcount ss v (fun _ _ => true)) < 2 ^ 64)%Z.

  Lemma small_count P : u64 (Z.of_nat (vcount ss v P)) = Z.of_nat (vcount ss v P).
  Proof.
    apply u64_small. pose proof (vcount_mono ss v P (fun _ _ => true) (fun _ _ _ => eq_refl)). lia.
  Qed.
  Lemma row_sum i : i <= n -> zsum (map (m i) (seq 0 (S n))) = Z.of_nat (vcount ss v (fun g _ => same g (labn L i))).
  Proof.
    intros Hi. rewrite (zsum_ext _ (fun j => Z.of_nat (cell i j))).
    - rewrite zsum_nat. f_equal. apply (vcount_pd_sum ss v (fun g _ => same g (labn L i))).
    - intros j Hj. apply in_seq in Hj. apply Hm; lia.
  Qed.
  Lemma mrow_count i : i <= n -> mrow n m i = Z.of_nat (vcount ss v (fun g _ => same g (labn L i))).
  Proof. intros Hi. unfold mrow. rewrite row_sum by exact Hi. apply small_count. Qed.
  Lemma mcol_count j : j <= n -> mcol n m j = Z.of_nat (vcount ss v (fun _ p => same p (labn L j))).
  Proof.
    intros Hj. unfold mcol. rewrite (zsum_ext _ (fun i => Z.of_nat (cell i j))).
    - rewrite zsum_nat. rewrite (list_sum_nat_ext _ (fun i => vcount ss v (fun g p => same p (labn L j) && same g (labn L i)))).
      + assert (E9 := vcount_gt_sum ss v (fun _ p => same p (labn L j))); fold L in E9; fold n in E9; cbn [andb] in E9; rewrite E9; clear E9. apply small_count.
      + intros i _. apply vcount_ext. intros g p. apply andb_comm.
    - intros i Hi. apply in_seq in Hi. apply Hm; lia.
  Qed.
  Lemma total_count : u64 (zsum (map (fun i => zsum (map (m i) (seq 0 (S n)))) (seq 0 (S n)))) = Z.of_nat (vcount ss v (fun _ _ => true)).
  Proof.
    rewrite (zsum_ext _ (fun i => Z.of_nat (vcount ss v (fun g _ => same g (labn L i))))).
    - rewrite zsum_nat. assert (E9 := vcount_gt_sum ss v (fun _ _ => true)); fold L in E9; fold n in E9; cbn [andb] in E9; rewrite E9; clear E9. apply small_count.
    - intros i Hi. apply in_seq in Hi. apply row_sum. lia.
  Qed.
  Lemma diag_count : (zsum (map (fun i => m (S i) (S i)) (seq 0 n)) + m 0 0)%Z = Z.of_nat (vcount ss v same).
  Proof.
    assert (E : zsum (map (fun i => m i i) (seq 0 (S n))) = Z.of_nat (vcount ss v same)).
    { rewrite (zsum_ext _ (fun i => Z.of_nat (cell i i))) by (intros i Hi; apply in_seq in Hi; apply Hm; lia).
      rewrite zsum_nat. rewrite (list_sum_nat_ext _ (fun i => vcount ss v (fun g p => same g p && same g (labn L i)))).
      - assert (E9 := vcount_gt_sum ss v same); fold L in E9; fold n in E9; cbn [andb] in E9; rewrite E9; clear E9. reflexivity.
      - intros i _. apply vcount_ext. intros g p. apply same_trans. }
    rewrite zsum_S in E. lia.
  Qed.

  Lemma m_accuracy_ok : m_accuracy n m = spec_accuracy ss v.
  Proof.
    unfold m_accuracy. rewrite total_count.
    assert (X : u64 (u64 (zsum (map (fun i => m (S i) (S i)) (seq 0 n))) + m 0 0) = Z.of_nat (vcount ss v same)).
    { unfold u64 at 1 2. rewrite Zplus_mod_idemp_l. rewrite diag_count. apply small_count. }
    rewrite X. apply qdiv_fraction.
  Qed.

  Lemma labn_S i l : nth_error L i = Some l -> labn L (S i) = Some l.
  Proof. intros H. exact H. Qed.
  Lemma lt_n i l : nth_error L i = Some l -> S i <= n.
  Proof. intros H. assert (i < n) by (apply nth_error_Some; congruence). lia. Qed.

  Lemma m_iou_ok i j a b : nth_error L i = Some a -> nth_error L j = Some b -> m_iou n m i j = spec_iou ss v a b.
  Proof.
    intros Hi Hj. pose proof (lt_n i a Hi) as Bi. pose proof (lt_n j b Hj) as Bj. unfold m_iou. cbv zeta.
    rewrite (mrow_count _ Bi), (mcol_count _ Bj), (Hm _ _ Bi Bj). unfold cell. rewrite (labn_S i a Hi), (labn_S j b Hj).
    unfold spec_iou. rewrite <- qdiv_fraction.
    assert (E1 : vcount ss v (fun g p => same g (Some a) && same p (Some b)) = vcount ss v (fun g p => is_label g a && is_label p b))
      by (apply vcount_ext; intros; rewrite !is_label_same; reflexivity).
    rewrite E1. f_equal.
    pose proof (vcount_or ss v (fun g _ => is_label g a) (fun _ p => is_label p b)) as E.
    rewrite (vcount_ext ss v (fun g _ => same g (Some a)) (fun g _ => is_label g a)) by (intros; rewrite is_label_same; reflexivity).
    rewrite (vcount_ext ss v (fun _ p => same p (Some b)) (fun _ p => is_label p b)) by (intros; rewrite is_label_same; reflexivity).
    cbv beta in E. etransitivity; [|apply small_count]. f_equal. lia.
  Qed.
  Lemma m_upd_ok j l : nth_error L j = Some l -> m_unmatched_pd n m j = spec_unmatched_pd ss v l.
  Proof.
    intros Hj. pose proof (lt_n j l Hj) as Bj. unfold m_unmatched_pd. rewrite (mcol_count _ Bj), (Hm 0 (S j)) by lia.
    unfold cell. rewrite (labn_S j l Hj), qdiv_fraction. unfold spec_unmatched_pd. f_equal; apply vcount_ext; intros; rewrite is_label_same; reflexivity.
  Qed.
  Lemma m_ugt_ok j l : nth_error L j = Some l -> m_unmatched_gt n m j = spec_unmatched_gt ss v l.
  Proof.
    intros Hj. pose proof (lt_n j l Hj) as Bj. unfold m_unmatched_gt. rewrite (mrow_count _ Bj), (Hm (S j) 0) by lia.
    unfold cell. rewrite (labn_S j l Hj), qdiv_fraction. unfold spec_unmatched_gt. f_equal; apply vcount_ext; intros; rewrite is_label_same; reflexivity.
  Qed.
  Lemma m_precision_ok j l : nth_error L j = Some l -> m_precision n m j = spec_precision ss v l.
  Proof.
    intros Hj. pose proof (lt_n j l Hj) as Bj. unfold m_precision. rewrite (mcol_count _ Bj), (Hm (S j) (S j)) by lia.
    unfold cell. rewrite (labn_S j l Hj), qdiv_fraction. unfold spec_precision. f_equal; apply vcount_ext; intros; rewrite ?is_label_same; reflexivity.
  Qed.
  Lemma m_recall_ok j l : nth_error L j = Some l -> m_recall n m j = spec_recall ss v l.
  Proof.
    intros Hj. pose proof (lt_n j l Hj) as Bj. unfold m_recall. rewrite (mrow_count _ Bj), (Hm (S j) (S j)) by lia.
    unfold cell. rewrite (labn_S j l Hj), qdiv_fraction. unfold spec_recall. f_equal; apply vcount_ext; intros; rewrite ?is_label_same; reflexivity.
  Qed.
  Lemma m_f1_ok j l : nth_error L j = Some l -> (m_f1 n m j == spec_f1 ss v l)%Q.
  Proof.
    intros Hj. unfold m_f1. cbv zeta. rewrite (m_precision_ok j l Hj), (m_recall_ok j l Hj).
    unfold spec_precision, spec_recall, spec_f1.
    assert (A1 : vcount ss v (fun g p => is_label g l && is_label p l) <= vcount ss v (fun g _ => is_label g l)).
    { apply vcount_mono. intros g p H. apply andb_true_iff in H. tauto. }
    assert (A2 : vcount ss v (fun g p => is_label g l && is_label p l) <= vcount ss v (fun _ p => is_label p l)).
    { apply vcount_mono. intros g p H. apply andb_true_iff in H. tauto. }
    revert A1 A2. generalize (vcount ss v (fun g p => is_label g l && is_label p l)) as t.
    generalize (vcount ss v (fun g _ => is_label g l)) as g. generalize (vcount ss v (fun _ p => is_label p l)) as p. clear.
    intros p g t H1 H2. destruct t as [|t].
    - assert (Z0 : forall b, (fraction 0 b == 0)%Q).
      { intros [|b]; [reflexivity|]. unfold fraction. field. unfold Qeq; cbn; lia. }
      destruct (Qle_bool (fraction 0 p + fraction 0 g) 0) eqn:E.
      + rewrite (Z0 (g + p)). reflexivity.
      + exfalso. apply not_true_iff_false in E. apply E. apply Qle_bool_iff. rewrite !Z0. discriminate.
    - destruct p as [|p]; [lia|]. destruct g as [|g]; [lia|].
      set (a := inject_Z (Z.of_nat (S t))). set (P := inject_Z (Z.of_nat (S p))). set (G := inject_Z (Z.of_nat (S g))).
      assert (Ha : (0 < a)%Q) by (unfold a, Qlt, inject_Z; cbn [Qnum Qden]; lia).
      assert (HP : (0 < P)%Q) by (unfold P, Qlt, inject_Z; cbn [Qnum Qden]; lia).
      assert (HG : (0 < G)%Q) by (unfold G, Qlt, inject_Z; cbn [Qnum Qden]; lia).
      assert (E1 : fraction (S t) (S p) = (a / P)%Q) by reflexivity. assert (E2 : fraction (S t) (S g) = (a / G)%Q) by reflexivity.
      assert (E3 : (fraction (2 * S t) (S g + S p) == (2 * a) / (G + P))%Q).
      { assert (X : fraction (2 * S t) (S g + S p) = (inject_Z (Z.of_nat (2 * S t)) / inject_Z (Z.of_nat (S g + S p)))%Q) by reflexivity.
        rewrite X, Nat2Z.inj_mul, Nat2Z.inj_add, inject_Z_mult, inject_Z_plus. reflexivity. }
      rewrite E1, E2, E3. assert (HPi : (0 < a / P)%Q) by (apply Qlt_shift_div_l; [exact HP|lra]).
      assert (HGi : (0 < a / G)%Q) by (apply Qlt_shift_div_l; [exact HG|lra]).
      destruct (Qle_bool (a / P + a / G) 0) eqn:E; [exfalso; apply Qle_bool_iff in E; lra|].
      assert (X1 : (0 < a * G)%Q) by (apply Qmult_lt_0_compat; assumption). assert (X2 : (0 < a * P)%Q) by (apply Qmult_lt_0_compat; assumption).
      field. repeat split; intros C; lra.
  Qed.
End Matrix.

(* ------------------------------------------------------------------ reports *)
Lemma all_some_map {A B} (f : A -> option B) (g : A -> B) l : (forall x, In x l -> f x = Some (g x)) -> all_some (map f l) = Some (map g l).
Proof.
  induction l as [|x l IH]; intros H; [reflexivity|]. cbn. rewrite (H x) by (left; reflexivity). cbn.
  rewrite IH; [reflexivity|]. intros y Hy. apply H. right. exact Hy.
Qed.
Definition lab (L : list string) (i : nat) : string := nth i L EmptyString.
Lemma lab_nth L i : i < List.length L -> nth_error L i = Some (lab L i).
Proof. intros H. unfold lab. apply nth_error_nth'. exact H. Qed.
Lemma list_labs L : L = map (lab L) (seq 0 (List.length L)).
Proof.
  induction L as [|x L IH]; [reflexivity|]. cbn [List.length seq map]. unfold lab at 1. cbn [nth]. f_equal.
  rewrite <- seq_shift, map_map. exact IH.
Qed.
Lemma enum_map L : enum L = map (fun i => (Z.of_nat i, Some (lab L i))) (seq 0 (List.length L)).
Proof.
  unfold enum. rewrite (list_labs L) at 2. rewrite map_map.
  induction (seq 0 (List.length L)) as [|i l IH]; [reflexivity|]. cbn. f_equal. exact IH.
Qed.
Lemma enum_length L : List.length (enum L) = List.length L.
Proof. rewrite enum_map, map_length, seq_length. reflexivity. Qed.
Lemma enum_get L i : i < List.length L -> ldict_get (enum L) (Z.of_nat i) = Some (Some (lab L i)).
Proof.
  intros H. rewrite enum_map.
  assert (G : forall n k, k <= i < k + n -> ldict_get (map (fun i => (Z.of_nat i, Some (lab L i))) (seq k n)) (Z.of_nat i) = Some (Some (lab L i))).
  { induction n as [|n IH]; intros k Hk; [lia|]. cbn [seq map ldict_get]. destruct (Z.of_nat i =? Z.of_nat k)%Z eqn:E.
    - assert (k = i) by lia. subst. reflexivity.
    - apply IH. lia. }
  apply G. lia.
Qed.
Lemma by_range_enum L {V} (f : nat -> V) : by_range (enum L) (List.length L) f = Some (map (fun i => (Some (lab L i), f i)) (seq 0 (List.length L))).
Proof.
  unfold by_range. apply all_some_map. intros i Hi. apply in_seq in Hi. rewrite enum_get by lia. reflexivity.
Qed.
Lemma by_items_enum L f : by_items (enum L) (List.length L) f = Some (map (fun i => (Some (lab L i), f i)) (seq 0 (List.length L))).
Proof.
  unfold by_items. rewrite enum_map, map_map. apply all_some_map. intros i Hi. apply in_seq in Hi. cbn [fst snd].
  destruct ((0 <=? Z.of_nat i) && (Z.of_nat i <? Z.of_nat (List.length L)))%Z%bool eqn:E; [|lia]. rewrite Nat2Z.id. reflexivity.
Qed.
Lemma Forall2_labs {V} L (R : string -> option string * V -> Prop) (f : nat -> V) :
  (forall i l, nth_error L i = Some l -> R l (Some l, f i)) ->
  Forall2 R L (map (fun i => (Some (lab L i), f i)) (seq 0 (List.length L))).
Proof.
  intros H. rewrite (list_labs L) at 1.
  assert (G : forall is, (forall i, In i is -> i < List.length L) -> Forall2 R (map (lab L) is) (map (fun i => (Some (lab L i), f i)) is)).
  { induction is as [|i is IH]; intros Hi; constructor.
    - apply H. apply lab_nth. apply Hi. left. reflexivity.
    - apply IH. intros j Hj. apply Hi. right. exact Hj. }
  apply G. intros i Hi. apply in_seq in Hi. lia.
Qed.
Lemma lists_labs L (h : string -> Q) (f : nat -> Q) :
  (forall i l, nth_error L i = Some l -> (f i == h l)%Q) ->
  lists_of L h (map (fun i => (Some (lab L i), f i)) (seq 0 (List.length L))).
Proof. intros H. apply Forall2_labs. intros i l Hi. split; [reflexivity|]. apply H. exact Hi. Qed.

Theorem report_correct ss v m :
  (forall i j, i <= List.length (seg_labels ss) -> j <= List.length (seg_labels ss) ->
     m i j = Z.of_nat (cell ss v i j)) ->
  (Z.of_nat (vcount ss v (fun _ _ => true)) < 2 ^ 64)%Z ->
  exists rep, seg_report (enum (seg_labels ss)) m = Some rep /\ report_ok ss v (seg_labels ss) rep.
Proof.
  intros Hm Hs. unfold seg_report. rewrite enum_length.
  rewrite !by_items_enum, !by_range_enum.
  rewrite map_map. cbn [fst snd].
  rewrite (all_some_map _ (fun i => (Some (lab (seg_labels ss) i), map (fun j => (Some (lab (seg_labels ss) j), m_iou (List.length (seg_labels ss)) m i j)) (seq 0 (List.length (seg_labels ss)))))).
  2:{ intros i _. rewrite by_range_enum. reflexivity. }
  eexists. split; [reflexivity|]. unfold report_ok. cbn [sr_accuracy sr_confusion sr_unmatched_pd sr_unmatched_gt sr_miou sr_precision sr_recall sr_f1 sr_iou].
  split; [rewrite (m_accuracy_ok ss v m Hm Hs); reflexivity|].
  split. { apply Forall2_labs. intros i a Hi. split; [reflexivity|]. apply lists_labs. intros j b Hj. rewrite (m_iou_ok ss v m Hm Hs i j a b Hi Hj). reflexivity. }
  split. { apply lists_labs. intros i l Hi. rewrite (m_upd_ok ss v m Hm Hs i l Hi). reflexivity. }
  split. { apply lists_labs. intros i l Hi. rewrite (m_ugt_ok ss v m Hm Hs i l Hi). reflexivity. }
  split.
  { unfold m_miou. destruct (List.length (seg_labels ss)) as [|k] eqn:En; [apply length_zero_iff_nil; exact En|].
    split; [intros C; rewrite C in En; discriminate|]. unfold qmean. rewrite map_length, En.
    assert (X : map (fun i => m_iou (S k) m i i) (seq 0 (S k)) = map (fun l => spec_iou ss v l l) (seg_labels ss)).
    { rewrite (list_labs (seg_labels ss)), map_map, En. apply map_ext_in. intros i Hi. apply in_seq in Hi. rewrite <- En in *.
      apply (m_iou_ok ss v m Hm Hs); apply lab_nth; lia. }
    rewrite X. reflexivity. }
  split. { apply lists_labs. intros i l Hi. rewrite (m_precision_ok ss v m Hm Hs i l Hi). reflexivity. }
  split. { apply lists_labs. intros i l Hi. rewrite (m_recall_ok ss v m Hm Hs i l Hi). reflexivity. }
  split. { apply lists_labs. intros i l Hi. apply (m_f1_ok ss v m Hm Hs i l Hi). }
  apply lists_labs. intros i l Hi. rewrite (m_iou_ok ss v m Hm Hs i i l l Hi Hi). reflexivity.
Qed.

Lemma vcount_bound ss v P : Forall clean ss -> (Z.of_nat (vcount ss v P) <= total_pixels ss)%Z.
Proof. intros Hc. unfold vcount. rewrite npix_filter. apply npix_bound. exact Hc. Qed.

Theorem compute_correct ss v e ed sel :
  obtained ss v e -> Forall clean ss -> countable ss -> datum_expr ss ed sel ->
  exists rep, seg_compute e ed = Some rep /\ report_ok ss (with_datums v sel) (seg_labels ss) rep.
Proof.
  intros Ho Hc Hn He. destruct (obtained_holds ss v e Ho Hc) as (_ & HT & HL).
  unfold seg_compute. rewrite HL. apply report_correct.
  - intros i j Hi Hj. apply (matrix_cell ss v _ ed sel i j); auto.
    + destruct i as [|i]; [reflexivity|]. cbn. rewrite lab_nth by lia. reflexivity.
    + destruct j as [|j]; [reflexivity|]. cbn. rewrite lab_nth by lia. reflexivity.
  - eapply Z.le_lt_trans; [apply vcount_bound; exact Hc|exact Hn].
Qed.
