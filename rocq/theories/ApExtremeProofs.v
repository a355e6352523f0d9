(* C147: average precision equal to one or zero. *)
From Verif Require Import Prelude Counting CacheModel CacheSpec SortProofs ClsModel ClsProofs DetModel DetSpec DetRankProofs DetCountProofs DetApProofs PerfectProofs.
From Coq Require Import Lia String QArith Qminmax Lqa.
Local Open Scope nat_scope.
Local Open Scope list_scope.

Lemma qmaxl_attained l x : ~ (x == 0)%Q -> (qmaxl l == x)%Q -> exists y, In y l /\ (y == x)%Q.
Proof.
  intros Hx. induction l as [|a t IH]; cbn [qmaxl fold_right]; intros E; [exfalso; apply Hx; symmetry; exact E|]. fold (qmaxl t) in E.
  destruct (Q.max_spec a (qmaxl t)) as [[_ M]|[_ M]]; rewrite M in E.
  - destruct (IH E) as (y & Hy & Ey). exists y. split; [right; exact Hy|exact Ey].
  - exists a. split; [left; reflexivity|exact E].
Qed.
Lemma qsum_full (f : nat -> Q) ks : (forall k, In k ks -> (0 <= f k <= 1)%Q) -> ((qsum (map f ks) == qnat (List.length ks))%Q <-> forall k, In k ks -> (f k == 1)%Q).
Proof.
  induction ks as [|k u IH]; intros B; [split; [intros _ x []|reflexivity]|].
  assert (Bu : forall x, In x u -> (0 <= f x <= 1)%Q) by (intros x Hx; apply B; right; exact Hx). specialize (IH Bu). pose proof (qsum_range f u Bu) as R. pose proof (B k (or_introl eq_refl)) as Bk.
  cbn [map qsum fold_right List.length]. fold (qsum (map f u)). assert (N : (qnat (S (List.length u)) == 1 + qnat (List.length u))%Q) by (unfold qnat; rewrite Nat2Z.inj_succ; unfold Z.succ; rewrite inject_Z_plus; change (inject_Z 1) with 1%Q; ring).
  rewrite N. split.
  - intros E x [<-|Hx]; [lra|]. apply IH; [lra|exact Hx].
  - intros A. assert (X : (qsum (map f u) == qnat (List.length u))%Q) by (apply IH; intros x Hx; apply A; right; exact Hx). rewrite X, (A k (or_introl eq_refl)). reflexivity.
Qed.
Lemma qsum_none (f : nat -> Q) ks : (forall k, In k ks -> (0 <= f k <= 1)%Q) -> ((qsum (map f ks) == 0)%Q <-> forall k, In k ks -> (f k == 0)%Q).
Proof.
  induction ks as [|k u IH]; intros B; [split; [intros _ x []|reflexivity]|].
  assert (Bu : forall x, In x u -> (0 <= f x <= 1)%Q) by (intros x Hx; apply B; right; exact Hx). specialize (IH Bu). pose proof (qsum_range f u Bu) as R. pose proof (B k (or_introl eq_refl)) as Bk.
  cbn [map qsum fold_right]. fold (qsum (map f u)). split.
  - intros E x [<-|Hx]; [lra|]. apply IH; [lra|exact Hx].
  - intros A. assert (X : (qsum (map f u) == 0)%Q) by (apply IH; intros x Hx; apply A; right; exact Hx). rewrite X, (A k (or_introl eq_refl)). reflexivity.
Qed.
Lemma interpolated_ge G hits k i : 1 <= i <= List.length hits -> prefix_recall_ge G hits k i = true -> (prefix_precision hits i <= interpolated G hits k)%Q.
Proof.
  intros Hi Hr. unfold interpolated. refine (proj2 (proj1 (qmaxl_le _ _) (Qle_refl _)) _ _). apply in_map, filter_In. split; [apply in_seq; lia|exact Hr].
Qed.
Lemma trues_all l : trues l = List.length l <-> l = repeat true (List.length l).
Proof.
  unfold trues. induction l as [|b t IH]; [cbn; tauto|]. pose proof (countb_le_length (fun b => b) t) as L. unfold countb in *. cbn [filter List.length repeat]. destruct b; cbn [List.length].
  - split; [intros E; injection E as E; f_equal; apply IH, E|]. intros E. injection E as E. f_equal. apply IH, E.
  - split; [lia|discriminate].
Qed.
Lemma ap_zero G hits : (ap_spec G hits == 0)%Q <-> ~ In true hits.
Proof.
  unfold ap_spec. assert (X : (qsum (map (interpolated G hits) (seq 0 101)) / 101 == 0)%Q <-> (qsum (map (interpolated G hits) (seq 0 101)) == 0)%Q).
  { set (x := qsum _). split; intros E; [setoid_replace x with (x / 101 * 101)%Q by field; rewrite E; reflexivity|rewrite E; reflexivity]. }
  rewrite X, qsum_none by (intros; apply interpolated_range). clear X. split.
  - intros A Hin. specialize (A 0 (proj2 (in_seq 101 0 0) ltac:(lia))).
    assert (L : 1 <= List.length hits) by (destruct hits; [destruct Hin|cbn; lia]).
    pose proof (interpolated_ge G hits 0 (List.length hits) (conj L (le_n _)) eq_refl) as P. rewrite A in P. unfold prefix_precision in P. rewrite firstn_all in P.
    assert (T : 0 < trues hits) by (apply countb_pos; exists true; auto).
    assert (Y : (0 < qnat (trues hits) / qnat (List.length hits))%Q).
    { apply Qlt_shift_div_l; [unfold qnat, Qlt, inject_Z; cbn [Qnum Qden]; lia|]. rewrite Qmult_0_l. unfold qnat, Qlt, inject_Z. cbn [Qnum Qden]. lia. }
    apply (Qlt_not_le _ _ Y P).
  - intros A k _. apply Qle_antisym; [|apply interpolated_range]. apply qmaxl_le. split; [apply Qle_refl|]. intros y Hy. apply in_map_iff in Hy. destruct Hy as (i & <- & _).
    unfold prefix_precision. assert (T : trues (firstn i hits) = 0).
    { apply countb_zero. intros b Hb. destruct b; [|reflexivity]. exfalso. apply A. rewrite <- (firstn_skipn i hits). apply in_app_iff. left. exact Hb. }
    rewrite T. change (qnat 0) with 0%Q. unfold Qdiv. rewrite Qmult_0_l. apply Qle_refl.
Qed.
Lemma ap_one G hits : 0 < G -> ((ap_spec G hits == 1)%Q <-> firstn G hits = repeat true G).
Proof.
  intros HG. unfold ap_spec. assert (X : (qsum (map (interpolated G hits) (seq 0 101)) / 101 == 1)%Q <-> (qsum (map (interpolated G hits) (seq 0 101)) == qnat (List.length (seq 0 101)))%Q).
  { rewrite seq_length. change (qnat 101) with 101%Q. set (x := qsum _). split; intros E; [setoid_replace x with (x / 101 * 101)%Q by field; rewrite E; reflexivity|rewrite E; reflexivity]. }
  rewrite X, qsum_full by (intros; apply interpolated_range). clear X. split.
  - intros A. specialize (A 100 (proj2 (in_seq 101 0 100) ltac:(lia))). unfold interpolated in A.
    destruct (qmaxl_attained _ 1%Q ltac:(discriminate) A) as (y & Hy & Ey). apply in_map_iff in Hy. destruct Hy as (i & <- & Hi). apply filter_In in Hi. destruct Hi as [Hi Hr].
    apply in_seq in Hi. unfold prefix_recall_ge in Hr. apply Nat.leb_le in Hr. unfold prefix_precision, qnat in Ey. apply ratio_one in Ey; [|lia].
    assert (L : List.length (firstn i hits) = i) by (apply firstn_length_le; lia). rewrite <- L in Ey at 2. apply trues_all in Ey. rewrite L in Ey.
    assert (GI : G <= i) by (pose proof (countb_le_length (fun b => b) (firstn i hits)) as Q; unfold trues in Hr; lia).
    replace (firstn G hits) with (firstn G (firstn i hits)) by (rewrite firstn_firstn; f_equal; lia). rewrite Ey.
    replace i with (G + (i - G)) by lia. rewrite repeat_app, firstn_app, repeat_length, Nat.sub_diag. cbn [firstn]. rewrite app_nil_r. apply firstn_all2. rewrite repeat_length. lia.
  - intros A k Hk. apply in_seq in Hk. apply Qle_antisym; [apply interpolated_range|].
    assert (T : trues (firstn G hits) = G).
    { rewrite A. unfold trues. rewrite countb_true by (intros x Hx; apply repeat_spec in Hx; exact Hx). apply repeat_length. }
    assert (L : G <= List.length hits). { pose proof (f_equal (@List.length bool) A) as L. rewrite repeat_length, firstn_length in L. lia. }
    assert (P : (prefix_precision hits G == 1)%Q) by (unfold prefix_precision, qnat; rewrite T; apply ratio_one; [exact HG|reflexivity]).
    rewrite <- P. apply interpolated_ge; [lia|]. unfold prefix_recall_ge. rewrite T. apply Nat.leb_le. nia.
Qed.
