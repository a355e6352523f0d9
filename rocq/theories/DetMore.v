(* Further consequences for detection evaluators: existence, equal reports for equal
   inputs, the precision-recall curve, averages and the shape of the reports. *)
From Verif Require Import Prelude Counting CacheModel CacheSpec SortProofs CacheProofs ClsModel ClsLabelProofs ClsLemmas FlowModel FlowProofs Pipeline
  DetModel DetSpec DetRankProofs DetCountProofs DetLoaderProofs DetStoreProofs DetLocalProofs DetApProofs DetMain DetApEnd
  DetFlowModel DetFlowProofs DetOrderProofs DetConfProofs DetMatchingProofs DetConfOrder DetExModel DetExampleProofs DetReportModel DetEnd.
From Coq Require Import Lia QArith Qminmax Lqa.
From Coq Require String.
Local Open Scope nat_scope.
Local Open Scope list_scope.

(* ------------------------------------------------------------------ *)
(** * Evaluators exist *)

Lemma rows_exist eps unit ds l : det_input unit ds -> add_detections eps dloader_init ds = Some l ->
  Exists has_rows ds -> concat (l_writes l) <> [].
Proof.
  intros Hin El Hex E. apply Exists_exists in Hex. destruct Hex as (d & Hd & Hr).
  apply In_nth_error in Hd. destruct Hd as (i & Hi).
  assert (Hst : det_stored eps ds (l_labels l) (l_writes l)).
  { exists l. split; [exact El|]. split; [reflexivity|]. split; [apply Permutation_refl|].
    apply (ld_aligned eps ds l). apply (Hloaded eps ds l); [apply (input_ok unit ds Hin)|exact El]. }
  destruct Hr as [Hg|(pa & Hp & Hl)].
  - destruct (t_gts d) as [|ga gts] eqn:Eg; [congruence|].
    assert (Eg0 : nth_error (t_gts d) 0 = Some ga) by (rewrite Eg; reflexivity).
    destruct (single_gt_label unit ds Hin d ga (nth_error_In _ _ Hi) (nth_error_In _ _ Eg0)) as (gl & El').
    destruct (gt_recorded eps unit ds _ _ Hin Hst i d 0 ga gl Hi Eg0 El') as (r & gi & Hr & _). rewrite E in Hr. destruct Hr.
  - apply In_nth_error in Hp. destruct Hp as (p & Hp). destruct (a_labels pa) as [|pl ls] eqn:Epl; [congruence|].
    assert (Hk : nth_error (a_labels pa) 0 = Some pl) by (rewrite Epl; reflexivity).
    assert (exists s, nth_error (a_scores pa) 0 = Some s) as (s & Hs).
    { destruct (proj1 (Forall_forall _ _) Hin d (nth_error_In _ _ Hi)) as (Hdo & _ & _). unfold det_ok in Hdo. rewrite !andb_true_iff in Hdo.
      destruct Hdo as [[_ Ho] Ho']. rewrite forallb_forall in Ho'. specialize (Ho' pa (nth_error_In _ _ Hp)). apply Nat.eqb_eq in Ho'.
      rewrite Epl in Ho'. destruct (a_scores pa) as [|s ?]; [discriminate|]. exists s. reflexivity. }
    destruct (pd_recorded eps unit ds _ _ Hin Hst i d p pa 0 pl s Hi Hp Hk Hs) as (r & pi & Hr & _). rewrite E in Hr. destruct Hr.
Qed.

Section Exist.
  Variables (eps unit : Z) (ds : list detection).
  Hypothesis Hin : det_input unit ds.
  Hypothesis Hex : Exists has_rows ds.

  Lemma mem_exists bs rb calls : concat calls = ds -> exists e, mem_evaluates eps unit bs rb calls e.
  Proof.
    intros Ec. destruct (loader_exists eps unit ds Hin) as (l & El & Hl).
    assert (Hr := rows_exist eps unit ds l Hin El Hex).
    destruct (dmb_adds_state eps bs calls dmb_init dloader_init l eq_refl eq_refl) as (b & Hb & _ & Hd & Hk); [rewrite Ec; exact El|].
    destruct (dm_finalize_done eps unit ds l El Hr bs rb b Hd Hk) as (b' & e & Hf & _).
    exists e, b, b'. auto.
  Qed.
  Lemma file_exists bs rpf rb calls : batching_ok rb -> concat calls = ds -> exists e, file_evaluates eps unit bs rpf rb calls e.
  Proof.
    intros Hrb Ec. destruct (loader_exists eps unit ds Hin) as (l & El & Hl).
    assert (Hr := rows_exist eps unit ds l Hin El Hex).
    destruct (dfb_adds_state eps bs rpf calls dfb_init dloader_init l eq_refl eq_refl) as (b & Hb & _ & Hd & Hk); [rewrite Ec; exact El|].
    destruct (df_finalize_done eps unit ds l (input_ok unit ds Hin) El Hr bs rpf rb b Hrb Hd Hk) as (b' & labels & gs & Hf & _).
    exists (dfe b' labels), b, b', labels. auto.
  Qed.
End Exist.

(* ------------------------------------------------------------------ *)
(** * Equal reports *)

Section SameReports.
  Variables (eps unit : Z) (ds : list detection).
  Hypothesis Hin : det_input unit ds.
  Variables (sel : detection -> bool) (datums : drow -> bool).
  Hypothesis Hsel : det_selects ds datums sel.
  Hypothesis Hu : (0 <= unit)%Z.
  Hypothesis Hfew : few_det_labels ds.
  Variables e1 e2 : deval.
  Hypothesis H1 : det_evaluator eps unit ds e1.
  Hypothesis H2 : det_evaluator eps unit ds e2.

  Lemma same_counts t s l : (0 < t)%Z -> rep_counts eps e1 datums t s l = rep_counts eps e2 datums t s l.
  Proof.
    intros Ht. rewrite (counts_flat eps unit ds Hin sel datums Hsel e1 Hu H1 Hfew t s l Ht).
    rewrite (counts_flat eps unit ds Hin sel datums Hsel e2 Hu H2 Hfew t s l Ht).
    rewrite (end_same_ranking eps unit ds Hin e1 e2 H1 H2). reflexivity.
  Qed.
  Lemma same_gts v vi : label_no e1 v vi -> rep_gts e1 datums (Z.of_nat vi) = rep_gts e2 datums (Z.of_nat vi).
  Proof.
    intros Hv. rewrite (end_gts eps unit ds Hin sel datums Hsel e1 H1 v vi Hv).
    rewrite (end_gts eps unit ds Hin sel datums Hsel e2 H2 v vi); [reflexivity|].
    apply (end_same_labels eps unit ds Hin e1 e2 v vi H1 H2). exact Hv.
  Qed.
  Lemma upd_curve_ext n n' pts c l b : n l = n' l -> upd_curve n pts c l b = upd_curve n' pts c l b.
  Proof.
    intros E. unfold upd_curve. replace (filter (pt_in n' l b) pts) with (filter (pt_in n l b) pts); [reflexivity|].
    apply filter_ext. intros p. unfold pt_in, pt_bin. destruct (Z.eqb_spec (d_pl (fst (fst p))) l) as [->|]; [rewrite E|]; reflexivity.
  Qed.
  Lemma same_curve v vi t b : label_no e1 v vi -> rep_curve eps e1 datums t (Z.of_nat vi) b = rep_curve eps e2 datums t (Z.of_nat vi) b.
  Proof.
    intros Hv. unfold rep_curve. rewrite (curve_flat eps unit ds Hin sel datums Hsel e1 Hu H1 Hfew).
    rewrite (curve_flat eps unit ds Hin sel datums Hsel e2 Hu H2 Hfew).
    rewrite (end_same_ranking eps unit ds Hin e1 e2 H1 H2). f_equal. apply upd_curve_ext. apply (same_gts v). exact Hv.
  Qed.
  Lemma same_ap v vi t : label_no e1 v vi -> rep_ap eps e1 datums t (Z.of_nat vi) = rep_ap eps e2 datums t (Z.of_nat vi).
  Proof. intros Hv. apply average_precision_ext. intros b. apply (same_curve v). exact Hv. Qed.
  Lemma same_fn v vi t s : label_no e1 v vi -> (0 < t)%Z -> rep_fn eps e1 datums t s (Z.of_nat vi) = rep_fn eps e2 datums t s (Z.of_nat vi).
  Proof. intros Hv Ht. unfold rep_fn, rep_tp. rewrite (same_gts v vi Hv), (same_counts t s _ Ht). reflexivity. Qed.
  Lemma run_max_ext c c' : (forall b, c b = c' b) -> forall bins m, run_max c bins m = run_max c' bins m.
  Proof. intros H. induction bins as [|b bins IH]; intros m; [reflexivity|]. cbn. rewrite H, IH. reflexivity. Qed.
  Lemma same_pr_curve v vi t : label_no e1 v vi -> rep_pr_curve eps e1 datums t (Z.of_nat vi) = rep_pr_curve eps e2 datums t (Z.of_nat vi).
  Proof. intros Hv. unfold rep_pr_curve. f_equal. apply run_max_ext. intros b. apply (same_curve v). exact Hv. Qed.
  Lemma same_map t : rep_map eps e1 datums t = rep_map eps e2 datums t.
  Proof.
    unfold rep_map. f_equal. rewrite <- (end_same_axis eps unit ds Hin e1 e2 H1 H2). apply map_ext_in. intros l Hl.
    destruct (axis_label eps unit ds Hin e1 l H1 Hl) as (v & vi & Hv & ->). apply (same_ap v). exact Hv.
  Qed.
End SameReports.

(* ------------------------------------------------------------------ *)
(** * The precision-recall curve *)

Lemma run_max_length c : forall bins m, length (run_max c bins m) = length bins.
Proof. induction bins as [|b bins IH]; intros m; [reflexivity|]. cbn. rewrite IH. reflexivity. Qed.
Lemma run_max_nth c : forall bins m i q, nth_error (run_max c bins m) i = Some q ->
  forall x, (q <= x)%Q <-> (m <= x)%Q /\ forall b, In b (firstn (S i) bins) -> (c b <= x)%Q.
Proof.
  induction bins as [|b bins IH]; intros m i q H x; [destruct i; discriminate H|].
  destruct i as [|i].
  - cbn in H. injection H as <-. rewrite qmax_le. cbn. split.
    + intros [A B]. split; [exact B|]. intros b' [<-|[]]. exact A.
    + intros [A B]. split; [apply B; left; reflexivity|exact A].
  - cbn in H. rewrite (IH _ _ _ H x), qmax_le. cbn [firstn]. split.
    + intros [[A B] C]. split; [exact B|]. intros b' [<-|Hb]; [exact A|apply C; exact Hb].
    + intros [A B]. split; [split; [apply B; left; reflexivity|exact A]|]. intros b' Hb. apply B. right. exact Hb.
Qed.
Lemma run_max_sum c : forall bins m s, (ap_loop c bins m s == s + qsum (run_max c bins m))%Q.
Proof.
  induction bins as [|b bins IH]; intros m s; cbn; [lra|]. rewrite IH. unfold qsum. cbn. lra.
Qed.
Lemma nth_error_rev_bins {A} (l : list A) k : k < length l -> nth_error (rev l) k = nth_error l (length l - S k).
Proof.
  intros H. destruct l as [|a l]; [cbn in H; lia|].
  rewrite (nth_error_nth' (rev (a :: l)) a) by (rewrite rev_length; exact H).
  rewrite rev_nth by exact H. symmetry. apply nth_error_nth'. lia.
Qed.
Lemma firstn_rev_bins k n : k <= n -> forall b, In b (firstn (n - k) (rev (seq 0 n))) <-> k <= b < n.
Proof.
  intros H b. replace (rev (seq 0 n)) with (rev (seq k (n - k)) ++ rev (seq 0 k)).
  - rewrite firstn_app, rev_length, seq_length, Nat.sub_diag. cbn [firstn]. rewrite app_nil_r, firstn_all2 by (rewrite rev_length, seq_length; lia).
    rewrite <- in_rev, in_seq. lia.
  - rewrite <- rev_app_distr. f_equal. replace n with (k + (n - k)) at 2 by lia. rewrite seq_app. reflexivity.
Qed.

Section PrCurve.
  Variables (eps : Z) (e : deval) (datums : drow -> bool) (t l : Z).
  Lemma pr_curve_length : length (rep_pr_curve eps e datums t l) = 101.
  Proof. unfold rep_pr_curve. rewrite rev_length, run_max_length, rev_length, seq_length. reflexivity. Qed.
  Lemma pr_curve_nth k q : nth_error (rep_pr_curve eps e datums t l) k = Some q ->
    k <= 100 /\ forall x, (q <= x)%Q <-> (0 <= x)%Q /\ forall b, k <= b <= 100 -> (rep_curve eps e datums t l b <= x)%Q.
  Proof.
    intros H. assert (Hk : k < 101) by (rewrite <- pr_curve_length; apply nth_error_Some; congruence).
    split; [lia|]. unfold rep_pr_curve in H.
    rewrite nth_error_rev_bins in H by (rewrite run_max_length, rev_length, seq_length; exact Hk).
    rewrite run_max_length, rev_length, seq_length in H.
    intros x. rewrite (run_max_nth _ _ _ _ _ H x). replace (S (101 - S k)) with (101 - k) by lia.
    split; intros [A B]; (split; [exact A|]); intros b Hb; apply B; [apply firstn_rev_bins; lia|apply firstn_rev_bins in Hb; lia].
  Qed.
  Lemma pr_curve_mean : (rep_ap eps e datums t l == qsum (rep_pr_curve eps e datums t l) / 101)%Q.
  Proof.
    unfold rep_ap, average_precision, rep_pr_curve. rewrite run_max_sum.
    rewrite (qsum_perm (rev _) _ (Permutation_sym (Permutation_rev _))). field.
  Qed.
  Lemma pr_curve_decreasing j k p q : j <= k -> nth_error (rep_pr_curve eps e datums t l) j = Some p ->
    nth_error (rep_pr_curve eps e datums t l) k = Some q -> (q <= p)%Q.
  Proof.
    intros Hjk Hp Hq. destruct (pr_curve_nth k q Hq) as (_ & B). apply B. destruct (pr_curve_nth j p Hp) as (_ & A).
    destruct (proj1 (A p) (Qle_refl p)) as (P0 & P1). split; [exact P0|]. intros b Hb. apply P1. lia.
  Qed.
End PrCurve.

Lemma qmean_range l : (forall q, In q l -> (0 <= q <= 1)%Q) -> forall q, qmean l = Some q -> (0 <= q <= 1)%Q.
Proof.
  intros H q Eq. destruct l as [|a l]; [discriminate|].
  assert (Q1 : qmean (a :: l) = Some (qsum (a :: l) / qnat (length (a :: l)))%Q) by reflexivity.
  rewrite Q1 in Eq. injection Eq as <-. clear Q1.
  assert (X : forall m, (forall q, In q m -> (0 <= q <= 1)%Q) -> (0 <= qsum m <= qnat (length m))%Q).
  { clear. induction m as [|b m IH]; intros Hm; [vm_compute; split; discriminate|].
    destruct (IH (fun q Hq => Hm q (or_intror Hq))) as [A B]. destruct (Hm b (or_introl eq_refl)) as [C D].
    unfold qnat in *. cbn [length qsum fold_right]. fold (qsum m). rewrite Nat2Z.inj_succ. unfold Z.succ. rewrite inject_Z_plus.
    change (inject_Z 1) with 1%Q. lra. }
  destruct (X (a :: l) H) as [A B].
  assert (Hp : (0 < qnat (length (a :: l)))%Q) by (unfold qnat, Qlt; cbn; lia).
  split; [apply Qle_shift_div_l; [exact Hp|]; rewrite Qmult_0_l; exact A|apply Qle_shift_div_r; [exact Hp|]; rewrite Qmult_1_l; exact B].
Qed.

Section Averages.
  Variables (eps unit : Z) (ds : list detection).
  Hypothesis Hin : det_input unit ds.
  Variables (sel : detection -> bool) (datums : drow -> bool).
  Hypothesis Hsel : det_selects ds datums sel.
  Variable e : deval.
  Hypothesis Hu : (0 <= unit)%Z.
  Hypothesis He : det_evaluator eps unit ds e.
  Hypothesis Hfew : few_det_labels ds.

  (* the ranking does not depend on the IoU threshold; the curve lists the
     interpolated precisions *)
  Lemma end_pr_curve v vi : label_no e v vi -> Forall distinct_pd_labels ds -> Forall (no_ties eps) ds ->
    exists P, ap_ranking eps sel ds v P /\
      forall t, (0 < t)%Z -> exists hits, ap_hits eps t ds v P hits /\
        (rep_ap eps e datums t (Z.of_nat vi) == ap_spec (gts_with sel ds v) hits)%Q /\
        length (rep_pr_curve eps e datums t (Z.of_nat vi)) = 101 /\
        forall k q, nth_error (rep_pr_curve eps e datums t (Z.of_nat vi)) k = Some q -> (q == interpolated (gts_with sel ds v) hits k)%Q.
  Proof.
    intros Hv Hd Hn. destruct (end_facts eps unit ds Hin e He) as (L & Hst & HR & _ & B & Hf & _). assert (Hv' := Hv). apply B in Hv'.
    specialize (Hf Hfew). set (R := concat (de_ranked e)) in *. set (ids := sel_rows ds sel). assert (Hids := sel_rows_selects ds sel). fold ids in Hids.
    exists (map (item_of ds) (filter (fun r => (d_pl r =? Z.of_nat vi)%Z) (filter ids R))).
    split; [apply (rl_ranking eps unit ds L _ R Hu Hin Hst HR Hf Hd sel ids Hids v vi Hv')|].
    intros t Ht. exists (map (tp_outer eps t) (filter (fun r => (d_pl r =? Z.of_nat vi)%Z) (filter ids R))).
    split; [apply (rl_hits eps unit ds L _ R Hu Hin Hst HR Hf sel ids Hids v vi Hv' Hn t Ht)|].
    assert (Hb := hits_bound eps unit ds L _ R Hu Hin Hst HR Hf sel ids Hids v vi Hv' t Ht).
    assert (Eg := end_gts eps unit ds Hin sel datums Hsel e He v vi Hv). rewrite <- Eg in Hb |- *.
    assert (Ec : forall b, rep_curve eps e datums t (Z.of_nat vi) b
      = fst (upd_curve (rep_gts e datums) (fst (running eps t run0 (filter ids R))) curve0 (Z.of_nat vi) b)).
    { intros b. unfold rep_curve. rewrite (curve_flat eps unit ds Hin sel datums Hsel e Hu He Hfew). reflexivity. }
    split.
    { unfold rep_ap. rewrite (average_precision_ext _ _ Ec). apply ap_is_spec. exact Hb. }
    split; [apply pr_curve_length|]. intros k q Hq. destruct (pr_curve_nth eps e datums t (Z.of_nat vi) k q Hq) as (Hk & A).
    apply same_upper_bounds. intros x. rewrite A, (interpolated_le eps t (rep_gts e datums) (Z.of_nat vi) _ Hb).
    split; intros [X1 X2]; (split; [exact X1|]); intros b Hb'; [rewrite <- Ec|rewrite Ec]; apply X2; exact Hb'.
  Qed.

  Lemma pr_curve_range v vi t k q : label_no e v vi -> (0 < t)%Z -> nth_error (rep_pr_curve eps e datums t (Z.of_nat vi)) k = Some q -> (0 <= q <= 1)%Q.
  Proof.
    intros Hv Ht Hq. destruct (end_facts eps unit ds Hin e He) as (L & Hst & HR & _ & B & Hf & _). assert (Hv' := Hv). apply B in Hv'.
    specialize (Hf Hfew). set (R := concat (de_ranked e)) in *. set (ids := sel_rows ds sel). assert (Hids := sel_rows_selects ds sel). fold ids in Hids.
    assert (Hb := hits_bound eps unit ds L _ R Hu Hin Hst HR Hf sel ids Hids v vi Hv' t Ht).
    assert (Eg := end_gts eps unit ds Hin sel datums Hsel e He v vi Hv). rewrite <- Eg in Hb.
    assert (Ec : forall b, rep_curve eps e datums t (Z.of_nat vi) b
      = fst (upd_curve (rep_gts e datums) (fst (running eps t run0 (filter ids R))) curve0 (Z.of_nat vi) b)).
    { intros b. unfold rep_curve. rewrite (curve_flat eps unit ds Hin sel datums Hsel e Hu He Hfew). reflexivity. }
    assert (E : (q == interpolated (rep_gts e datums (Z.of_nat vi)) (map (tp_outer eps t) (filter (fun r => (d_pl r =? Z.of_nat vi)%Z) (filter ids R))) k)%Q).
    { destruct (pr_curve_nth eps e datums t (Z.of_nat vi) k q Hq) as (Hk & A).
      apply same_upper_bounds. intros x. rewrite A, (interpolated_le eps t (rep_gts e datums) (Z.of_nat vi) _ Hb).
      split; intros [X1 X2]; (split; [exact X1|]); intros b Hb'; [rewrite <- Ec|rewrite Ec]; apply X2; exact Hb'. }
    rewrite E. apply interpolated_range.
  Qed.

  Lemma map_range t q : (0 < t)%Z -> rep_map eps e datums t = Some q -> (0 <= q <= 1)%Q.
  Proof.
    intros Ht. apply qmean_range. intros x Hx. apply in_map_iff in Hx. destruct Hx as (l & <- & Hl).
    destruct (axis_label eps unit ds Hin e l He Hl) as (v & vi & Hv & ->).
    apply (end_ap_range eps unit ds Hin sel datums Hsel e Hu He Hfew v vi Hv t Ht).
  Qed.
  Lemma ap_over_ious_range ious l q : In l (label_axis e) -> Forall (fun t => 0 < t)%Z ious -> rep_ap_over_ious eps e datums ious l = Some q -> (0 <= q <= 1)%Q.
  Proof.
    intros Hl Hi. apply qmean_range. intros x Hx. apply in_map_iff in Hx. destruct Hx as (t & <- & Ht).
    destruct (axis_label eps unit ds Hin e l He Hl) as (v & vi & Hv & ->).
    apply (end_ap_range eps unit ds Hin sel datums Hsel e Hu He Hfew v vi Hv t). apply (proj1 (Forall_forall _ _) Hi t Ht).
  Qed.
  Lemma map_over_ious_range ious q : Forall (fun t => 0 < t)%Z ious -> rep_map_over_ious eps e datums ious = Some q -> (0 <= q <= 1)%Q.
  Proof.
    intros Hi. apply qmean_range. intros x Hx. apply in_concat in Hx. destruct Hx as (y & Hy & Hx). apply in_map_iff in Hy.
    destruct Hy as (t & <- & Ht). destruct (rep_map eps e datums t) as [m|] eqn:Em; [|destruct Hx]. destruct Hx as [<-|[]].
    apply (map_range t m); [apply (proj1 (Forall_forall _ _) Hi t Ht)|exact Em].
  Qed.
  Lemma recall_range v vi t s : label_no e v vi -> (0 < t)%Z -> (0 <= rep_recall eps e datums t s (Z.of_nat vi) <= 1)%Q.
  Proof.
    intros Hv Ht. apply qdiv_bounds. rewrite (end_gts eps unit ds Hin sel datums Hsel e He v vi Hv).
    apply (end_tp_le eps unit ds Hin sel datums Hsel e Hu He Hfew v vi Hv t s Ht).
  Qed.
  Lemma precision_range t s l : (0 <= rep_precision eps e datums t s l <= 1)%Q.
  Proof. apply qdiv_bounds. lia. Qed.
  Lemma f1_range v vi t s : label_no e v vi -> (0 < t)%Z -> (0 <= rep_f1 eps e datums t s (Z.of_nat vi) <= 1)%Q.
  Proof. intros Hv Ht. apply f1_bounds; [apply precision_range|apply (recall_range v vi t s Hv Ht)]. Qed.
  Lemma ar_range ious s l q : In l (label_axis e) -> Forall (fun t => 0 < t)%Z ious -> rep_ar eps e datums ious s l = Some q -> (0 <= q <= 1)%Q.
  Proof.
    intros Hl Hi. apply qmean_range. intros x Hx. apply in_map_iff in Hx. destruct Hx as (t & <- & Ht).
    destruct (axis_label eps unit ds Hin e l He Hl) as (v & vi & Hv & ->).
    apply (recall_range v vi t s Hv). apply (proj1 (Forall_forall _ _) Hi t Ht).
  Qed.
  Lemma mar_range ious s q : Forall (fun t => 0 < t)%Z ious -> rep_mar eps e datums ious s = Some q -> (0 <= q <= 1)%Q.
  Proof.
    intros Hi. apply qmean_range. intros x Hx. apply in_concat in Hx. destruct Hx as (y & Hy & Hx). apply in_map_iff in Hy.
    destruct Hy as (l & <- & Hl). destruct (rep_ar eps e datums ious s l) as [m|] eqn:Em; [|destruct Hx]. destruct Hx as [<-|[]].
    apply (ar_range ious s l m); assumption.
  Qed.

  (* the entries of a report *)
  Lemma unpacked_In {V} (value : Z -> Z -> Z -> V) ious scores lb s t x :
    In (lb, s, t, x) (unpacked e ious scores value) <->
    exists v vi, lb = Some v /\ label_no e v vi /\ In s scores /\ In t ious /\ x = value t s (Z.of_nat vi).
  Proof.
    destruct (end_facts eps unit ds Hin e He) as (L & _ & _ & _ & B & _ & _ & C & N). unfold unpacked. rewrite in_concat. split.
    - intros (y & Hy & Hx). apply in_map_iff in Hy. destruct Hy as ((k, o) & <- & Hk). apply in_concat in Hx. destruct Hx as (z & Hz & Hx).
      apply in_map_iff in Hz. destruct Hz as (s' & <- & Hs). apply in_map_iff in Hx. destruct Hx as (t' & E & Ht). cbn in E. injection E as <- <- <- <-.
      apply C in Hk. destruct Hk as (v & vi & -> & -> & Hi). exists v, vi. split; [reflexivity|]. split; [apply B; exact Hi|]. auto.
    - intros (v & vi & -> & Hv & Hs & Ht & ->). exists (concat (map (fun s => map (fun t => (Some v, s, t, value t s (Z.of_nat vi))) ious) scores)). split.
      + apply in_map_iff. exists (Z.of_nat vi, Some v). split; [reflexivity|]. apply C. exists v, vi. split; [reflexivity|]. split; [reflexivity|apply B; exact Hv].
      + apply in_concat. exists (map (fun t => (Some v, s, t, value t s (Z.of_nat vi))) ious). split.
        * apply in_map_iff. exists s. auto.
        * apply in_map_iff. exists t. auto.
  Qed.
  Lemma NoDup_app_intro {A} (l1 l2 : list A) : NoDup l1 -> NoDup l2 -> (forall x, In x l1 -> ~ In x l2) -> NoDup (l1 ++ l2).
  Proof.
    induction l1 as [|a l1 IH]; intros H1 H2 H; [exact H2|]. inversion H1; subst. cbn. constructor.
    - rewrite in_app_iff. intros [A1|A1]; [contradiction|]. apply (H a (or_introl eq_refl) A1).
    - apply IH; auto. intros x Hx. apply H. right. exact Hx.
  Qed.
  Lemma NoDup_concat_disjoint {A} (ls : list (list A)) : (forall l, In l ls -> NoDup l) -> 
    (forall i j li lj x, nth_error ls i = Some li -> nth_error ls j = Some lj -> In x li -> In x lj -> i = j) -> NoDup (concat ls).
  Proof.
    induction ls as [|l ls IH]; intros H1 H2; [constructor|]. cbn. apply NoDup_app_intro.
    - apply H1. left. reflexivity.
    - apply IH; [intros; apply H1; right; assumption|]. intros i j li lj x X1 X2 X3 X4. assert (S i = S j); [|lia].
      apply (H2 (S i) (S j) li lj x); assumption.
    - intros x Hx Hc. apply in_concat in Hc. destruct Hc as (l' & Hl & Hx'). apply In_nth_error in Hl. destruct Hl as (j & Hj).
      assert (0 = S j); [|lia]. apply (H2 0 (S j) l l' x); auto.
  Qed.
  Lemma unpacked_NoDup {V} (value : Z -> Z -> Z -> V) ious scores : NoDup ious -> NoDup scores ->
    NoDup (map fst (unpacked e ious scores value)).
  Proof.
    intros Hi Hs. destruct (end_facts eps unit ds Hin e He) as (L & _ & _ & _ & B & _ & _ & C & N).
    assert (Nl : NoDup (map snd (de_labels e))).
    { assert (X : forall l : list (Z * option String.string), NoDup (map fst l) ->
        (forall k k' v, In (k, v) l -> In (k', v) l -> k = k') -> NoDup (map snd l)).
      { clear. induction l as [|(k, v) l IH]; intros Hn H; [constructor|]. cbn. inversion Hn; subst. constructor.
        - intros Hm. apply in_map_iff in Hm. destruct Hm as ((k', v') & E & Hm). cbn in E. subst v'.
          assert (k = k') as -> by (apply (H k k' v); [left; reflexivity|right; exact Hm]). apply H2. cbn. apply in_map_iff. exists (k', v). auto.
        - apply IH; [assumption|]. intros a b c Ha Hb. apply (H a b c); right; assumption. }
      apply X; [exact N|]. intros k k' v Hk Hk'. apply C in Hk. apply C in Hk'. destruct Hk as (a & ai & -> & -> & Ha).
      destruct Hk' as (a' & ai' & Ea & -> & Ha'). injection Ea as <-. congruence. }
    unfold unpacked. rewrite concat_map, map_map.
    apply NoDup_concat_disjoint.
    - intros l Hl. apply in_map_iff in Hl. destruct Hl as ((k, o) & <- & _). rewrite concat_map, map_map. apply NoDup_concat_disjoint.
      + intros l Hl. apply in_map_iff in Hl. destruct Hl as (s & <- & _). rewrite map_map. cbn. apply FinFun.Injective_map_NoDup; [|exact Hi].
        intros a b E. injection E as <-. reflexivity.
      + intros i j li lj x A1 A2 X1 X2. rewrite nth_error_map in A1, A2.
        destruct (nth_error scores i) as [s1|] eqn:E1; [|discriminate]. destruct (nth_error scores j) as [s2|] eqn:E2; [|discriminate].
        cbn in A1, A2. injection A1 as <-. injection A2 as <-. rewrite map_map in X1, X2. apply in_map_iff in X1. apply in_map_iff in X2.
        destruct X1 as (t1 & <- & _). destruct X2 as (t2 & E & _). cbn in E. injection E as E _. subst s2.
        apply (proj1 (NoDup_nth_error scores) Hs); [apply nth_error_Some; congruence|congruence].
    - intros i j li lj x A1 A2 X1 X2. rewrite nth_error_map in A1, A2.
      destruct (nth_error (de_labels e) i) as [k1|] eqn:E1; [|discriminate]. destruct (nth_error (de_labels e) j) as [k2|] eqn:E2; [|discriminate].
      cbn in A1, A2. injection A1 as <-. injection A2 as <-. apply in_map_iff in X1. apply in_map_iff in X2.
      destruct X1 as (y1 & <- & Y1). destruct X2 as (y2 & E & Y2). apply in_concat in Y1. apply in_concat in Y2.
      destruct Y1 as (z1 & Z1 & Y1). destruct Y2 as (z2 & Z2 & Y2). apply in_map_iff in Z1. apply in_map_iff in Z2.
      destruct Z1 as (s1 & <- & _). destruct Z2 as (s2 & <- & _). apply in_map_iff in Y1. apply in_map_iff in Y2.
      destruct Y1 as (t1 & <- & _). destruct Y2 as (t2 & <- & _). cbn in E. injection E as E _ _.
      apply (proj1 (NoDup_nth_error (map snd (de_labels e))) Nl); [rewrite map_length; apply nth_error_Some; congruence|].
      rewrite !nth_error_map, E1, E2. cbn. congruence.
  Qed.
End Averages.

(* ------------------------------------------------------------------ *)
(** * Finalizing a second time *)

Lemma mem_refinalize unit bs rb b b' e b'' e' :
  dmb_finalize unit bs rb b = (b', Done e) -> dmb_finalize unit bs rb b' = (b'', Done e') ->
  de_detailed e' = de_detailed e /\ de_labels e' = de_labels e.
Proof.
  unfold dmb_finalize. set (w := mem_flush (dmb_detailed b)).
  assert (Hw : m_buffer w = []) by (unfold w, mem_flush; destruct (m_buffer (dmb_detailed b)) eqn:E; [exact E|reflexivity]).
  destruct (Nat.eqb (length (m_table w)) 0); [discriminate|].
  destruct (rank_ops unit KMem bs bs rb [mem_read (mem_sort_by (table_sort_by det_sorting) w)]) as [ops|]; [|discriminate].
  intros E. injection E as <- <-. cbn [dmb_detailed dmb_loader dmb_ranked].
  assert (E1 : mem_flush w = w) by (unfold mem_flush; rewrite Hw; reflexivity).
  assert (E2 : mem_sort_by (table_sort_by det_sorting) w = MkMem (dsort (m_table w)) []) by (unfold mem_sort_by; rewrite E1, Hw; reflexivity).
  rewrite E2. cbn [mem_flush m_buffer]. destruct (Nat.eqb (length (m_table _)) 0); [discriminate|].
  assert (E3 : mem_sort_by (table_sort_by det_sorting) (MkMem (dsort (m_table w)) []) = MkMem (dsort (m_table w)) []).
  { unfold mem_sort_by, mem_flush. cbn [m_buffer m_table]. fold (dsort (dsort (m_table w))). rewrite dsort_idem. reflexivity. }
  rewrite E3. destruct (rank_ops _ _ _ _ _ _) as [ops'|]; [|discriminate]. intros E. injection E as <- <-.
  cbn [de_detailed de_labels]. auto.
Qed.

(* ------------------------------------------------------------------ *)
(** * The stored rows *)

Lemma end_rows eps unit ds e : det_input unit ds -> det_evaluator eps unit ds e ->
  exists L, NoDup L /\ (forall v, In v L <-> In v (det_labels ds)) /\ (forall v vi, label_no e v vi <-> nth_error L vi = Some v) /\
    forall r, In r (concat (de_detailed e)) <-> described eps ds L r.
Proof.
  intros Hin He. destruct (end_facts eps unit ds Hin e He) as (L & Hst & _ & _ & B & _). exists L.
  assert (HN := stored_NoDup eps unit ds L _ Hin Hst).
  split; [exact HN|]. split; [apply (stored_labels eps unit ds L _ Hin Hst)|]. split.
  - intros v vi. rewrite B. split; [apply index_of_nth|apply index_of_NoDup; exact HN].
  - apply (stored_rows eps unit ds L _ Hin Hst).
Qed.

(** * Rows kept by the ranking, rows of every annotation *)
Lemma best_row t r : labels_small t -> In r (rank_pairs (table_sort_by det_sorting t)) ->
  In r t /\ forall r', In r' t -> pd_key r' = pd_key r -> d_score r' = d_score r -> d_gl r' = d_pl r' ->
    d_gl r = d_pl r /\ (d_iou r' <= d_iou r)%Z.
Proof.
  intros Hs Hr. apply rank_pairs_In in Hr. destruct Hr as (Ht & (Hp & He) & Hb). split; [exact Ht|].
  intros r' Hr' Ek Es El.
  assert (Em : label_match r' = true) by (rewrite (label_match_small _ (proj1 (Hs r' Hr')) (proj2 (Hs r' Hr'))); apply Z.eqb_eq; exact El).
  assert (Epd : d_pd r' = d_pd r) by (unfold pd_key in Ek; congruence).
  split.
  - destruct He as [He|He].
    + rewrite (label_match_small _ (proj1 (Hs r Ht)) (proj2 (Hs r Ht))) in He. apply Z.eqb_eq. exact He.
    + rewrite (He r' Hr' Epd) in Em. discriminate.
  - assert (X : det_leb r r' = true) by (apply Hb; [exact Hr'|split; [lia|left; exact Em]|exact Ek]).
    apply det_leb_spec in X. lia.
Qed.
Lemma kept_row t r : labels_small t -> In r t -> (0 <= d_pd r)%Z -> d_gl r = d_pl r ->
  exists r0, In r0 (rank_pairs (table_sort_by det_sorting t)) /\ pd_key r0 = pd_key r.
Proof.
  intros Hs Hr Hp El. apply rank_pairs_cover; [exact Hr|]. split; [exact Hp|]. left.
  rewrite (label_match_small _ (proj1 (Hs r Hr)) (proj2 (Hs r Hr))). apply Z.eqb_eq. exact El.
Qed.
Lemma pd_has_label unit ds i d p pa : det_input unit ds -> nth_error ds i = Some d -> nth_error (t_pds d) p = Some pa ->
  exists l s, nth_error (a_labels pa) 0 = Some l /\ nth_error (a_scores pa) 0 = Some s.
Proof.
  intros Hin Hd Hp. apply nth_error_In in Hd. apply nth_error_In in Hp.
  destruct (proj1 (Forall_forall _ _) Hin d Hd) as (Hok & _ & _). unfold det_ok in Hok.
  apply andb_prop in Hok. destruct Hok as [Hok H3]. apply andb_prop in Hok. destruct Hok as [_ H2].
  rewrite forallb_forall in H2, H3. specialize (H2 pa Hp). specialize (H3 pa Hp). unfold ann_ok in H2.
  destruct (a_labels pa) as [|l ls], (a_scores pa) as [|s ss]; cbn in *; try discriminate. eauto.
Qed.
Lemma gt_one_label unit ds i d g ga : det_input unit ds -> nth_error ds i = Some d -> nth_error (t_gts d) g = Some ga ->
  exists l, a_labels ga = [l].
Proof.
  intros Hin Hd Hg. apply nth_error_In in Hd. apply nth_error_In in Hg.
  destruct (proj1 (Forall_forall _ _) Hin d Hd) as (Hok & Hpl & _). unfold det_ok in Hok.
  apply andb_prop in Hok. destruct Hok as [Hok _]. apply andb_prop in Hok. destruct Hok as [H1 _].
  rewrite forallb_forall in H1. specialize (H1 ga Hg). unfold ann_ok in H1. rewrite (Hpl ga Hg) in H1. cbn in H1.
  destruct (a_labels ga) as [|l [|l' ls]]; cbn in *; try discriminate. eauto.
Qed.
Lemma nothing_lost eps unit ds e : det_input unit ds -> det_evaluator eps unit ds e ->
  (forall i d g ga, nth_error ds i = Some d -> nth_error (t_gts d) g = Some ga ->
     exists r, In r (concat (de_detailed e)) /\ d_uid r = t_uid d /\ d_gt_uid r = Some (a_uid ga) /\ In (d_gt_label r) (map Some (a_labels ga))) /\
  (forall i d p pa k pl s, nth_error ds i = Some d -> nth_error (t_pds d) p = Some pa ->
     nth_error (a_labels pa) k = Some pl -> nth_error (a_scores pa) k = Some s ->
     exists r, In r (concat (de_detailed e)) /\ d_uid r = t_uid d /\ d_pd_uid r = Some (a_uid pa) /\ d_pd_label r = Some pl /\ d_score r = s) /\
  (forall i d g ga p pa k pl s, nth_error ds i = Some d -> nth_error (t_gts d) g = Some ga -> nth_error (t_pds d) p = Some pa ->
     nth_error (a_labels pa) k = Some pl -> nth_error (a_scores pa) k = Some s -> (eps <= t_iou d p g)%Z ->
     exists r, In r (concat (de_detailed e)) /\ d_uid r = t_uid d /\ d_gt_uid r = Some (a_uid ga) /\ d_pd_uid r = Some (a_uid pa) /\
       d_pd_label r = Some pl /\ d_score r = s /\ d_iou r = t_iou d p g).
Proof.
  intros Hin He. destruct (end_rows eps unit ds e Hin He) as (L & Hn & HL & _ & Hrows).
  assert (Ix : forall i d a l, nth_error ds i = Some d -> In a (t_gts d ++ t_pds d) -> In l (a_labels a) -> exists n, index_of l L = Some n).
  { intros i d a l Hd Ha Hl. assert (Hv : In l L); [|destruct (index_of l L) as [n|] eqn:En; [eauto|exfalso; apply (proj1 (index_of_None _ _) En Hv)]]. apply HL. unfold det_labels. apply in_concat. eexists. split.
    - apply in_map. eapply nth_error_In. exact Hd.
    - apply in_concat. eexists. split; [apply in_map; exact Ha|exact Hl]. }
  assert (Pair : forall i d g ga p pa k pl s, nth_error ds i = Some d -> nth_error (t_gts d) g = Some ga -> nth_error (t_pds d) p = Some pa ->
     nth_error (a_labels pa) k = Some pl -> nth_error (a_scores pa) k = Some s -> (eps <= t_iou d p g)%Z ->
     exists r, In r (concat (de_detailed e)) /\ d_uid r = t_uid d /\ d_gt_uid r = Some (a_uid ga) /\ d_pd_uid r = Some (a_uid pa) /\
       d_pd_label r = Some pl /\ d_score r = s /\ d_iou r = t_iou d p g /\ In (d_gt_label r) (map Some (a_labels ga))).
  { intros i d g ga p pa k pl s Hd Hg Hp Hl Hs Hi. destruct (gt_one_label unit ds i d g ga Hin Hd Hg) as (gl & El).
    destruct (Ix i d ga gl Hd) as (gi & Hgi); [apply in_or_app; left; eapply nth_error_In; exact Hg|rewrite El; left; reflexivity|].
    destruct (Ix i d pa pl Hd) as (pi & Hpi); [apply in_or_app; right; eapply nth_error_In; exact Hp|eapply nth_error_In; exact Hl|].
    eexists. split.
    - apply Hrows. apply (Desc_pair eps ds L i d g ga 0 gl gi p pa k pl s pi); try assumption. rewrite El. reflexivity.
    - cbn. do 6 (split; [reflexivity|]). rewrite El. left. reflexivity. }
  split; [|split].
  - intros i d g ga Hd Hg. destruct (existsb (fun p => (eps <=? t_iou d p g)%Z) (seq 0 (List.length (t_pds d)))) eqn:Ex.
    + apply existsb_exists in Ex. destruct Ex as (p & Hp & Hi). apply in_seq in Hp. apply Z.leb_le in Hi.
      destruct (nth_error (t_pds d) p) as [pa|] eqn:Ep; [|apply nth_error_None in Ep; lia].
      destruct (pd_has_label unit ds i d p pa Hin Hd Ep) as (l & s & Hl & Hs).
      destruct (Pair i d g ga p pa 0 l s Hd Hg Ep Hl Hs Hi) as (r & Hr & H1 & H2 & _ & _ & _ & _ & H3). eauto.
    + destruct (gt_one_label unit ds i d g ga Hin Hd Hg) as (gl & El).
      destruct (Ix i d ga gl Hd) as (gi & Hgi); [apply in_or_app; left; eapply nth_error_In; exact Hg|rewrite El; left; reflexivity|].
      eexists. split.
      * apply Hrows. apply (Desc_gt eps ds L i d g ga gl [] gi); try assumption. intros p Hp.
        destruct (Z.ltb_spec (t_iou d p g) eps) as [|Hge]; [assumption|]. exfalso.
        assert (X : existsb (fun p => (eps <=? t_iou d p g)%Z) (seq 0 (List.length (t_pds d))) = true); [|congruence].
        apply existsb_exists. exists p. split; [apply in_seq; lia|apply Z.leb_le; exact Hge].
      * cbn. do 2 (split; [reflexivity|]). rewrite El. left. reflexivity.
  - intros i d p pa k pl s Hd Hp Hl Hs. destruct (existsb (fun g => (eps <=? t_iou d p g)%Z) (seq 0 (List.length (t_gts d)))) eqn:Ex.
    + apply existsb_exists in Ex. destruct Ex as (g & Hg & Hi). apply in_seq in Hg. apply Z.leb_le in Hi.
      destruct (nth_error (t_gts d) g) as [ga|] eqn:Eg; [|apply nth_error_None in Eg; lia].
      destruct (Pair i d g ga p pa k pl s Hd Eg Hp Hl Hs Hi) as (r & Hr & H1 & _ & H2 & H3 & H4 & _). exists r. auto.
    + destruct (Ix i d pa pl Hd) as (pi & Hpi); [apply in_or_app; right; eapply nth_error_In; exact Hp|eapply nth_error_In; exact Hl|].
      eexists. split.
      * apply Hrows. apply (Desc_pd eps ds L i d p pa k pl s pi); try assumption. intros g Hg.
        destruct (Z.ltb_spec (t_iou d p g) eps) as [|Hge]; [assumption|]. exfalso.
        assert (X : existsb (fun g => (eps <=? t_iou d p g)%Z) (seq 0 (List.length (t_gts d))) = true); [|congruence].
        apply existsb_exists. exists g. split; [apply in_seq; lia|apply Z.leb_le; exact Hge].
      * cbn. auto.
  - intros i d g ga p pa k pl s Hd Hg Hp Hl Hs Hi.
    destruct (Pair i d g ga p pa k pl s Hd Hg Hp Hl Hs Hi) as (r & Hr & H). exists r. tauto.
Qed.
