(* Chains of filters of object detection evaluators. *)
From Verif Require Import Prelude Counting CacheModel CacheSpec CacheProofs ClsModel FlowModel
  DetModel DetExModel DetSpec DetFlowModel DetOrderProofs DetReportModel DetEnd DetFilterModel DetFilterSpec DetFilterProofs DetFilterPruned DetFilterMain DetFilterMore
  DetMain DetLoadProofs ClsOrderProofs DetChainSpec.
From Coq Require Import Lia QArith.
From Coq Require String.
Local Open Scope nat_scope.
Local Open Scope list_scope.

Lemma nil_of_nth {A} (l : list A) : (forall j x, nth_error l j = Some x -> False) -> l = [].
Proof. intros H. destruct l as [|a l]; [reflexivity|]. exfalso. exact (H 0 a eq_refl). Qed.
Lemma nothing_iff unit ds w : det_input unit ds -> (nothing_left w ds <-> dnothing ds w).
Proof.
  intros Hin. split.
  - intros H i d Hi. destruct (H d (nth_error_In _ _ Hi)) as (G & P). split.
    + intros g Hg. destruct (v_gt w d g) eqn:V; [|reflexivity]. exfalso. destruct (nth_error (t_gts d) g) as [ga|] eqn:Hga; [|apply nth_error_None in Hga; lia].
      destruct (gts_cover w d g ga Hga V) as (j & Hj). assert (X : nth_error (t_gts (pruned w d)) j = Some ga) by (rewrite gts_tnth, Hj; reflexivity).
      rewrite G in X. destruct j; discriminate.
    + intros p pa l Hpa Hl. destruct (v_pd w d p l) eqn:V; [|reflexivity]. exfalso. assert (Hlen := scores_len unit ds Hin d p pa i Hi Hpa).
      assert (Hv : In l (a_labels (kept_labels w d p pa))) by (apply labels_In; [exact Hlen|]; split; [exact Hl|exact V]).
      destruct (pds_cover w d p pa Hpa) as (j & Hj); [intros X; rewrite X in Hv; destruct Hv|].
      assert (X : nth_error (t_pds (pruned w d)) j = Some (kept_labels w d p pa)) by (rewrite pds_tnth, Hj; reflexivity). rewrite P in X. destruct j; discriminate.
  - intros H d Hd. destruct (In_nth_error _ _ Hd) as (i & Hi). destruct (H i d Hi) as (G & P). split; apply nil_of_nth; intros j x Hx.
    + apply (gts_of w) in Hx. destruct Hx as (g & Hx). apply nth_error_In in Hx. apply filter_In in Hx. destruct Hx as (Hx & V). cbn [fst] in V.
      apply numbered_In in Hx. rewrite G in V; [discriminate|]. apply nth_error_Some. congruence.
    + rewrite pds_tnth in Hx. destruct (nth_error (kept_pds w d) j) as [[p pa']|] eqn:E; [|discriminate].
      destruct (pds_nth w d j p pa' E) as (pa & Hpa & -> & Hne). destruct (a_labels (kept_labels w d p pa)) as [|l ls] eqn:El; [congruence|].
      assert (Hl : In l (a_labels (kept_labels w d p pa))) by (rewrite El; left; reflexivity).
      apply (labels_In w d p pa l (scores_len unit ds Hin d p pa i Hi Hpa)) in Hl. destruct Hl as (Hl & V). rewrite (P p pa l Hpa Hl) in V. discriminate.
Qed.
Lemma nothing_same ds w1 w2 : same_view ds w1 w2 -> dnothing ds w1 -> dnothing ds w2.
Proof.
  intros S H i d Hi. destruct (S i d Hi) as (G & P). destruct (H i d Hi) as (G' & P'). split.
  - intros g Hg. rewrite <- (G g Hg). auto.
  - intros p pa l Hp Hl. rewrite <- (P p pa l Hp Hl). eauto.
Qed.

Section Chain.
  Variables (eps unit : Z) (ds : list detection) (L : list String.string).
  Hypothesis Hin : det_input unit ds.

  Definition dstep (w : dview) (y : dargs) : dview := restrict w (y_sel y) (y_sg y) (y_sp y).
  Lemma dcall_outcome w e y r : dargs_ok ds L y -> shows eps unit ds L w e -> det_call unit e y r ->
    (r = EmptyCache /\ dnothing ds (dstep w y)) \/ (exists e', r = Done e' /\ shows eps unit ds L (dstep w y) e').
  Proof.
    intros (H1 & H2 & H3) He [bs rb|bs rpf rb Hb].
    - destruct (filter_mem_outcome eps unit ds L w e bs rb _ _ _ _ _ _ Hin He H1 H2 H3) as [(X & N)|(e' & X & _)].
      + left. split; [exact X|]. apply (nothing_iff unit ds _ Hin). exact N.
      + right. exists e'. split; [exact X|]. eapply Shows_filter_mem; eassumption.
    - destruct (filter_file_outcome eps unit ds L w e bs rpf rb _ _ _ _ _ _ Hin Hb He H1 H2 H3) as [(X & N)|(e' & X & _)].
      + left. split; [exact X|]. apply (nothing_iff unit ds _ Hin). exact N.
      + right. exists e'. split; [exact X|]. eapply Shows_filter_file; eassumption.
  Qed.
  Lemma dstep_remains w y ys : same_view ds (dremains (dstep w y) ys) (dremains w (y :: ys)).
  Proof.
    intros i d Hi. split; intros; cbn.
    - destruct (forallb _ ys), (y_sel y d), (y_sg y d g), (v_gt w d g); reflexivity.
    - destruct (forallb _ ys), (y_sel y d), (y_sp y d p l), (v_pd w d p l); reflexivity.
  Qed.
  Lemma dview_trans w1 w2 w3 : same_view ds w1 w2 -> same_view ds w2 w3 -> same_view ds w1 w3.
  Proof.
    intros A B i d Hi. destruct (A i d Hi) as (A1 & A2), (B i d Hi) as (B1 & B2). split.
    - intros g Hg. rewrite (A1 g Hg). auto.
    - intros p pa l Hp Hl. rewrite (A2 p pa l Hp Hl). eauto.
  Qed.
  Lemma dview_sym w1 w2 : same_view ds w1 w2 -> same_view ds w2 w1.
  Proof.
    intros A i d Hi. destruct (A i d Hi) as (A1 & A2). split; intros; symmetry; eauto.
  Qed.
  Lemma nothing_remains w ys : dnothing ds w -> dnothing ds (dremains w ys).
  Proof.
    intros H i d Hi. destruct (H i d Hi) as (G & P). split; intros; cbn.
    - rewrite G by assumption. apply andb_false_r.
    - rewrite (P p pa l) by assumption. apply andb_false_r.
  Qed.

  Lemma dcalls_outcome e ys r : det_calls unit e ys r -> forall w, Forall (dargs_ok ds L) ys -> shows eps unit ds L w e ->
    (r = EmptyCache /\ dnothing ds (dremains w ys))
    \/ (exists e' w', r = Done e' /\ shows eps unit ds L w' e' /\ same_view ds w' (dremains w ys)).
  Proof.
    induction 1 as [e|e y ys r Hy Hr|e y ys e1 r Hy Hys IH]; intros w Hok He.
    - right. exists e, w. split; [reflexivity|]. split; [exact He|]. intros i d _. split; intros; reflexivity.
    - left. inversion_clear Hok. destruct (dcall_outcome w e y r ltac:(assumption) He Hy) as [[-> E]|(e' & -> & _)]; [|exfalso; apply (Hr e'); reflexivity].
      split; [reflexivity|]. apply (nothing_same ds _ _ (dstep_remains w y ys)). apply nothing_remains. exact E.
    - inversion_clear Hok. destruct (dcall_outcome w e y _ ltac:(assumption) He Hy) as [[E _]|(e' & E & He')]; [discriminate|]. injection E as <-.
      destruct (IH _ ltac:(assumption) He') as [[-> F]|(e2 & w2 & -> & He2 & F)].
      + left. split; [reflexivity|]. apply (nothing_same ds _ _ (dstep_remains w y ys)). exact F.
      + right. exists e2, w2. split; [reflexivity|]. split; [exact He2|]. apply (dview_trans _ _ _ F (dstep_remains w y ys)).
  Qed.
  Lemma shows_something w w' e : shows eps unit ds L w' e -> same_view ds w' w -> ~ dnothing ds w.
  Proof.
    intros He S H. apply (shown_rows eps unit ds L w' e Hin He).
    assert (Hw := g_world _ _ _ _ _ _ (shows_good eps unit ds L _ e Hin He)). apply (world_nothing eps unit) in Hw; [|exact Hin].
    apply Hw. apply (nothing_iff unit ds _ Hin). apply (nothing_same ds w w'); [|exact H].
    apply dview_sym. exact S.
  Qed.
  Lemma select_view w1 w2 sel : same_view ds w1 w2 -> same_view ds (by_selection w1 sel) (by_selection w2 sel).
  Proof.
    intros A i d Hi. destruct (A i d Hi) as (A1 & A2). split; intros; cbn.
    - rewrite A1 by assumption. reflexivity.
    - rewrite (A2 p pa l) by assumption. reflexivity.
  Qed.

  Theorem det_chains_agree w e1 e2 xs ys r1 r2 : (0 < eps)%Z -> (0 <= unit)%Z -> few_det_labels ds -> Forall distinct_pd_labels ds ->
    Forall (dargs_ok ds L) xs -> Forall (dargs_ok ds L) ys ->
    shows eps unit ds L w e1 -> shows eps unit ds L w e2 -> det_calls unit e1 xs r1 -> det_calls unit e2 ys r2 ->
    same_view ds (dremains w ys) (dremains w xs) ->
    (r1 = EmptyCache /\ r2 = EmptyCache /\ dnothing ds (dremains w xs))
    \/ (exists f1 f2, r1 = Done f1 /\ r2 = Done f2 /\ same_det_reports eps ds f1 f2).
  Proof.
    intros Heps Hunit Hf Hdl Hx Hy He1 He2 R1 R2 S.
    destruct (dcalls_outcome _ _ _ R1 w Hx He1) as [[-> E1]|(f1 & w1 & -> & F1 & V1)];
    destruct (dcalls_outcome _ _ _ R2 w Hy He2) as [[-> E2]|(f2 & w2 & -> & F2 & V2)].
    - left. auto.
    - exfalso. apply (shows_something _ w2 f2 F2 V2). apply (nothing_same ds (dremains w xs)); [|exact E1].
      apply dview_sym. exact S.
    - exfalso. apply (shows_something _ w1 f1 F1 V1). apply (nothing_same ds _ _ S E2).
    - right. exists f1, f2. split; [reflexivity|]. split; [reflexivity|].
      assert (V : same_view ds w1 w2).
      { apply (dview_trans w1 (dremains w xs) w2 V1). apply (dview_trans _ (dremains w ys)); apply dview_sym; assumption. }
      pose proof (fun datums sel (H : det_selects ds datums sel) =>
        shown_all eps unit ds L L w1 w2 f1 f2 Heps Hunit Hin Hf Hdl F1 F2 datums datums sel sel H H (select_view w1 w2 sel V)) as A.
      split.
      + refine (proj1 (A (fun _ => true) (fun _ => true) _)). intros r i d _ _ _. reflexivity.
      + intros datums sel H. exact (proj2 (A datums sel H)).
  Qed.
End Chain.

Theorem det_any_order eps unit ds L w e1 e2 xs ys r1 r2 : (0 < eps)%Z -> (0 <= unit)%Z -> det_input unit ds -> few_det_labels ds -> Forall distinct_pd_labels ds ->
  Forall (dargs_ok ds L) xs -> Permutation xs ys ->
  shows eps unit ds L w e1 -> shows eps unit ds L w e2 -> det_calls unit e1 xs r1 -> det_calls unit e2 ys r2 ->
  (r1 = EmptyCache /\ r2 = EmptyCache /\ dnothing ds (dremains w xs))
  \/ (exists f1 f2, r1 = Done f1 /\ r2 = Done f2 /\ same_det_reports eps ds f1 f2).
Proof.
  intros Heps Hunit Hin Hf Hdl Hx P He1 He2 R1 R2. apply (det_chains_agree eps unit ds L Hin w e1 e2 xs ys r1 r2); try assumption.
  - apply Forall_forall. intros y Hy. rewrite Forall_forall in Hx. apply Hx. apply (Permutation_in y (Permutation_sym P) Hy).
  - intros i d _. split; intros; cbn; rewrite (forallb_perm _ _ _ P); reflexivity.
Qed.

Lemma dtogether_ok ds L ys : Forall (dargs_ok ds L) ys -> dargs_ok ds L (dtogether ys).
Proof.
  intros H. rewrite Forall_forall in H. split; [|split].
  - intros r i d E1 E2 Hi. cbn. apply forallb_same. intros y Hy. apply (proj1 (H y Hy) r i d E1 E2 Hi).
  - intros d i g Hi Hg r Hr. cbn. apply forallb_same. intros y Hy. pose proof (proj1 (proj2 (H y Hy)) d i g Hi Hg) as X.
    unfold dopt_holds. destruct (y_gts y) as [f|]; [exact (X r Hr)|symmetry; exact X].
  - intros d i p pa v Hi Hp Hv r s Hr. cbn. apply forallb_same. intros y Hy. pose proof (proj2 (proj2 (H y Hy)) d i p pa v Hi Hp Hv) as X.
    unfold dopt_holds. destruct (y_pds y) as [f|]; [exact (X r s Hr)|symmetry; exact X].
Qed.
Theorem det_in_one_call eps unit ds L w e1 e2 xs r1 r2 : (0 < eps)%Z -> (0 <= unit)%Z -> det_input unit ds -> few_det_labels ds -> Forall distinct_pd_labels ds ->
  Forall (dargs_ok ds L) xs ->
  shows eps unit ds L w e1 -> shows eps unit ds L w e2 -> det_calls unit e1 xs r1 -> det_call unit e2 (dtogether xs) r2 ->
  (r1 = EmptyCache /\ r2 = EmptyCache /\ dnothing ds (dremains w xs))
  \/ (exists f1 f2, r1 = Done f1 /\ r2 = Done f2 /\ same_det_reports eps ds f1 f2).
Proof.
  intros Heps Hunit Hin Hf Hdl Hx He1 He2 R1 R2. pose proof (dtogether_ok ds L xs Hx) as HT.
  apply (det_chains_agree eps unit ds L Hin w e1 e2 xs [dtogether xs] r1 r2); try assumption.
  - constructor; [exact HT|constructor].
  - destruct (dcall_outcome eps unit ds L Hin w e2 _ r2 HT He2 R2) as [[-> _]|(e' & -> & _)].
    + apply dcalls_raise; [exact R2|discriminate].
    + eapply dcalls_cons; [exact R2|constructor].
  - intros i d _. split; intros; cbn; rewrite andb_true_r, forallb_and; reflexivity.
Qed.
