(* Classification filters in different orders. *)
From Verif Require Import Prelude Counting CacheModel CacheSpec ClsModel ClsSpec ClsLabelProofs ClsProofs ClsConfProofs RocModel RocProofs RocMain RocCurve
  FlowModel FlowProofs FlowMore ClsLemmas ClsMore ClsFilterModel ClsFilterSpec ClsFilterProofs ClsFilterCounts ClsFilterMain ClsFilterRoc
  ClsReportModel ClsReportSpec ClsReportProofs ClsReportMore ClsOrderSpec.
From Coq Require Import String QArith.
Local Notation length := List.length (only parsing).
Local Notation concat := List.concat (only parsing).
Local Open Scope nat_scope.
Local Open Scope list_scope.

(* ---------------------------------------------------------------- what the reports read *)
Lemma positives_in hm pass c l : In l (positives hm pass c) -> In l (c_predictions c).
Proof.
  intros H.
  assert (X : exists s, In (l, s) (candidates c)).
  { unfold positives in H. destruct hm.
    - destruct (top c) as [[k s]|] eqn:E; [|destruct H]. destruct (pass s); [|destruct H]. destruct H as [->|[]]. exists s.
      apply top_In. exact E.
    - apply in_map_iff in H. destruct H as ([k s] & <- & H). apply filter_In in H. exists s. apply H. }
  destruct X as (s & Hs). apply in_combine_l in Hs. exact Hs.
Qed.
Section Views.
  Variables (cs : list classification) (u1 u2 : cview).
  Hypothesis HU : same_cview cs u1 u2.

  Lemma vpositives_same hm pass c : In c cs -> vpositives u1 hm pass c = vpositives u2 hm pass c.
  Proof. intros Hc. apply filter_ext_in. intros l Hl. apply HU; [exact Hc|]. apply (positives_in hm pass c l Hl). Qed.
  Lemma viewed_same c : In c cs -> viewed u1 c = viewed u2 c.
  Proof.
    intros Hc. unfold viewed. rewrite (filter_ext_in (fun p => u1 c (fst p)) (fun p => u2 c (fst p))); [reflexivity|].
    intros [l s] Hp. apply HU; [exact Hc|]. apply in_combine_l in Hp. exact Hp.
  Qed.
  Lemma visible_same c : In c cs -> visible u1 c = visible u2 c.
  Proof.
    intros Hc. unfold visible. assert (X : forall l, In l (c_predictions c) -> u1 c l = u2 c l) by (intros l Hl; apply HU; assumption). revert X.
    generalize (c_predictions c). intros ls. induction ls as [|l ls IH]; intros X; [reflexivity|]. cbn. rewrite (X l (or_introl eq_refl)), IH; [reflexivity|].
    intros; apply X; right; assumption.
  Qed.
  Lemma countb_same_in {A} (f g : A -> bool) l : (forall x, In x l -> f x = g x) -> countb f l = countb g l.
  Proof. intros H. unfold countb. rewrite (filter_ext_in f g l H). reflexivity. Qed.
  Lemma data_counts_same hm pass l : data_counts u1 hm pass cs l = data_counts u2 hm pass cs l.
  Proof.
    unfold data_counts. f_equal; apply countb_same_in; intros c Hc; unfold v_tp, v_fp, v_fn, v_tn; rewrite ?(viewed_same c Hc), (vpositives_same hm pass c Hc); reflexivity.
  Qed.
  Lemma data_cell_same hm pass g p : data_cell u1 hm pass cs g p = data_cell u2 hm pass cs g p.
  Proof. apply countb_same_in. intros c Hc. rewrite (vpositives_same hm pass c Hc). reflexivity. Qed.
  Lemma data_missed_same hm pass g : data_missed u1 hm pass cs g = data_missed u2 hm pass cs g.
  Proof. apply countb_same_in. intros c Hc. rewrite (vpositives_same hm pass c Hc), (visible_same c Hc). reflexivity. Qed.
  Lemma outcomes_same l : outcomes l (reduced u1 cs) = outcomes l (reduced u2 cs).
  Proof.
    rewrite !outcomes_reduced. f_equal. apply map_ext_in. intros c Hc.
    destruct (filter (fun p => String.eqb (fst p) l) (candidates c)) as [|[k s] r] eqn:E; [destruct (u1 c l), (u2 c l); reflexivity|].
    assert (Hk : In (k, s) (filter (fun p => String.eqb (fst p) l) (candidates c))) by (rewrite E; left; reflexivity).
    apply filter_In in Hk. destruct Hk as [Hk Ek]. cbn [fst] in Ek. apply String.eqb_eq in Ek. subst k. apply in_combine_l in Hk.
    rewrite (HU c l Hc Hk). reflexivity.
  Qed.
End Views.

Section Same.
  Variable cs : list classification.
  Hypothesis Hdist : Forall distinct_candidates cs.
  Variables (w1 w2 : cview) (e1 e2 : ceval).
  Hypothesis He1 : cls_evaluator cs w1 e1.
  Hypothesis He2 : cls_evaluator cs w2 e2.

  Theorem view_metrics tol hm thrs d1 d2 sel1 sel2 : few_labels cs -> expresses cs d1 sel1 -> expresses cs d2 sel2 -> thrs <> [] ->
    same_cview cs (cselect w1 sel1) (cselect w2 sel2) ->
    exists m1 m2, report_metrics e1 tol hm thrs d1 = Some m1 /\ report_metrics e2 tol hm thrs d2 = Some m2 /\
      Permutation (mt_counts m1) (mt_counts m2) /\ Permutation (mt_precision m1) (mt_precision m2) /\
      Permutation (mt_recall m1) (mt_recall m2) /\ Permutation (mt_f1 m1) (mt_f1 m2) /\
      (same_cview cs w1 w2 -> mt_accuracy m1 = mt_accuracy m2).
  Proof.
    intros Hf H1 H2 Hne HU.
    destruct (metrics_report cs Hdist w1 e1 He1 Hf tol hm thrs d1 sel1 H1 Hne) as (ls1 & P1 & _ & E1).
    destruct (metrics_report cs Hdist w2 e2 He2 Hf tol hm thrs d2 sel2 H2 Hne) as (ls2 & P2 & _ & E2).
    cbn zeta in E1, E2. rewrite E1, E2. do 2 eexists. split; [reflexivity|]. split; [reflexivity|].
    cbn [mt_accuracy mt_counts mt_precision mt_recall mt_f1].
    assert (PL : Permutation ls1 ls2) by (etransitivity; [exact P1|symmetry; exact P2]).
    split; [|split; [|split; [|split]]]; try (apply table_of_perm; auto; intros l t; rewrite (data_counts_same cs _ _ HU); reflexivity).
    intros HW. apply map_ext. intros t. unfold data_accuracy.
    rewrite (countb_same_in _ (fun c => smem (c_groundtruth c) (vpositives (cselect w2 sel2) hm (pass_counts tol t) c)) cs)
      by (intros c Hc; rewrite (vpositives_same cs _ _ HU hm _ c Hc); reflexivity).
    rewrite (countb_same_in (visible w1) (visible w2) cs (fun c Hc => visible_same cs _ _ HW c Hc)). reflexivity.
  Qed.

  Theorem view_confusion tol9 hm thrs d1 d2 sel1 sel2 : expresses cs d1 sel1 -> expresses cs d2 sel2 -> thrs <> [] ->
    same_cview cs (cselect w1 sel1) (cselect w2 sel2) ->
    exists o1 o2, report_confusion e1 tol9 hm thrs d1 = Some o1 /\ report_confusion e2 tol9 hm thrs d2 = Some o2 /\
      length o1 = length o2 /\
      forall k t1 C1 U1 t2 C2 U2, nth_error o1 k = Some (t1, (C1, U1)) -> nth_error o2 k = Some (t2, (C2, U2)) ->
        t1 = t2 /\ (forall g p, cell C1 g p = cell C2 g p) /\ (forall g, sget U1 g = sget U2 g).
  Proof.
    intros H1 H2 Hne HU.
    destruct (confusion_report cs Hdist w1 e1 He1 tol9 hm thrs d1 sel1 H1 Hne) as (ls1 & P1 & _ & o1 & E1 & F1 & N1).
    destruct (confusion_report cs Hdist w2 e2 He2 tol9 hm thrs d2 sel2 H2 Hne) as (ls2 & P2 & _ & o2 & E2 & F2 & N2).
    exists o1, o2. split; [exact E1|]. split; [exact E2|].
    assert (L1 : length o1 = length thrs) by (rewrite <- F1, map_length; reflexivity).
    assert (L2 : length o2 = length thrs) by (rewrite <- F2, map_length; reflexivity).
    split; [congruence|]. intros k t1 C1 U1 t2 C2 U2 K1 K2.
    assert (Hk : k < length thrs) by (rewrite <- L1; apply nth_error_Some; congruence).
    destruct (nth_error thrs k) as [thr|] eqn:Et; [|apply nth_error_None in Et; lia].
    pose proof (N1 k thr Et) as Q1. pose proof (N2 k thr Et) as Q2. cbn zeta in Q1, Q2.
    rewrite Q1 in K1. rewrite Q2 in K2. injection K1 as <- <- <-. injection K2 as <- <- <-.
    assert (PL : Permutation ls1 ls2) by (etransitivity; [exact P1|symmetry; exact P2]).
    split; [reflexivity|]. split.
    - intros g p. rewrite !cell_map, (smem_perm g _ _ PL), (smem_perm p _ _ PL), (data_cell_same cs _ _ HU). reflexivity.
    - intros g. rewrite !sget_map, (smem_perm g _ _ PL), (data_missed_same cs _ _ HU). reflexivity.
  Qed.

  Theorem view_info d1 d2 sel1 sel2 : expresses cs d1 sel1 -> expresses cs d2 sel2 -> same_cview cs w1 w2 ->
    same_cview cs (cselect w1 sel1) (cselect w2 sel2) -> cls_info d1 e1 = cls_info d2 e2.
  Proof.
    intros H1 H2 HW HU. rewrite (ev_info cs Hdist w1 e1 He1 d1 sel1 H1), (ev_info cs Hdist w2 e2 He2 d2 sel2 H2).
    f_equal; [f_equal|].
    - f_equal. apply map_ext_in. intros c Hc. apply countb_same_in. intros l Hl. apply HW; assumption.
    - apply countb_same_in. intros c Hc. apply (visible_same cs _ _ HU c Hc).
  Qed.

  Theorem view_rocauc l : same_cview cs w1 w2 -> In l (labels_of cs) -> safe_curve w1 cs e1 l -> safe_curve w2 cs e2 l ->
    exists v1 v2, sget (fst (report_rocauc e1)) l = Some (Some v1) /\ sget (fst (report_rocauc e2)) l = Some (Some v2) /\ (v1 == v2)%Q.
  Proof.
    intros HW Hl S1 S2. destruct (In_nth_error _ _ Hl) as (i & N). assert (N1 := N). assert (N2 := N).
    apply (ev_labels cs Hdist w1 e1 He1) in N1. apply (ev_labels cs Hdist w2 e2 He2) in N2.
    destruct (same_rocauc cs w1 e1 cs w2 e2 l i i Hdist Hdist He1 He2 N1 N2 (S1 _ N1) (S2 _ N2)) as (v1 & v2 & V1 & V2 & E).
    - rewrite (outcomes_same cs w1 w2 HW). reflexivity.
    - apply countb_same_in. intros c Hc. rewrite (visible_same cs w1 w2 HW c Hc). reflexivity.
    - exists v1, v2. split; [exact (rocauc_entry w1 cs e1 Hdist He1 l i v1 N1 V1)|].
      split; [exact (rocauc_entry w2 cs e2 Hdist He2 l i v2 N2 V2)|exact E].
  Qed.
End Same.

(* ---------------------------------------------------------------- two filters *)
Lemma restrict_plain cs w sel sg sp c l : about_datum cs sg -> In c cs -> In l (c_predictions c) ->
  crestrict w sel sg sp c l = w c l && sel c l && sg c l && sp c l.
Proof.
  intros HA Hc Hl. unfold crestrict. destruct (w c l && sel c l) eqn:E; [|reflexivity]. cbn [andb]. f_equal.
  destruct (sg c l) eqn:G.
  - apply existsb_exists. exists l. split; [exact Hl|]. rewrite E, G. reflexivity.
  - destruct (existsb _ (c_predictions c)) eqn:X; [|reflexivity]. apply existsb_exists in X. destruct X as (x & Hx & Y).
    apply andb_true_iff in Y. destruct Y as [_ Y]. rewrite (HA c x l Hc Hx Hl) in Y. congruence.
Qed.

(* ---------------------------------------------------------------- chains of filters *)
Section Chain.
  Variable cs : list classification.
  Hypothesis Hdist : Forall distinct_candidates cs.

  Lemma call_outcome w e x r : fargs_ok cs x -> cls_evaluator cs w e -> filter_call e x r ->
    (r = EmptyCache /\ forall c l, In c cs -> In l (c_predictions c) -> crestrict w (x_sel x) (x_sg x) (x_sp x) c l = false)
    \/ (exists e', r = Done e' /\ cls_evaluator cs (crestrict w (x_sel x) (x_sg x) (x_sp x)) e').
  Proof.
    intros (H1 & H2 & H3 & _) He [bs rb|bs rpf rb Hb].
    - destruct (filter_mem_outcome cs Hdist w _ _ _ e He _ _ _ H1 H2 H3 bs rb) as [X|(e' & X & _)]; [left; exact X|right].
      exists e'. split; [exact X|]. eapply cls_filtered_mem; eassumption.
    - destruct (filter_file_outcome cs Hdist w _ _ _ e He _ _ _ H1 H2 H3 bs rpf rb Hb) as [X|(e' & X & _)]; [left; exact X|right].
      exists e'. split; [exact X|]. eapply cls_filtered_file; eassumption.
  Qed.
  Lemma step_view w w0 x xs : fargs_ok cs x -> same_cview cs w w0 ->
    same_cview cs (remains (crestrict w (x_sel x) (x_sg x) (x_sp x)) xs) (remains w0 (x :: xs)).
  Proof.
    intros (_ & _ & _ & Hx) Hw c l Hc Hl. unfold remains. cbn [forallb]. rewrite (restrict_plain cs) by assumption.
    rewrite (Hw c l Hc Hl). unfold selects. destruct (w0 c l), (x_sel x c l), (x_sg x c l), (x_sp x c l); reflexivity.
  Qed.
  Lemma same_view_refl w : same_cview cs w w.
  Proof. intros c l _ _. reflexivity. Qed.

  Lemma calls_outcome e xs r : filter_calls e xs r -> forall w, Forall (fargs_ok cs) xs -> cls_evaluator cs w e ->
    (r = EmptyCache /\ forall c l, In c cs -> In l (c_predictions c) -> remains w xs c l = false)
    \/ (exists e' w', r = Done e' /\ cls_evaluator cs w' e' /\ same_cview cs w' (remains w xs)).
  Proof.
    induction 1 as [e|e x xs r Hx Hr|e x xs e1 r Hx Hxs IH]; intros w Hok He.
    - right. exists e, w. split; [reflexivity|]. split; [exact He|]. intros c l _ _. unfold remains. cbn. rewrite andb_true_r. reflexivity.
    - left. inversion_clear Hok. destruct (call_outcome w e x r ltac:(assumption) He Hx) as [[-> E]|(e' & -> & _)]; [|exfalso; apply (Hr e'); reflexivity].
      split; [reflexivity|]. intros c l Hc Hl. rewrite <- (step_view w w x xs ltac:(assumption) (same_view_refl w) c l Hc Hl).
      unfold remains. rewrite (E c l Hc Hl). reflexivity.
    - inversion_clear Hok. destruct (call_outcome w e x _ ltac:(assumption) He Hx) as [[E _]|(e' & E & He')]; [discriminate|]. injection E as <-.
      destruct (IH _ ltac:(assumption) He') as [[-> F]|(e2 & w2 & -> & He2 & F)].
      + left. split; [reflexivity|]. intros c l Hc Hl. rewrite <- (step_view w w x xs ltac:(assumption) (same_view_refl w) c l Hc Hl). apply F; assumption.
      + right. exists e2, w2. split; [reflexivity|]. split; [exact He2|]. intros c l Hc Hl. rewrite (F c l Hc Hl).
        apply (step_view w w x xs ltac:(assumption) (same_view_refl w) c l Hc Hl).
  Qed.

  Lemma select_same u1 u2 sel : same_cview cs u1 u2 -> same_cview cs (cselect u1 sel) (cselect u2 sel).
  Proof. intros H c l Hc Hl. unfold cselect. rewrite (H c l Hc Hl). reflexivity. Qed.
  Lemma safe_same w1 w2 e l : same_cview cs w1 w2 -> safe_curve w2 cs e l -> safe_curve w1 cs e l.
  Proof. intros H S i Hi. rewrite (outcomes_same cs w1 w2 H l). exact (S i Hi). Qed.

  Theorem reports_same w w1 w2 e1 e2 : cls_evaluator cs w1 e1 -> cls_evaluator cs w2 e2 ->
    same_cview cs w1 w -> same_cview cs w2 w -> same_reports cs w e1 e2.
  Proof.
    intros He1 He2 S1 S2 d sel Hd.
    assert (S : same_cview cs w1 w2) by (intros c l Hc Hl; rewrite (S1 c l Hc Hl), (S2 c l Hc Hl); reflexivity).
    pose proof (select_same w1 w2 sel S) as SS.
    split; [exact (view_info cs Hdist w1 w2 e1 e2 He1 He2 d d sel sel Hd Hd S SS)|]. split; [|split].
    - intros tol hm thrs Hf Hne.
      destruct (view_metrics cs Hdist w1 w2 e1 e2 He1 He2 tol hm thrs d d sel sel Hf Hd Hd Hne SS) as (m1 & m2 & E1 & E2 & A & B & C & D & F).
      exists m1, m2. split; [exact E1|]. split; [exact E2|]. repeat (split; [assumption|]). exact (F S).
    - intros tol9 hm thrs Hne. exact (view_confusion cs Hdist w1 w2 e1 e2 He1 He2 tol9 hm thrs d d sel sel Hd Hd Hne SS).
    - intros l Hl C1 C2. exact (view_rocauc cs Hdist w1 w2 e1 e2 He1 He2 l S Hl (safe_same w1 w e1 l S1 C1) (safe_same w2 w e2 l S2 C2)).
  Qed.

  Lemma remaining_none w w' e : cls_evaluator cs w' e -> same_cview cs w' w ->
    ~ (forall c l, In c cs -> In l (c_predictions c) -> w c l = false).
  Proof.
    intros He S H. destruct (ev_nonempty cs Hdist _ e He) as (c & Hc & Hv). apply existsb_exists in Hv. destruct Hv as (l & Hl & Hw).
    rewrite (S c l Hc Hl), (H c l Hc Hl) in Hw. discriminate.
  Qed.

  (* two chains that leave the same candidates end alike *)
  Theorem chains_agree w e1 e2 xs ys r1 r2 : Forall (fargs_ok cs) xs -> Forall (fargs_ok cs) ys ->
    cls_evaluator cs w e1 -> cls_evaluator cs w e2 -> filter_calls e1 xs r1 -> filter_calls e2 ys r2 ->
    same_cview cs (remains w ys) (remains w xs) ->
    (r1 = EmptyCache /\ r2 = EmptyCache /\ forall c l, In c cs -> In l (c_predictions c) -> remains w xs c l = false)
    \/ (exists f1 f2, r1 = Done f1 /\ r2 = Done f2 /\ same_reports cs (remains w xs) f1 f2).
  Proof.
    intros Hx Hy He1 He2 R1 R2 S.
    destruct (calls_outcome _ _ _ R1 w Hx He1) as [[-> E1]|(f1 & w1 & -> & F1 & V1)];
    destruct (calls_outcome _ _ _ R2 w Hy He2) as [[-> E2]|(f2 & w2 & -> & F2 & V2)].
    - left. auto.
    - exfalso. apply (remaining_none (remains w ys) w2 f2 F2 V2). intros c l Hc Hl. rewrite (S c l Hc Hl). auto.
    - exfalso. apply (remaining_none (remains w xs) w1 f1 F1 V1). intros c l Hc Hl. rewrite <- (S c l Hc Hl). auto.
    - right. exists f1, f2. split; [reflexivity|]. split; [reflexivity|]. apply (reports_same _ w1 w2 f1 f2 F1 F2 V1).
      intros c l Hc Hl. rewrite (V2 c l Hc Hl). apply S; assumption.
  Qed.
End Chain.

Lemma forallb_perm {A} (f : A -> bool) l l' : Permutation l l' -> forallb f l = forallb f l'.
Proof. induction 1; cbn; try congruence. destruct (f x), (f y); reflexivity. Qed.

Theorem any_order cs w e1 e2 xs ys r1 r2 : Forall distinct_candidates cs -> Forall (fargs_ok cs) xs -> Permutation xs ys ->
  cls_evaluator cs w e1 -> cls_evaluator cs w e2 -> filter_calls e1 xs r1 -> filter_calls e2 ys r2 ->
  (r1 = EmptyCache /\ r2 = EmptyCache /\ forall c l, In c cs -> In l (c_predictions c) -> remains w xs c l = false)
  \/ (exists f1 f2, r1 = Done f1 /\ r2 = Done f2 /\ same_reports cs (remains w xs) f1 f2).
Proof.
  intros Hd Hx P He1 He2 R1 R2. apply (chains_agree cs Hd w e1 e2 xs ys r1 r2 Hx); try assumption.
  - apply Forall_forall. intros y Hy. rewrite Forall_forall in Hx. apply Hx. apply (Permutation_in y (Permutation_sym P) Hy).
  - intros c l _ _. unfold remains. rewrite (forallb_perm _ _ _ P). reflexivity.
Qed.

Lemma forallb_and {A} (f g : A -> bool) l : forallb (fun x => f x && g x) l = forallb f l && forallb g l.
Proof. induction l as [|a l IH]; [reflexivity|]. cbn. rewrite IH. destruct (f a), (g a), (forallb f l), (forallb g l); reflexivity. Qed.
Lemma forallb_same {A} (f g : A -> bool) l : (forall x, In x l -> f x = g x) -> forallb f l = forallb g l.
Proof. induction l as [|a l IH]; intros H; [reflexivity|]. cbn. rewrite (H a (or_introl eq_refl)), IH; [reflexivity|]. intros; apply H; right; assumption. Qed.
Lemma opt_says cs f p : opt_expresses cs f p -> expresses cs (opt_holds f) p.
Proof. destruct f as [f|]; cbn; intros H; [exact H|]. intros r d c _ _ _. symmetry. apply H. Qed.
Lemma together_ok cs xs : Forall (fargs_ok cs) xs -> fargs_ok cs (together xs).
Proof.
  intros H. rewrite Forall_forall in H. split; [|split; [|split]].
  - intros r d c Hr Ed Hc. cbn. apply forallb_same. intros x Hx. apply (proj1 (H x Hx) r d c Hr Ed Hc).
  - intros r d c Hr Ed Hc. cbn. apply forallb_same. intros x Hx. apply (opt_says cs _ _ (proj1 (proj2 (H x Hx))) r d c Hr Ed Hc).
  - intros r d c Hr Ed Hc. cbn. apply forallb_same. intros x Hx. apply (opt_says cs _ _ (proj1 (proj2 (proj2 (H x Hx)))) r d c Hr Ed Hc).
  - intros c l l' Hc Hl Hl'. cbn. apply forallb_same. intros x Hx. apply (proj2 (proj2 (proj2 (H x Hx))) c l l' Hc Hl Hl').
Qed.
Theorem in_one_call cs w e1 e2 xs r1 r2 : Forall distinct_candidates cs -> Forall (fargs_ok cs) xs ->
  cls_evaluator cs w e1 -> cls_evaluator cs w e2 -> filter_calls e1 xs r1 -> filter_call e2 (together xs) r2 ->
  (r1 = EmptyCache /\ r2 = EmptyCache /\ forall c l, In c cs -> In l (c_predictions c) -> remains w xs c l = false)
  \/ (exists f1 f2, r1 = Done f1 /\ r2 = Done f2 /\ same_reports cs (remains w xs) f1 f2).
Proof.
  intros Hd Hx He1 He2 R1 R2. pose proof (together_ok cs xs Hx) as HT.
  apply (chains_agree cs Hd w e1 e2 xs [together xs] r1 r2 Hx); try assumption.
  - constructor; [exact HT|constructor].
  - destruct (call_outcome cs Hd w e2 _ r2 HT He2 R2) as [[-> _]|(e' & -> & _)].
    + apply calls_raise; [exact R2|discriminate].
    + eapply calls_cons; [exact R2|constructor].
  - intros c l _ _. unfold remains. cbn [forallb]. rewrite andb_true_r. f_equal. unfold selects. rewrite !forallb_and. reflexivity.
Qed.
