(* The float report of object detection against the exact one (C112, C113). *)
From Verif Require Import Prelude Counting CacheModel ClsModel ClsLemmas FlowModel DetModel DetFlowModel DetReportModel DetSpec DetRankProofs DetCountProofs DetApProofs DetMain DetApEnd DetEnd DetMore
  FloatModel FloatProofs FloatCurveProofs RndProofs FReportModel FReportSpec FReportProofs FReportMain.
From Verif Require SegModel SegMetricProofs.
From Coq Require Import Lia String QArith Qabs Qminmax Lqa Permutation.
Local Notation length := List.length (only parsing).
Local Notation concat := List.concat (only parsing).
Local Open Scope Z_scope.

(* ------------------------------------------------------------------ means *)
Local Notation nearby d := (fun q v => Qabs (v - q) <= d)%Q.
Lemma total_near d E F : Forall2 (nearby d) E F -> (Qabs (total F - total E) <= zlen E * d)%Q.
Proof.
  induction 1 as [|q v E F H _ IH]; [vm_compute; discriminate|]. cbn [total fold_right List.length]. fold (total E) (total F).
  rewrite Nat2Z.inj_succ, <- Z.add_1_l, inject_Z_plus. apply Qabs_Qle_condition in H, IH. apply Qabs_Qle_condition.
  change (inject_Z 1) with 1%Q. split; lra.
Qed.
Lemma Forall2_len {A B} (R : A -> B -> Prop) l m : Forall2 R l m -> List.length l = List.length m.
Proof. induction 1; cbn; congruence. Qed.
Lemma reports_near d E F v : Forall2 (nearby d) E F -> F <> [] -> reports_mean F v ->
  (Qabs (v - total E / zlen E) <= d + zlen E * half_ulp)%Q.
Proof.
  intros H NE (_ & _ & _ & _ & M). pose proof (total_near d E F H) as T. pose proof (Forall2_len _ _ _ H) as L.
  rewrite <- L in M. assert (P : (0 < zlen E)%Q).
  { apply inject_pos. destruct F; [congruence|]. rewrite L. cbn [List.length]. lia. }
  assert (D : (Qabs (total F / zlen E - total E / zlen E) <= d)%Q).
  { assert (X : (total F / zlen E - total E / zlen E == (total F - total E) / zlen E)%Q) by (field; lra).
    rewrite X. unfold Qdiv. rewrite Qabs_Qmult. rewrite (Qabs_pos (/ zlen E)).
    - change (Qabs (total F - total E) / zlen E <= d)%Q. apply Qle_shift_div_r; [exact P|]. lra.
    - apply Qlt_le_weak, Qinv_lt_0_compat. exact P. }
  apply Qabs_Qle_condition in M, D. apply Qabs_Qle_condition. split; lra.
Qed.
Lemma qsum_total l : qsum l = total l.
Proof. reflexivity. Qed.

(* ------------------------------------------------------------------ counts *)
Definition ranked_rows (e : deval) : Z := Z.of_nat (length (concat (de_ranked e))).
Lemma eval_counts_rows eps t s datums l tables :
  (dc_tp (eval_counts eps t s datums tables l) + dc_fp (eval_counts eps t s datums tables l) <= length (concat tables))%nat.
Proof.
  assert (G : forall tbs c, (dc_tp (fold_left (fun acc tb => dc_add acc (det_counts_at eps t s (filter datums tb) l)) tbs c)
      + dc_fp (fold_left (fun acc tb => dc_add acc (det_counts_at eps t s (filter datums tb) l)) tbs c)
      <= dc_tp c + dc_fp c + length (concat tbs))%nat).
  { induction tbs as [|tb u IH]; intros c; [cbn; lia|]. cbn [fold_left concat]. rewrite app_length. etransitivity; [apply IH|]. cbn [dc_add dc_tp dc_fp].
    pose proof (tp_plus_fp eps t s (filter datums tb) l) as E. pose proof (countb_le_length (fun r => score_ok eps s r && (d_pl r =? l)%Z) (filter datums tb)) as B.
    pose proof (filter_length_le datums tb). lia. }
  apply (G tables (MkDC 0 0)).
Qed.
Lemma counts_rows eps e datums t s l : Z.of_nat (rep_tp eps e datums t s l + rep_fp eps e datums t s l) <= ranked_rows e.
Proof. pose proof (eval_counts_rows eps t s datums l (de_ranked e)). unfold rep_tp, rep_fp, rep_counts, ranked_rows. lia. Qed.

Lemma running_bounds eps t : forall R run M, (forall l, snd (run l) <= fst (run l) <= M)%nat ->
  (forall p, In p (fst (running eps t run R)) -> 0 < snd (fst p) <= M + length R /\ snd p <= snd (fst p))%nat /\
  (forall l, snd (snd (running eps t run R) l) <= fst (snd (running eps t run R) l) <= M + length R)%nat.
Proof.
  induction R as [|r R IH]; intros run M H.
  - cbn. split; [tauto|]. intros l. specialize (H l). lia.
  - cbn [running length]. destruct (run (d_pl r)) as [T tp] eqn:E. pose proof (H (d_pl r)) as Hr. rewrite E in Hr. cbn [fst snd] in Hr.
    specialize (IH (upd_run run (d_pl r) (S T, if tp_outer eps t r then S tp else tp)) (S M)).
    destruct (running eps t _ R) as [pts run2]. destruct IH as [I1 I2].
    { intros l. unfold upd_run. destruct (l =? d_pl r)%Z; cbn [fst snd]; [destruct (tp_outer eps t r); lia|]. specialize (H l). lia. }
    cbn [fst snd] in *. split.
    + intros p [<-|Hp]; [cbn [fst snd]; destruct (tp_outer eps t r); lia|]. specialize (I1 p Hp). lia.
    + intros l. specialize (I2 l). lia.
Qed.

Lemma rnd_qmax a b : (Qmax (rnd a) (rnd b) == rnd (Qmax a b))%Q.
Proof.
  destruct (Qlt_le_dec a b) as [L|L].
  - rewrite (rnd_comp (Qmax a b) b) by (apply Q.max_r; lra). apply Q.max_r. apply rnd_mono. lra.
  - rewrite (rnd_comp (Qmax a b) a) by (apply Q.max_l; lra). apply Q.max_l. apply rnd_mono. lra.
Qed.
Lemma qmax_wd a b c d : (a == c)%Q -> (b == d)%Q -> (Qmax a b == Qmax c d)%Q.
Proof. intros -> ->. reflexivity. Qed.
Lemma pt_rounded p : (0 < snd (fst p))%nat -> (snd p <= snd (fst p))%nat -> Z.of_nat (snd (fst p)) <= 2 ^ 53 -> pt_fprecision p = rnd (pt_precision p).
Proof. intros H1 H2 H3. unfold pt_fprecision, fdiv, pt_precision. rewrite fdivz_small by lia. reflexivity. Qed.
Lemma fold_rounded pts : forall x y, (x == rnd y)%Q -> (forall p, In p pts -> pt_fprecision p = rnd (pt_precision p)) ->
  (fold_left (fun m p => Qmax m (pt_fprecision p)) pts x == rnd (fold_left (fun m p => Qmax m (pt_precision p)) pts y))%Q.
Proof.
  induction pts as [|p pts IH]; intros x y E H; [exact E|]. cbn [fold_left]. apply IH; [|intros q Hq; apply H; right; exact Hq].
  rewrite (H p) by (left; reflexivity). rewrite <- rnd_qmax. apply qmax_wd; [exact E|reflexivity].
Qed.
Section Curve.
  Variables (eps : Z) (e : deval) (datums : drow -> bool).
  Hypothesis Hrows : ranked_rows e <= 2 ^ 53.
  Variables t l : Z.
  Lemma curve_rounded b : (frep_curve eps e datums t l b == rnd (rep_fcurve eps e datums t l b))%Q.
  Proof.
    unfold frep_curve, rep_fcurve, eval_frcurve, eval_fcurve. set (n := rep_gts e datums).
    assert (G : forall tbs st st' M, snd st = snd st' -> (fst (fst st l b) == rnd (fst (fst st' l b)))%Q ->
        (forall l, snd (snd st l) <= fst (snd st l) <= M)%nat -> Z.of_nat (M + length (concat tbs)) <= 2 ^ 53 ->
        (fst (fst (fold_left (fun st tb => eval_frstep eps t n st (filter datums tb)) tbs st) l b)
         == rnd (fst (fst (fold_left (fun st tb => eval_fstep eps t n st (filter datums tb)) tbs st') l b)))%Q).
    { induction tbs as [|tb u IH]; intros [c rn] [c' rn'] M Es Ec Hr HM; [exact Ec|]. cbn [fst snd] in *. subst rn'. cbn [fold_left]. cbn [concat] in HM. rewrite app_length in HM.
      pose proof (running_bounds eps t (filter datums tb) rn M Hr) as [B1 B2]. pose proof (filter_length_le datums tb) as BL.
      apply (IH _ _ (M + length (filter datums tb))%nat); [| | |lia]; unfold eval_frstep, eval_fstep; cbn [fst snd];
        destruct (running eps t rn (filter datums tb)) as [pts run]; cbn [fst snd] in *; [reflexivity| |exact B2].
      unfold upd_frcurve, upd_fcurve. cbn [fst]. apply fold_rounded; [exact Ec|]. intros p Hp. apply filter_In in Hp. destruct Hp as [Hp _].
      specialize (B1 p Hp). apply pt_rounded; lia. }
    apply (G (de_ranked e) _ _ 0%nat); cbn [fst snd curve0]; [reflexivity|reflexivity|intros; lia|]. exact Hrows.
  Qed.
  Lemma fcurve_range b : (0 <= rep_fcurve eps e datums t l b /\ rep_fcurve eps e datums t l b <= 1)%Q.
  Proof.
    pose proof (eval_fcurve_max eps t (rep_gts e datums) datums l (de_ranked e) b) as H. unfold rep_fcurve. split.
    - apply (H (fst (eval_fcurve eps t (rep_gts e datums) datums (de_ranked e) l b))). apply Qle_refl.
    - apply H. split; [lra|]. intros p Hp _.
      pose proof (running_bounds eps t (filter datums (concat (de_ranked e))) run0 0 (fun _ => conj (le_n 0) (le_n 0))) as [B _].
      specialize (B p Hp). unfold pt_precision, qnat. apply Qle_shift_div_r; [apply inject_pos; lia|]. rewrite Qmult_1_l, <- Zle_Qle. lia.
  Qed.
  Lemma run_max_rounded c c' : (forall b, (c' b == rnd (c b))%Q) -> forall bins m m', (m' == rnd m)%Q ->
    Forall2 (fun q v => (v == rnd q)%Q) (run_max c bins m) (run_max c' bins m').
  Proof.
    intros H. induction bins as [|b bins IH]; intros m m' Em; [constructor|]. cbn [run_max].
    assert (X : (Qmax (c' b) m' == rnd (Qmax (c b) m))%Q) by (rewrite <- rnd_qmax; apply qmax_wd; auto).
    constructor; [exact X|]. apply IH. exact X.
  Qed.
  Lemma Forall2_rev {A B} (R : A -> B -> Prop) x y : Forall2 R x y -> Forall2 R (rev x) (rev y).
  Proof. induction 1; [constructor|]. cbn [rev]. apply Forall2_app; [assumption|]. constructor; [assumption|constructor]. Qed.
  Lemma levels_rounded : Forall2 (fun q v => (v == rnd q)%Q) (rep_fpr_curve eps e datums t l) (frep_pr_curve eps e datums t l).
  Proof. apply Forall2_rev. apply run_max_rounded; [apply curve_rounded|reflexivity]. Qed.
  Lemma fpr_range : Forall unit_range (rep_fpr_curve eps e datums t l).
  Proof.
    apply Forall_rev. assert (G : forall bins m, unit_range m -> Forall unit_range (run_max (rep_fcurve eps e datums t l) bins m)).
    { induction bins as [|b bins IH]; intros m Hm; [constructor|]. cbn [run_max].
      assert (X : unit_range (Qmax (rep_fcurve eps e datums t l b) m)).
      { destruct (fcurve_range b) as [A B]. split; [eapply Qle_trans; [exact A|apply Q.le_max_l]|apply Q.max_lub; [exact B|apply Hm]]. }
      constructor; [exact X|]. apply IH. exact X. }
    apply G. split; lra.
  Qed.
  Lemma levels_unit : Forall unit_range (frep_pr_curve eps e datums t l) /\ Forall fl (frep_pr_curve eps e datums t l).
  Proof.
    pose proof levels_rounded as H. pose proof fpr_range as U. revert U. induction H as [|q v E F Hq _ IH]; intros U; [split; constructor|].
    inversion U as [|? ? [U1 U2] U']; subst. destruct (IH U') as [I1 I2]. split; constructor; auto.
    - split; rewrite Hq; [apply rnd_nonneg|apply rnd_le; [apply fl_1|exact U2]].
    - apply (fl_wd (rnd q)); [symmetry; exact Hq|apply rnd_fl].
  Qed.
  Lemma rnd_near q : (0 <= q)%Q -> (q <= 1)%Q -> (Qabs (rnd q - q) <= half_ulp)%Q.
  Proof. intros H0 H1. eapply Qle_trans; [apply abs_err; [exact H0|apply rnd_err; exact H0]|]. lra. Qed.
  Lemma levels_near : Forall2 (nearby half_ulp) (rep_fpr_curve eps e datums t l) (frep_pr_curve eps e datums t l).
  Proof.
    pose proof levels_rounded as H. pose proof fpr_range as U. revert U. induction H as [|q v E F Hq _ IH]; intros U; [constructor|].
    inversion U as [|? ? [U1 U2] U']; subst. constructor; [|apply IH; exact U']. rewrite Hq. apply rnd_near; assumption.
  Qed.

  (* the loop adds up from bin 100 down, starting at 0 *)
  Definition comb (l : list Q) : stree := fold_left (fun a x => SNode a (SLeaf x)) l SZero.
  Definition loop_sum (l : list Q) : Q := fold_left (fun a x => rnd (a + x)) l 0%Q.
  Lemma comb_leaves : forall xs a, leaves (fold_left (fun a x => SNode a (SLeaf x)) xs a) = leaves a ++ xs.
  Proof. induction xs as [|x xs IH]; intros a; [rewrite app_nil_r; reflexivity|]. cbn [fold_left]. rewrite IH. cbn [leaves]. rewrite <- app_assoc. reflexivity. Qed.
  Lemma comb_sum : forall xs a, tsum (fold_left (fun a x => SNode a (SLeaf x)) xs a) = fold_left (fun a x => rnd (a + x)) xs (tsum a).
  Proof. induction xs as [|x xs IH]; intros a; [reflexivity|]. cbn [fold_left]. rewrite IH. reflexivity. Qed.
  Lemma loop_summation : summation loop_sum.
  Proof. intros xs _. exists (comb xs). unfold comb, loop_sum. rewrite comb_leaves, comb_sum. split; reflexivity. Qed.
  Lemma loop_is c : forall bins m s, fap_loop c bins m s = fold_left (fun a x => rnd (a + x)) (run_max c bins m) s.
  Proof. induction bins as [|b bins IH]; intros m s; [reflexivity|]. cbn [fap_loop run_max fold_left]. apply IH. Qed.
  Lemma fpr_len : length (frep_pr_curve eps e datums t l) = 101%nat.
  Proof. unfold frep_pr_curve. rewrite rev_length, run_max_length, rev_length, seq_length. reflexivity. Qed.
  Lemma ap_reports : reports_mean (frep_pr_curve eps e datums t l) (frep_ap eps e datums t l) /\ fl (frep_ap eps e datums t l).
  Proof.
    destruct levels_unit as [U F]. pose proof fpr_len as L. set (xs := frep_pr_curve eps e datums t l) in *.
    assert (E : fmean loop_sum (rev xs) = Some (rnd (loop_sum (rev xs) / rnd (inject_Z 101)))).
    { unfold fmean. rewrite rev_length, L. destruct (rev xs) eqn:Er; [|reflexivity]. apply (f_equal (@List.length Q)) in Er. rewrite rev_length, L in Er. discriminate. }
    destruct (fmean_reports loop_sum loop_summation (rev xs) _ E) as [M Hf].
    - apply Forall_rev. exact U.
    - apply Forall_rev. exact F.
    - rewrite rev_length, L. vm_compute. discriminate.
    - assert (V : rnd (loop_sum (rev xs) / rnd (inject_Z 101)) = frep_ap eps e datums t l).
      { unfold frep_ap. rewrite loop_is. unfold xs, frep_pr_curve. rewrite rev_involutive. unfold loop_sum. apply rnd_div_wd; [reflexivity|apply (rnd_int 101); lia]. }
      rewrite V in *. split; [|exact Hf]. destruct M as (M1 & M2 & M3 & M4 & M5). rewrite rev_length in M5.
      assert (P : Permutation (rev xs) xs) by (symmetry; apply Permutation_rev).
      split; [exact M1|]. split; [exact M2|]. split; [|split].
      + rewrite M3. split; apply Forall_perm; [symmetry|]; exact P.
      + intros H. apply M4. apply (Forall_perm _ _ _ P H).
      + rewrite (total_perm _ _ P) in M5. exact M5.
  Qed.
  Lemma ap_near : within 102 (rep_fap eps e datums t l) (frep_ap eps e datums t l).
  Proof.
    destruct ap_reports as [M _]. pose proof (reports_near half_ulp _ _ (frep_ap eps e datums t l) levels_near) as H.
    pose proof (Forall2_len _ _ _ levels_near) as L. rewrite fpr_len in L. rewrite L in H. unfold within.
    assert (Ea : (rep_fap eps e datums t l == total (rep_fpr_curve eps e datums t l) / 101)%Q).
    { rewrite <- qsum_total. unfold rep_fap, average_precision, rep_fpr_curve. rewrite run_max_sum.
      rewrite (qsum_perm (rev _) _ (Permutation_sym (Permutation_rev _))). field. }
    rewrite Ea. change 101%Q with (inject_Z (Z.of_nat 101)). eapply Qle_trans; [apply H|].
    - intros N. apply (f_equal (@List.length Q)) in N. rewrite fpr_len in N. discriminate.
    - exact M.
    - vm_compute. discriminate.
  Qed.
End Curve.

(* ------------------------------------------------------------------ averages *)
Definition good (o : option Q) : Prop := match o with Some v => unit_range v /\ fl v | None => True end.
Lemma within_near d E F : Forall2 (within d) E F -> Forall2 (nearby (inject_Z d * half_ulp)%Q) E F.
Proof. induction 1; constructor; assumption. Qed.
Section Avg.
  Variable nsum : list Q -> Q.
  Hypothesis Hsum : summation nsum.
  Lemma fmean_avg d E F : Forall2 (within d) E F -> Forall unit_range F -> Forall fl F -> Z.of_nat (length F) <= 2 ^ 53 ->
    near_average (d + Z.of_nat (length F)) (qmean E) (fmean nsum F) /\ average_of (map Some F) (fmean nsum F) /\ good (fmean nsum F).
  Proof.
    intros H U L B. destruct (fmean nsum F) as [v|] eqn:Em.
    - destruct (fmean_reports nsum Hsum F v Em U L B) as [M Hf]. assert (NE : F <> []) by (intros ->; discriminate).
      pose proof (Forall2_len _ _ _ H) as Len. split; [|split].
      + unfold near_average, qmean. destruct E as [|q E'] eqn:Ee; [destruct F; [congruence|discriminate]|]. rewrite <- Ee in *.
        unfold within. rewrite qsum_total. unfold qnat. pose proof (reports_near _ _ _ v (within_near d E F H) NE M) as R.
        rewrite inject_Z_plus, <- Len. eapply Qle_trans; [exact R|]. lra.
      + exists F. split; [reflexivity|]. split; [exact NE|exact M].
      + cbn. destruct M as (M1 & M2 & _). auto.
    - destruct F as [|x F]; [|discriminate]. inversion H; subst. cbn. split; [exact I|]. split; [left; reflexivity|exact I].
  Qed.
  Lemma fmean_all_avg {A} d (f g : A -> option Q) xs : (forall x, In x xs -> near_average d (f x) (g x) /\ good (g x)) ->
    (forall x, In x xs -> g x <> None) \/ (forall x, In x xs -> g x = None) -> Z.of_nat (length xs) <= 2 ^ 53 ->
    near_average (d + Z.of_nat (length xs)) (qmean (concat (map (fun x => match f x with Some q => [q] | None => [] end) xs))) (fmean_all nsum (map g xs)) /\
    average_of (map g xs) (fmean_all nsum (map g xs)) /\ good (fmean_all nsum (map g xs)).
  Proof.
    intros H [N|N] B.
    - assert (X : exists F, map g xs = map Some F /\ SegModel.all_some (map g xs) = Some F /\
          Forall2 (within d) (concat (map (fun x => match f x with Some q => [q] | None => [] end) xs)) F /\ Forall unit_range F /\ Forall fl F).
      { clear B. induction xs as [|x xs IH]; [exists []; repeat split; constructor|].
        destruct IH as (F & E1 & E2 & E3 & E4 & E5); [intros y Hy; apply H; right; exact Hy|intros y Hy; apply N; right; exact Hy|].
        destruct (H x (or_introl eq_refl)) as [H1 H2]. specialize (N x (or_introl eq_refl)).
        destruct (g x) as [v|] eqn:Eg; [|congruence]. destruct (f x) as [q|] eqn:Ef; [|destruct H1]. exists (v :: F).
        cbn [map concat app]. rewrite Eg, Ef. cbn [SegModel.all_some]. rewrite E2, E1. split; [reflexivity|]. split; [reflexivity|].
        destruct H2 as [H2 H3]. cbn [app]. split; [|split]; constructor; assumption. }
      destruct X as (F & E1 & E2 & E3 & E4 & E5). unfold fmean_all. rewrite E2, E1.
      assert (Len : length xs = length F) by (rewrite <- (map_length g xs), E1, map_length; reflexivity). rewrite Len in *.
      apply fmean_avg; assumption.
    - destruct xs as [|x xs]; [cbn; split; [exact I|split; [left; reflexivity|exact I]]|].
      assert (Ec : forall ys, (forall y, In y ys -> In y (x :: xs)) -> concat (map (fun x => match f x with Some q => [q] | None => [] end) ys) = []).
      { induction ys as [|y ys IH]; intros Hy; [reflexivity|]. cbn [map concat]. rewrite IH by (intros z Hz; apply Hy; right; exact Hz).
        assert (Hin : In y (x :: xs)) by (apply Hy; left; reflexivity). destruct (H y Hin) as [H1 _]. rewrite (N y Hin) in H1.
        destruct (f y); [destruct H1|reflexivity]. }
      rewrite Ec by auto. unfold fmean_all. cbn [map]. rewrite (N x (or_introl eq_refl)). cbn [SegModel.all_some].
      split; [exact I|]. split; [right; left; reflexivity|exact I].
  Qed.
End Avg.

Section Det.
  Variable nsum : list Q -> Q.
  Hypothesis Hsum : summation nsum.
  Variables (eps unit : Z) (ds : list detection).
  Hypothesis Hin : det_input unit ds.
  Variables (sel : detection -> bool) (datums : drow -> bool).
  Hypothesis Hsel : det_selects ds datums sel.
  Variable e : deval.
  Hypothesis Hu : 0 <= unit.
  Hypothesis He : det_evaluator eps unit ds e.
  Hypothesis Hfew : few_det_labels ds.
  Hypothesis Hann : few_annotations ds.
  Hypothesis Hrows : ranked_rows e <= 2 ^ 53.
  Section Label.
    Variables (v : string) (vi : nat).
    Hypothesis Hv : label_no e v vi.
    Variables t s : Z.
    Hypothesis Ht : 0 < t.
    Local Notation l := (Z.of_nat vi).
    Lemma gts_small : Z.of_nat (rep_gts e datums l) < 2 ^ 31.
    Proof. rewrite (end_gts eps unit ds Hin sel datums Hsel e He v vi Hv). apply G_small; exact Hann. Qed.
    Lemma tp_gts : (rep_tp eps e datums t s l <= rep_gts e datums l)%nat.
    Proof. rewrite (end_gts eps unit ds Hin sel datums Hsel e He v vi Hv). apply (end_tp_le eps unit ds Hin sel datums Hsel e Hu He Hfew v vi Hv t s Ht). Qed.
    Lemma det_precision_rounded : rounded (rep_precision eps e datums t s l) (frep_precision eps e datums t s l).
    Proof.
      pose proof (counts_rows eps e datums t s l). apply fdiv_rounded; unfold rep_tp, rep_fp in *; lia.
    Qed.
    Lemma det_recall_rounded : rounded (rep_recall eps e datums t s l) (frep_recall eps e datums t s l).
    Proof. pose proof gts_small. pose proof tp_gts. apply fdiv_rounded; unfold rep_tp in *; lia. Qed.
    Lemma det_f1_nearly : ranked_rows e <= 1000000000 -> Z.of_nat (rep_gts e datums l) <= 1000000000 ->
      nearly 5 (rep_f1 eps e datums t s l) (frep_f1 eps e datums t s l).
    Proof.
      intros B1 B2. pose proof (counts_rows eps e datums t s l) as C. pose proof tp_gts as T. unfold frep_f1, frep_precision, frep_recall, rep_f1, det_f1, det_precision, det_recall.
      unfold rep_tp, rep_fp in *. set (tp := dc_tp (rep_counts eps e datums t s l)) in *. set (fp := dc_fp (rep_counts eps e datums t s l)) in *.
      set (g := rep_gts e datums l) in *. unfold fdiv. rewrite !qdiv_ratio, !Nat2Z.inj_add.
      replace (Z.of_nat g) with (Z.of_nat tp + Z.of_nat (g - tp)) by lia.
      apply (reports_nearly (Z.of_nat tp) (Z.of_nat fp) (Z.of_nat (g - tp))); try lia.
      - intros ->. apply f1_no_tp.
      - intros H. apply f1_value; lia.
      - apply fdet_f1_reports; lia.
    Qed.
    Lemma det_recall_good : within 1 (rep_recall eps e datums t s l) (frep_recall eps e datums t s l) /\ unit_range (frep_recall eps e datums t s l) /\ fl (frep_recall eps e datums t s l).
    Proof.
      destruct det_recall_rounded as (_ & A & B & _ & D). pose proof (recall_range eps unit ds Hin sel datums Hsel e Hu He Hfew v vi t s Hv Ht) as [R1 R2].
      split; [|split; [split; [exact A|apply D; exact R2]|apply fdivz_fl]]. unfold within. eapply Qle_trans; [exact B|]. change (inject_Z 1) with 1%Q. lra.
    Qed.
    Lemma det_ap_good : within 102 (rep_fap eps e datums t l) (frep_ap eps e datums t l) /\ unit_range (frep_ap eps e datums t l) /\ fl (frep_ap eps e datums t l).
    Proof.
      destruct (ap_reports eps e datums Hrows t l) as [(A & B & _) C]. split; [apply ap_near; exact Hrows|]. auto.
    Qed.
  End Label.

  Lemma axis l : In l (label_axis e) -> exists v vi, label_no e v vi /\ l = Z.of_nat vi.
  Proof. intros H. destruct (axis_label eps unit ds Hin e l He H) as (v & vi & Hv & ->). eauto. Qed.
  Lemma map_pair {A} (f g : A -> Q) d xs : (forall x, In x xs -> within d (f x) (g x) /\ unit_range (g x) /\ fl (g x)) ->
    Forall2 (within d) (map f xs) (map g xs) /\ Forall unit_range (map g xs) /\ Forall fl (map g xs).
  Proof.
    induction xs as [|x xs IH]; intros H; [repeat split; constructor|]. destruct (IH (fun y Hy => H y (or_intror Hy))) as (I1 & I2 & I3).
    destruct (H x (or_introl eq_refl)) as (H1 & H2 & H3). cbn [map]. split; [|split]; constructor; assumption.
  Qed.
  Lemma det_mean {A} d (f g : A -> Q) xs : (forall x, In x xs -> within d (f x) (g x) /\ unit_range (g x) /\ fl (g x)) -> Z.of_nat (length xs) <= 2 ^ 53 ->
    near_average (d + Z.of_nat (length xs)) (qmean (map f xs)) (fmean nsum (map g xs)) /\
    average_of (map (fun x => Some (g x)) xs) (fmean nsum (map g xs)) /\ good (fmean nsum (map g xs)).
  Proof.
    intros H B. destruct (map_pair f g d xs H) as (H1 & H2 & H3).
    assert (L : length (map g xs) = length xs) by apply map_length. rewrite <- L.
    replace (map (fun x => Some (g x)) xs) with (map Some (map g xs)) by apply map_map. apply fmean_avg; try assumption. lia.
  Qed.
  Hypothesis Hlabels : Z.of_nat (length (de_labels e)) <= 2 ^ 53.
  Lemma axis_length : length (label_axis e) = length (de_labels e).
  Proof. unfold label_axis. rewrite map_length, seq_length. reflexivity. Qed.
  Local Notation n_labels := (Z.of_nat (length (de_labels e))).

  Lemma det_map t : 0 < t ->
    near_average (102 + n_labels) (rep_fmap eps e datums t) (frep_map nsum eps e datums t) /\
    average_of (map (fun l => Some (frep_ap eps e datums t l)) (label_axis e)) (frep_map nsum eps e datums t) /\ good (frep_map nsum eps e datums t).
  Proof.
    intros Ht. rewrite <- axis_length. apply det_mean; [|rewrite axis_length; exact Hlabels]. intros l Hl. destruct (axis l Hl) as (v & vi & Hv & ->).
    apply det_ap_good.
  Qed.
  Lemma det_ap_over_ious ious l : Z.of_nat (length ious) <= 2 ^ 53 ->
    near_average (102 + Z.of_nat (length ious)) (qmean (map (fun t => rep_fap eps e datums t l) ious)) (frep_ap_over_ious nsum eps e datums ious l) /\
    average_of (map (fun t => Some (frep_ap eps e datums t l)) ious) (frep_ap_over_ious nsum eps e datums ious l).
  Proof.
    intros B. destruct (det_mean 102 (fun t => rep_fap eps e datums t l) (fun t => frep_ap eps e datums t l) ious) as (H1 & H2 & _); [|exact B|auto].
    intros t _. destruct (ap_reports eps e datums Hrows t l) as [(X & Y & _) C]. split; [apply ap_near; exact Hrows|]. auto.
  Qed.
  Lemma det_map_over_ious ious : Forall (fun t => 0 < t) ious -> Z.of_nat (length ious) <= 2 ^ 53 ->
    near_average (102 + n_labels + Z.of_nat (length ious))
      (qmean (concat (map (fun t => match rep_fmap eps e datums t with Some q => [q] | None => [] end) ious))) (frep_map_over_ious nsum eps e datums ious) /\
    average_of (map (frep_map nsum eps e datums) ious) (frep_map_over_ious nsum eps e datums ious).
  Proof.
    intros Hi B. destruct (fmean_all_avg nsum Hsum (102 + n_labels) (rep_fmap eps e datums) (frep_map nsum eps e datums) ious) as (H1 & H2 & _); [| |exact B|auto].
    - intros t Ht. apply (proj1 (Forall_forall _ _) Hi) in Ht. destruct (det_map t Ht) as (X & _ & Y). auto.
    - unfold frep_map. destruct (label_axis e); [right|left]; intros; [reflexivity|discriminate].
  Qed.
  Lemma det_ar ious s l : In l (label_axis e) -> Forall (fun t => 0 < t) ious -> Z.of_nat (length ious) <= 2 ^ 53 ->
    near_average (1 + Z.of_nat (length ious)) (rep_ar eps e datums ious s l) (frep_ar nsum eps e datums ious s l) /\
    average_of (map (fun t => Some (frep_recall eps e datums t s l)) ious) (frep_ar nsum eps e datums ious s l) /\ good (frep_ar nsum eps e datums ious s l).
  Proof.
    intros Hl Hi B. destruct (axis l Hl) as (v & vi & Hv & ->). apply det_mean; [|exact B]. intros t Ht. apply (proj1 (Forall_forall _ _) Hi) in Ht.
    apply (det_recall_good v vi Hv t s Ht).
  Qed.
  Lemma det_mar ious s : Forall (fun t => 0 < t) ious -> Z.of_nat (length ious) <= 2 ^ 53 ->
    near_average (1 + Z.of_nat (length ious) + n_labels) (rep_mar eps e datums ious s) (frep_mar nsum eps e datums ious s) /\
    average_of (map (frep_ar nsum eps e datums ious s) (label_axis e)) (frep_mar nsum eps e datums ious s) /\ good (frep_mar nsum eps e datums ious s).
  Proof.
    intros Hi B. rewrite <- axis_length. apply fmean_all_avg; [exact Hsum| | |rewrite axis_length; exact Hlabels].
    - intros l Hl. destruct (det_ar ious s l Hl Hi B) as (X & _ & Y). auto.
    - unfold frep_ar. destruct ious; [right|left]; intros; [reflexivity|discriminate].
  Qed.
  Lemma det_ar_over_scores ious scores l : In l (label_axis e) -> Forall (fun t => 0 < t) ious -> Z.of_nat (length ious) <= 2 ^ 53 -> Z.of_nat (length scores) <= 2 ^ 53 ->
    near_average (1 + Z.of_nat (length ious) + Z.of_nat (length scores))
      (qmean (concat (map (fun s => match rep_ar eps e datums ious s l with Some q => [q] | None => [] end) scores))) (frep_ar_over_scores nsum eps e datums ious scores l) /\
    average_of (map (fun s => frep_ar nsum eps e datums ious s l) scores) (frep_ar_over_scores nsum eps e datums ious scores l).
  Proof.
    intros Hl Hi B C. destruct (fmean_all_avg nsum Hsum (1 + Z.of_nat (length ious)) (fun s => rep_ar eps e datums ious s l) (fun s => frep_ar nsum eps e datums ious s l) scores) as (H1 & H2 & _); [| |exact C|auto].
    - intros s _. destruct (det_ar ious s l Hl Hi B) as (X & _ & Y). auto.
    - unfold frep_ar. destruct ious; [right|left]; intros; [reflexivity|discriminate].
  Qed.
  Lemma det_mar_over_scores ious scores : Forall (fun t => 0 < t) ious -> Z.of_nat (length ious) <= 2 ^ 53 -> Z.of_nat (length scores) <= 2 ^ 53 ->
    near_average (1 + Z.of_nat (length ious) + n_labels + Z.of_nat (length scores))
      (qmean (concat (map (fun s => match rep_mar eps e datums ious s with Some q => [q] | None => [] end) scores))) (frep_mar_over_scores nsum eps e datums ious scores) /\
    average_of (map (frep_mar nsum eps e datums ious) scores) (frep_mar_over_scores nsum eps e datums ious scores).
  Proof.
    intros Hi B C. destruct (fmean_all_avg nsum Hsum (1 + Z.of_nat (length ious) + n_labels) (rep_mar eps e datums ious) (frep_mar nsum eps e datums ious) scores) as (H1 & H2 & _); [| |exact C|auto].
    - intros s _. destruct (det_mar ious s Hi B) as (X & _ & Y). auto.
    - unfold frep_mar, fmean_all, frep_ar. destruct (label_axis e) as [|l ls]; [right; reflexivity|].
      destruct ious as [|i ious]; [right; reflexivity|left]. intros s _. rewrite (SegMetricProofs.all_some_map _ (fun l => rnd (nsum (frep_recall eps e datums i s l :: map (fun t => frep_recall eps e datums t s l) ious) / rnd (inject_Z (Z.of_nat (length (frep_recall eps e datums i s l :: map (fun t => frep_recall eps e datums t s l) ious)))))%Q) (l :: ls)) by reflexivity.
      discriminate.
  Qed.
End Det.
