(* ROC AUC as binary64 numbers: the values of an evaluator and their mean (C114). *)
From Verif Require Import Prelude Counting CacheModel CacheSpec ClsModel ClsSpec RocModel RocProofs RocMain RocCurve FlowModel ClsFilterModel ClsFilterSpec ClsFilterProofs
  ClsFilterCounts ClsFilterMain ClsFilterRoc ClsLemmas ClsLabelProofs ClsProofs FlowMore ClsMore FlowProofs FloatModel FloatProofs RndProofs FReportModel FReportSpec FReportProofs FReportMain FReportDet FReportRoc.
From Coq Require Import Lia String QArith Qabs Lqa Permutation Sorted.
Local Notation length := List.length (only parsing).
Local Notation concat := List.concat (only parsing).
Local Open Scope Z_scope.

Lemma outc_counts rows : countb i_match rows = length (pos_of (map outc rows)) /\ countb (fun r => negb (i_match r)) rows = length (neg_of (map outc rows)).
Proof.
  unfold pos_of, neg_of. induction rows as [|r rows [IH1 IH2]]; [split; reflexivity|]. rewrite !countb_first. cbn [map filter outc snd].
  destruct (i_match r); cbn [negb map List.length]; lia.
Qed.
Lemma pos_perm o o' : Permutation o o' -> length (pos_of o) = length (pos_of o') /\ length (neg_of o) = length (neg_of o').
Proof. intros H. unfold pos_of, neg_of. split; apply Permutation_length, Permutation_map, Permutation_filter; exact H. Qed.

Section Ev.
  Variable nsum : list Q -> Q.
  Hypothesis Hsum : summation nsum.
  Variable cs : list classification.
  Hypothesis Hdist : Forall distinct_candidates cs.
  Variables (w : cview) (e : ceval).
  Hypothesis He : cls_evaluator cs w e.
  Local Notation o l := (outcomes l (reduced w cs)).
  Hypothesis Hsize : Z.of_nat (length cs) < 2 ^ 47.

  Lemma outcomes_few l : (length (o l) <= length cs)%nat.
  Proof.
    pose proof (ev_acc cs w e He) as Ha.
    rewrite (outcomes_length (reduced w cs) (reduced_accepted w cs Ha) (reduced_distinct w cs Ha Hdist)).
    pose proof (countb_le_length (fun c => smem l (c_predictions c)) (reduced w cs)) as H. unfold reduced in *. rewrite map_length in H.
    pose proof (countb_le_length (visible w) cs) as H0. unfold countb in H0. lia.
  Qed.
  Theorem float_rocauc l i : has_number e l i -> keeps_truth cs w l -> exists q v,
    nth_error (cls_rocauc e) i = Some q /\ nth_error (cls_frocauc nsum e) i = Some v /\
    within (22 * (1 + Z.of_nat (length cs))) q v /\ fl v /\ unit_range q.
  Proof.
    intros Hi Hk. destruct (ev_curve cs Hdist w e He l i Hi) as (rows & Hc & _ & Hp & _).
    pose proof (kept_positives cs Hdist w e He l Hk) as EG. pose proof (outcomes_few l) as HL. pose proof (pos_neg_length (o l)) as Hpn.
    destruct (outc_counts rows) as [C1 C2]. destruct (pos_perm _ _ Hp) as [P1 P2]. rewrite P1 in C1. rewrite P2 in C2.
    pose proof (Permutation_length Hp) as PL. rewrite map_length in PL.
    pose proof Hi as Hi'. apply (ev_labels cs Hdist w e He) in Hi'. destruct (nth_label cs i l Hi') as (Hlt & Hl & Ei).
    pose proof (ev_acc cs w e He) as Ha.
    assert (PD : Z.of_nat (pd_count_label (ce_tables e) (Z.of_nat i)) = Z.of_nat (length (o l))).
    { rewrite Ei, (ev_pd_count cs Hdist w e He l Hl). 
      rewrite (outcomes_length (reduced w cs) (reduced_accepted w cs Ha) (reduced_distinct w cs Ha Hdist)).
      rewrite (reduced_count (fun c => smem l (c_predictions c)) (fun c => smem l (c_predictions (viewed w c))) w cs); [reflexivity|auto|].
      intros c Hin Hv. rewrite invisible_predictions; auto. rewrite Forall_forall in Ha. auto. }
    assert (GT : Z.of_nat (gt_count_label (ce_tables e) (Z.of_nat i)) = Z.of_nat (length (pos_of (o l)))).
    { rewrite Ei, (ev_gt_count cs Hdist w e He l Hl). fold (vgts cs w l). rewrite EG. reflexivity. }
    eexists. eexists. split; [|split].
    { unfold cls_rocauc, compute_rocauc. rewrite nth_error_map, nth_error_seq_lt by (rewrite (ev_n cs Hdist w e He); exact Hlt). reflexivity. }
    { unfold cls_frocauc. rewrite nth_error_map, nth_error_seq_lt by (rewrite (ev_n cs Hdist w e He); exact Hlt). reflexivity. }
    cbn beta. cbn [Nat.add]. rewrite GT, PD.
    assert (Hmod : (Z.of_nat (length (o l)) - Z.of_nat (length (pos_of (o l)))) mod 2 ^ 64 = Z.of_nat (length (neg_of (o l)))) by (rewrite Z.mod_small by lia; lia).
    destruct (label_near nsum (Z.of_nat (length (pos_of (o l)))) (Z.of_nat (length (o l))) i (ce_curve e) rows Hsum) as (W & F & U); try (rewrite ?Hmod; lia).
    - exact Hc.
    - split; [|split; [exact F|exact U]]. unfold within in *. eapply Qle_trans; [exact W|]. apply Qmult_le_compat_r; [|lra]. rewrite <- Zle_Qle. lia.
  Qed.

  Lemma total_qsum l : total l = qsum l. Proof. reflexivity. Qed.
  Theorem float_mrocauc : (forall l, In l (labels_of cs) -> keeps_truth cs w l) -> cs <> [] -> Z.of_nat (length (labels_of cs)) < 2 ^ 49 ->
    exists q v, mean (cls_rocauc e) = Some q /\ fmean nsum (cls_frocauc nsum e) = Some v /\
    within (22 * (1 + Z.of_nat (length cs)) + 3 * Z.of_nat (length (labels_of cs)) + 2) q v /\ (0 <= v)%Q.
  Proof.
    intros Hk Hne Hfew. set (d := 22 * (1 + Z.of_nat (length cs))). set (n := length (labels_of cs)).
    assert (EN : length (ce_labels e) = n) by apply (ev_n cs Hdist w e He).
    assert (L1 : length (cls_rocauc e) = n) by (unfold cls_rocauc, compute_rocauc; rewrite map_length, seq_length; exact EN).
    assert (L2 : length (cls_frocauc nsum e) = n) by (unfold cls_frocauc; rewrite map_length, seq_length; exact EN).
    assert (P : forall i, (i < n)%nat -> exists q v, nth_error (cls_rocauc e) i = Some q /\ nth_error (cls_frocauc nsum e) i = Some v /\ within d q v /\ fl v /\ unit_range q).
    { intros i Hi. destruct (nth_error (labels_of cs) i) as [l|] eqn:El; [|apply nth_error_None in El; fold n in El; lia].
      apply (float_rocauc l i); [apply (ev_labels cs Hdist w e He); exact El|apply Hk; apply nth_error_In in El; exact El]. }
    assert (N1 : (0 < n)%nat).
    { unfold n. destruct cs as [|c t] eqn:Ec; [congruence|]. destruct (labels_of (c :: t)) as [|x xs] eqn:El; [|cbn; lia].
      exfalso. pose proof (ev_acc _ w e He) as Ha. inversion Ha as [|? ? [Hc1 Hc2] _]; subst.
      destruct (c_predictions c) as [|a r] eqn:Ep; [congruence|]. destruct (c_scores c) as [|s ss] eqn:Es; [rewrite ?Ep in Hc2; cbn in Hc2; lia|].
      assert (In a (labels_of (c :: t))). { apply (labels_of_pd (c :: t) c (a, s) (or_introl eq_refl)). unfold candidates. rewrite Ep, Es. left. reflexivity. }
      rewrite El in H. destruct H. }
    set (E := cls_rocauc e) in *. set (F := cls_frocauc nsum e) in *. clearbody E F.
    assert (Sums : (0 <= total F)%Q /\ (0 <= total E)%Q /\ (total E <= inject_Z (Z.of_nat (length E)))%Q /\ (Qabs (total F - total E) <= inject_Z (Z.of_nat (length E)) * (inject_Z d * half_ulp))%Q /\ Forall fl F).
    { clear N1. clearbody n. clear Hfew EN. revert n F L1 L2 P. induction E as [|x E IH]; intros n [|y F] L1 L2 P; cbn [List.length] in *; try lia.
      - change (total []) with 0%Q. change (Qabs (0 - 0)) with 0%Q. change (inject_Z (Z.of_nat 0)) with 0%Q. split; [lra|]. split; [lra|]. split; [lra|]. split; [lra|constructor].
      - destruct n as [|n]; [lia|]. destruct (IH n F ltac:(lia) ltac:(lia)) as (I1 & I2 & I3 & I4 & I5).
        { intros i Hi. apply (P (S i)). lia. }
        destruct (P 0%nat ltac:(lia)) as (q & v & Eq & Ev & W & Fv & U1 & U2). cbn in Eq, Ev. injection Eq as <-. injection Ev as <-.
        pose proof (fl_nonneg _ Fv) as V0. cbn [total fold_right]. fold (total E). fold (total F).
        assert (Ez : (inject_Z (Z.of_nat (S (length E))) == 1 + inject_Z (Z.of_nat (length E)))%Q) by (change 1%Q with (inject_Z 1); rewrite <- inject_Z_plus; apply inject_Z_injective; lia).
        rewrite Ez. unfold within in W. apply Qabs_Qle_condition in W, I4. set (D := (inject_Z d * half_ulp)%Q) in *.
        split; [lra|]. split; [lra|]. split; [lra|]. split; [apply Qabs_Qle_condition; split; lra|constructor; assumption]. }
    destruct Sums as (F0 & E0 & E1 & DS & FF).
    destruct (nsum_rel nsum Hsum F) as [R Fn]; [exact FF|lia|].
    destruct E as [|x0 E'] eqn:EE; [cbn in L1; lia|]. rewrite <- EE in *. destruct F as [|y0 F'] eqn:EF; [cbn in L2; lia|]. rewrite <- EF in *.
    eexists. eexists. split; [unfold mean; rewrite EE; rewrite <- EE; reflexivity|]. split; [unfold fmean; rewrite EF; rewrite <- EF; reflexivity|].
    rewrite L1, L2 in *. rewrite <- total_qsum.
    set (K := inject_Z (Z.of_nat n)) in *. assert (K1 : (1 <= K)%Q) by (unfold K; change 1%Q with (inject_Z 1); rewrite <- Zle_Qle; lia).
    pose proof (fl_nonneg _ Fn) as S0.
    assert (K2 : (K <= 562949953421312)%Q) by (unfold K; change 562949953421312%Q with (inject_Z (2 ^ 49)); rewrite <- Zle_Qle; lia).
    assert (D2 : (0 <= inject_Z d * half_ulp)%Q /\ (inject_Z d * half_ulp <= 35 # 100)%Q).
    { assert (inject_Z d <= inject_Z (22 * (1 + 2 ^ 47)))%Q by (rewrite <- Zle_Qle; unfold d; lia). assert (0 <= inject_Z d)%Q by (change 0%Q with (inject_Z 0); rewrite <- Zle_Qle; unfold d; lia).
      change (inject_Z (22 * (1 + 2 ^ 47))) with 3096224743817238%Q in *. lra. }
    rewrite (rnd_comp (nsum F / rnd K) (nsum F / K)) by (unfold K; rewrite (rnd_id (inject_Z (Z.of_nat n)) (fl_int (Z.of_nat n) ltac:(lia))); reflexivity).
    assert (Kp : (0 < K)%Q) by lra.
    assert (X1 : (nsum F == K * (nsum F / K))%Q) by (field; lra).
    assert (X2 : (total F == K * (total F / K))%Q) by (field; lra).
    assert (X3 : (total E == K * (total E / K))%Q) by (field; lra).
    assert (Z1 : (0 <= nsum F / K)%Q) by (apply Qle_shift_div_l; lra).
    assert (Z2 : (0 <= total F / K)%Q) by (apply Qle_shift_div_l; lra).
    assert (Z3 : (total E / K <= 1)%Q) by (apply Qle_shift_div_r; lra).
    set (x := (nsum F / K)%Q) in *. set (qf := (total F / K)%Q) in *. set (qe := (total E / K)%Q) in *.
    set (D := (inject_Z d * half_ulp)%Q) in *.
    apply Qabs_Qle_condition in R, DS.
    assert (Y1 : (qf - qe <= D)%Q) by (apply (Qmult_le_l _ _ K Kp); lra).
    assert (Y2 : (qe - qf <= D)%Q) by (apply (Qmult_le_l _ _ K Kp); lra).
    assert (Y3 : (x - qf <= 2 * K * half_ulp * qf)%Q).
    { apply (Qmult_le_l _ _ K Kp). assert (2 * K * half_ulp * total F == K * (2 * K * half_ulp * qf))%Q by (rewrite X2; ring). lra. }
    assert (Y4 : (qf - x <= 2 * K * half_ulp * qf)%Q).
    { apply (Qmult_le_l _ _ K Kp). assert (2 * K * half_ulp * total F == K * (2 * K * half_ulp * qf))%Q by (rewrite X2; ring). lra. }
    assert (Y5 : (K * qf <= K * (135 # 100))%Q) by (apply (Qmult_le_l _ _ K Kp); lra).
    assert (Y6 : (2 * K * half_ulp * qf == 2 * half_ulp * (K * qf))%Q) by ring. rewrite Y6 in Y3, Y4.
    destruct (rnd_err x Z1) as [R1 R2]. split; [|apply fl_nonneg, rnd_fl].
    unfold within. rewrite !inject_Z_plus, inject_Z_mult. fold K. change (inject_Z 3) with 3%Q. change (inject_Z 2) with 2%Q. apply Qabs_Qle_condition.
    assert (G : ((inject_Z d + 3 * K + 2) * half_ulp == D + 3 * K * half_ulp + 2 * half_ulp)%Q) by (unfold D; ring). rewrite G. clear G X1 X2 X3 R DS Y6.
    clearbody D x qf qe K. set (Z := (K * qf)%Q) in *. clearbody Z. split; lra.
  Qed.
End Ev.
