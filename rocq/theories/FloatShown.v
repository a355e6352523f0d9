(* The curve and the average precision with the computed bins (C48), for evaluators derived
   by filters too. *)
From Verif Require Import Prelude Counting CacheModel CacheSpec SortProofs ClsModel DetModel DetSpec DetFlowModel DetReportModel
  DetRankProofs DetCountProofs DetApProofs DetMain DetApEnd DetEnd DetMore FloatModel FloatProofs FloatCurveProofs FReportDet
  DetFilterModel DetFilterSpec DetFilterProofs DetFilterEntries DetFilterMain DetArrayModel DetArraySpec DetArrayFilter DetLoadProofs.
From Coq Require Import Lia QArith Qminmax Lqa.
From Coq Require String.
Local Open Scope nat_scope.
Local Open Scope list_scope.

Lemma precision_le_one (p : drow * nat * nat) : 0 < snd (fst p) -> snd p <= snd (fst p) -> (pt_precision p <= 1)%Q.
Proof.
  intros H0 H. unfold pt_precision, qnat. apply Qle_shift_div_r.
  - change 0%Q with (inject_Z 0). rewrite <- Zlt_Qlt. lia.
  - rewrite Qmult_1_l, <- Zle_Qle. lia.
Qed.

Section Any.
  Variables (eps : Z) (e : deval) (datums : drow -> bool) (t l : Z).
  Local Notation G := (rep_gts e datums l).
  Local Notation pts := (fst (running eps t run0 (filter datums (List.concat (de_ranked e))))).
  Hypothesis G_small : (Z.of_nat G < 2 ^ 31)%Z.
  Hypothesis point_bound : forall p, In p pts -> d_pl (fst (fst p)) = l -> snd p <= G.

  Local Notation bins p := (ebin (snd p) G).
  Local Notation fbins p := (fbin (snd p) G).

  Lemma bins_le p : In p pts -> d_pl (fst (fst p)) = l -> fbins p <= bins p <= 100.
  Proof.
    intros Hp Hl. assert (H := point_bound p Hp Hl). assert (HG := G_small). change (2 ^ 31)%Z with 2147483648%Z in HG.
    destruct (Nat.eq_dec G 0) as [E|E].
    - rewrite E in *. replace (snd p) with 0 by lia. rewrite fbin_zero. split; [apply Nat.le_0_l|]. cbn. lia.
    - split; [|unfold ebin; apply Nat.div_le_upper_bound; lia].
      rewrite fbin_spec; [|exact H|lia|change (2 ^ 44)%Z with 17592186044416%Z; lia]. destruct (_ && _); lia.
  Qed.
  Lemma bins_ge p k : In p pts -> d_pl (fst (fst p)) = l -> k <= bins p ->
    k <= fbins p \/ (lost k = true /\ (exists j, G = 50 * j)) .
  Proof.
    intros Hp Hl Hk. assert (H := point_bound p Hp Hl). assert (HG := G_small). change (2 ^ 31)%Z with 2147483648%Z in HG.
    destruct (Nat.eq_dec G 0) as [E|E].
    - left. rewrite E in *. replace (snd p) with 0 in * by lia. unfold ebin in Hk. cbn in Hk. lia.
    - rewrite fbin_spec; [|exact H|lia|change (2 ^ 44)%Z with 17592186044416%Z; lia].
      destruct (lost (bins p) && Nat.eqb (bins p * G) (100 * snd p)) eqn:El; [|left; exact Hk].
      destruct (Nat.eq_dec k (bins p)) as [->|Hne]; [|left; lia].
      right. split; [apply andb_true_iff in El; tauto|]. apply (lost_50 (snd p) G); [lia|exact El].
  Qed.
  Lemma bins_near p k : In p pts -> d_pl (fst (fst p)) = l -> S k <= bins p -> k <= fbins p.
  Proof.
    intros Hp Hl Hk. assert (H := point_bound p Hp Hl). assert (HG := G_small). change (2 ^ 31)%Z with 2147483648%Z in HG.
    destruct (Nat.eq_dec G 0) as [E|E].
    - rewrite E in *. replace (snd p) with 0 in * by lia. unfold ebin in Hk. cbn in Hk. lia.
    - rewrite fbin_spec; [|exact H|lia|change (2 ^ 44)%Z with 17592186044416%Z; lia].
      destruct (_ && _); lia.
  Qed.

  Lemma exact_level k q : nth_error (rep_pr_curve eps e datums t l) k = Some q ->
    forall x, (q <= x)%Q <-> (0 <= x)%Q /\ forall p, In p pts -> d_pl (fst (fst p)) = l -> k <= bins p -> (pt_precision p <= x)%Q.
  Proof.
    intros Hq x. destruct (level_nth _ k q Hq) as (Hk & A). rewrite A. split; intros [X1 X2]; (split; [exact X1|]).
    - intros p Hp Hl Hb. destruct (bins_le p Hp Hl) as [_ Hb2].
      refine (proj2 (proj1 (eval_curve_max eps t (rep_gts e datums) datums l (de_ranked e) (bins p) x) (X2 (bins p) (conj Hb Hb2))) p Hp _).
      unfold pt_in, pt_bin. rewrite Hl, Z.eqb_refl. apply Nat.eqb_refl.
    - intros b Hb. apply (eval_curve_max eps t (rep_gts e datums) datums l (de_ranked e) b x). split; [exact X1|].
      intros p Hp Hin'. unfold pt_in, pt_bin in Hin'. apply andb_true_iff in Hin'. destruct Hin' as [Hl Hb'].
      apply Z.eqb_eq in Hl. apply Nat.eqb_eq in Hb'. rewrite Hl in Hb'. apply X2; [exact Hp|exact Hl|].
      unfold ebin. rewrite Hb'. lia.
  Qed.
  Lemma float_level k q : nth_error (rep_fpr_curve eps e datums t l) k = Some q ->
    forall x, (q <= x)%Q <-> (0 <= x)%Q /\ forall p, In p pts -> d_pl (fst (fst p)) = l -> k <= fbins p -> (pt_precision p <= x)%Q.
  Proof.
    intros Hq x. destruct (level_nth _ k q Hq) as (Hk & A). rewrite A. split; intros [X1 X2]; (split; [exact X1|]).
    - intros p Hp Hl Hb. destruct (bins_le p Hp Hl) as [Hb1 Hb2].
      refine (proj2 (proj1 (eval_fcurve_max eps t (rep_gts e datums) datums l (de_ranked e) (fbins p) x) (X2 (fbins p) (conj Hb (Nat.le_trans _ _ _ Hb1 Hb2)))) p Hp _).
      unfold pt_fin, pt_fbin. rewrite Hl, Z.eqb_refl. apply Nat.eqb_refl.
    - intros b Hb. apply (eval_fcurve_max eps t (rep_gts e datums) datums l (de_ranked e) b x). split; [exact X1|].
      intros p Hp Hin'. unfold pt_fin, pt_fbin in Hin'. apply andb_true_iff in Hin'. destruct Hin' as [Hl Hb'].
      apply Z.eqb_eq in Hl. apply Nat.eqb_eq in Hb'. rewrite Hl in Hb'. apply X2; [exact Hp|exact Hl|]. lia.
  Qed.

  Lemma float_le_exact k q f : nth_error (rep_pr_curve eps e datums t l) k = Some q -> nth_error (rep_fpr_curve eps e datums t l) k = Some f -> (f <= q)%Q.
  Proof.
    intros Hq Hf. apply (float_level k f Hf). destruct (proj1 (exact_level k q Hq q) (Qle_refl q)) as [A B]. split; [exact A|].
    intros p Hp Hl Hb. apply B; auto. destruct (bins_le p Hp Hl). lia.
  Qed.
  Lemma next_le_float k q f : nth_error (rep_pr_curve eps e datums t l) (S k) = Some q -> nth_error (rep_fpr_curve eps e datums t l) k = Some f -> (q <= f)%Q.
  Proof.
    intros Hq Hf. apply (exact_level (S k) q Hq). destruct (proj1 (float_level k f Hf f) (Qle_refl f)) as [A B]. split; [exact A|].
    intros p Hp Hl Hb. apply B; auto. apply bins_near; assumption.
  Qed.
  Lemma float_eq_exact k q f : nth_error (rep_pr_curve eps e datums t l) k = Some q -> nth_error (rep_fpr_curve eps e datums t l) k = Some f ->
    lost k = false \/ (forall j, G <> 50 * j) -> (f == q)%Q.
  Proof.
    intros Hq Hf Hor. apply Qle_antisym; [apply (float_le_exact k q f Hq Hf)|].
    apply (exact_level k q Hq). destruct (proj1 (float_level k f Hf f) (Qle_refl f)) as [A B]. split; [exact A|].
    intros p Hp Hl Hb. apply B; auto. destruct (bins_ge p k Hp Hl Hb) as [X|[X (j & Y)]]; [exact X|].
    destruct Hor as [Hor|Hor]; [congruence|]. exfalso. apply (Hor j Y).
  Qed.
  Lemma float_nonneg k f : nth_error (rep_fpr_curve eps e datums t l) k = Some f -> (0 <= f)%Q.
  Proof. intros Hf. apply (proj1 (float_level k f Hf f) (Qle_refl f)). Qed.

  Lemma fpr_length : length (rep_fpr_curve eps e datums t l) = 101.
  Proof. unfold rep_fpr_curve. rewrite rev_length, run_max_length, rev_length, seq_length. reflexivity. Qed.
  Lemma fap_mean : (rep_fap eps e datums t l == qsum (rep_fpr_curve eps e datums t l) / 101)%Q.
  Proof.
    unfold rep_fap, average_precision, rep_fpr_curve. rewrite run_max_sum.
    rewrite (qsum_perm (rev _) _ (Permutation_sym (Permutation_rev _))). field.
  Qed.

  Lemma float_ap : (rep_fap eps e datums t l <= rep_ap eps e datums t l /\ rep_ap eps e datums t l <= rep_fap eps e datums t l + (1 # 101))%Q.
  Proof.
    rewrite fap_mean, pr_curve_mean.
    destruct (sum_shift (rep_pr_curve eps e datums t l) (rep_fpr_curve eps e datums t l)) as [A B].
    - rewrite fpr_length. apply pr_curve_length.
    - apply float_nonneg.
    - apply float_le_exact.
    - apply next_le_float.
    - assert (H1 : (hd 0 (rep_pr_curve eps e datums t l) <= 1)%Q).
      { assert (HL := pr_curve_length eps e datums t l). destruct (rep_pr_curve eps e datums t l) as [|q u] eqn:E; [discriminate|]. cbn [hd].
        apply (exact_level 0 q); [rewrite E; reflexivity|]. split; [discriminate|]. intros p Hp _ _.
        destruct (running_bounds eps t (filter datums (List.concat (de_ranked e))) run0 0) as (X & _); [intros c; cbn; lia|]. specialize (X p Hp). apply precision_le_one; lia. }
      unfold Qdiv. change (/ 101)%Q with (1 # 101)%Q. split; lra.
  Qed.

  Lemma float_ap_eq : (forall j, G <> 50 * j) -> (rep_fap eps e datums t l == rep_ap eps e datums t l)%Q.
  Proof.
    intros H. rewrite fap_mean, pr_curve_mean. rewrite (qsum_pointwise (rep_pr_curve eps e datums t l) (rep_fpr_curve eps e datums t l)); [reflexivity| |].
    - rewrite fpr_length. apply pr_curve_length.
    - intros k q f Hq Hf. apply (float_eq_exact k q f Hq Hf). right. exact H.
  Qed.
End Any.

(* every ground truth counts at most once *)
Lemma gts_where_bound sel ok v ds : gts_where sel ok ds v <= gts_before ds (List.length ds).
Proof.
  unfold gts_where, gts_before. rewrite firstn_all. apply list_sum_nat_le. intros d. destruct (sel d); [|lia].
  unfold countb. etransitivity; [apply filter_length_le|]. unfold numbered. rewrite combine_length, seq_length. lia.
Qed.

Section Shown.
  Variables (eps unit : Z) (ds : list detection) (L : list String.string) (w : dview) (e : deval).
  Hypothesis Hin : det_input unit ds.
  Hypothesis Hsh : shows eps unit ds L w e.
  Hypothesis Hu : (0 <= unit)%Z.
  Hypothesis Hfew : few_det_labels ds.
  Hypothesis Hann : few_annotations ds.
  Variables (datums : drow -> bool) (sel : detection -> bool).
  Hypothesis Hsel : det_selects ds datums sel.
  Let Hg : good eps unit ds L w e := shows_good eps unit ds L w e Hin Hsh.

  Lemma shown_gts_small v vi : label_no e v vi -> (Z.of_nat (rep_gts e datums (Z.of_nat vi)) < 2 ^ 31)%Z.
  Proof.
    intros Hv. apply (g_labels _ _ _ _ _ _ Hg) in Hv.
    erewrite (f_gts eps unit ds L w e); eauto. destruct Hann as (_ & H & _).
    match goal with |- (Z.of_nat (gts_where ?a ?b ?c ?d) < _)%Z => pose proof (gts_where_bound a b d c) end. lia.
  Qed.
  Lemma shown_bound t l p : In p (fst (running eps t run0 (filter datums (List.concat (de_ranked e))))) -> d_pl (fst (fst p)) = l ->
    snd p <= rep_gts e datums l.
  Proof. intros Hp <-. destruct (shown_point eps unit ds L w e Hu Hin Hfew Hsh datums sel Hsel t p Hp) as [->|H]; lia. Qed.

  Theorem shown_float_curve v vi t : label_no e v vi ->
    List.length (rep_fpr_curve eps e datums t (Z.of_nat vi)) = 101 /\
    forall k q f, nth_error (rep_pr_curve eps e datums t (Z.of_nat vi)) k = Some q ->
      nth_error (rep_fpr_curve eps e datums t (Z.of_nat vi)) k = Some f ->
      (f <= q)%Q
      /\ (forall q', nth_error (rep_pr_curve eps e datums t (Z.of_nat vi)) (S k) = Some q' -> (q' <= f)%Q)
      /\ (k <> 29 -> k <> 57 -> k <> 58 -> (f == q)%Q).
  Proof.
    intros Hv. assert (S := shown_gts_small v vi Hv). assert (B := shown_bound t (Z.of_nat vi)). split; [apply fpr_length|].
    intros k q f Hq Hf. split; [exact (float_le_exact eps e datums t _ S B k q f Hq Hf)|].
    split; [intros q' Hq'; exact (next_le_float eps e datums t _ S B k q' f Hq' Hf)|].
    intros H1 H2 H3. apply (float_eq_exact eps e datums t _ S B k q f Hq Hf).
    left. unfold lost. rewrite (proj2 (Nat.eqb_neq k 29) H1), (proj2 (Nat.eqb_neq k 57) H2), (proj2 (Nat.eqb_neq k 58) H3). reflexivity.
  Qed.
  Theorem shown_float_ap v vi t : label_no e v vi ->
    (rep_fap eps e datums t (Z.of_nat vi) <= rep_ap eps e datums t (Z.of_nat vi)
     /\ rep_ap eps e datums t (Z.of_nat vi) <= rep_fap eps e datums t (Z.of_nat vi) + (1 # 101))%Q
    /\ ((forall j, rep_gts e datums (Z.of_nat vi) <> 50 * j) ->
        (rep_fap eps e datums t (Z.of_nat vi) == rep_ap eps e datums t (Z.of_nat vi))%Q).
  Proof.
    intros Hv. assert (S := shown_gts_small v vi Hv). assert (B := shown_bound t (Z.of_nat vi)). split.
    - exact (float_ap eps e datums t _ S B).
    - exact (float_ap_eq eps e datums t _ S B).
  Qed.
  Theorem shown_float_map t :
    match rep_fmap eps e datums t, rep_map eps e datums t with
    | Some a, Some b => (a <= b /\ b <= a + (1 # 101))%Q
    | None, None => label_axis e = []
    | _, _ => False
    end.
  Proof.
    unfold rep_fmap, rep_map, mean_ap. apply qmean_close. intros a Ha.
    unfold label_axis in Ha. apply in_map_iff in Ha. destruct Ha as (vi & <- & Hvi). apply in_seq in Hvi.
    destruct (shown_numbers eps unit ds L w e Hin Hsh vi) as (v & Hv); [lia|].
    apply (proj1 (shown_float_ap v vi t Hv)).
  Qed.
End Shown.
