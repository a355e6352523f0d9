(* The curve and the average precision with the computed bins (C48). *)
From Verif Require Import Prelude Counting CacheModel CacheSpec SortProofs ClsModel DetModel DetSpec DetFlowModel DetReportModel
  DetRankProofs DetCountProofs DetApProofs DetMain DetApEnd DetEnd DetMore FloatModel FloatProofs.
From Coq Require Import Lia QArith Qminmax Lqa.
From Coq Require String.
Local Open Scope nat_scope.
Local Open Scope list_scope.

(* ------------------------------------------------------------------ *)
(** * Curves as maxima over points *)

Definition curve_max (c : Q) (pts : list (drow * nat * nat)) (P : drow * nat * nat -> bool) : Prop :=
  forall x, (c <= x)%Q <-> (0 <= x)%Q /\ forall p, In p pts -> P p = true -> (pt_precision p <= x)%Q.

Section Points.
  Variables (eps t : Z) (n : Z -> nat) (datums : drow -> bool) (l : Z).
  Local Notation pts R := (fst (running eps t run0 R)).

  Lemma eval_curve_max tables b : curve_max (fst (eval_curve eps t n datums tables l b)) (pts (filter datums (List.concat tables))) (pt_in n l b).
  Proof.
    unfold eval_curve, curve_max. intros x.
    assert (G : forall tbs st, 
      (fst (fst (fold_left (fun st tb => eval_step eps t n st (filter datums tb)) tbs st) l b) <= x)%Q
      <-> (fst (fst st l b) <= x)%Q /\ forall p, In p (fst (running eps t (snd st) (filter datums (List.concat tbs)))) -> pt_in n l b p = true -> (pt_precision p <= x)%Q).
    { induction tbs as [|tb u IH]; intros st; [cbn; intuition|].
      cbn [fold_left]. rewrite IH. cbn [List.concat]. rewrite filter_app, running_app.
      unfold eval_step. destruct (running eps t (snd st) (filter datums tb)) as [p1 run1]. cbn [fst snd].
      unfold upd_curve at 1. cbn [fst]. rewrite qmaxfold_le. split.
      - intros [[A B] C]. split; [exact A|]. intros p Hp Hb. apply in_app_iff in Hp. destruct Hp as [Hp|Hp]; [apply B, filter_In; auto|apply C; auto].
      - intros [A B]. split; [split; [exact A|]|].
        + intros p Hp. apply filter_In in Hp. destruct Hp as [Hp Hb]. apply B; [apply in_app_iff; auto|exact Hb].
        + intros p Hp Hb. apply B; [apply in_app_iff; auto|exact Hb]. }
    rewrite G. cbn [fst snd curve0]. reflexivity.
  Qed.

  Lemma eval_fcurve_max tables b : curve_max (fst (eval_fcurve eps t n datums tables l b)) (pts (filter datums (List.concat tables))) (pt_fin n l b).
  Proof.
    unfold eval_fcurve, curve_max. intros x.
    assert (G : forall tbs st, 
      (fst (fst (fold_left (fun st tb => eval_fstep eps t n st (filter datums tb)) tbs st) l b) <= x)%Q
      <-> (fst (fst st l b) <= x)%Q /\ forall p, In p (fst (running eps t (snd st) (filter datums (List.concat tbs)))) -> pt_fin n l b p = true -> (pt_precision p <= x)%Q).
    { induction tbs as [|tb u IH]; intros st; [cbn; intuition|].
      cbn [fold_left]. rewrite IH. cbn [List.concat]. rewrite filter_app, running_app.
      unfold eval_fstep. destruct (running eps t (snd st) (filter datums tb)) as [p1 run1]. cbn [fst snd].
      unfold upd_fcurve at 1. cbn [fst]. rewrite qmaxfold_le. split.
      - intros [[A B] C]. split; [exact A|]. intros p Hp Hb. apply in_app_iff in Hp. destruct Hp as [Hp|Hp]; [apply B, filter_In; auto|apply C; auto].
      - intros [A B]. split; [split; [exact A|]|].
        + intros p Hp. apply filter_In in Hp. destruct Hp as [Hp Hb]. apply B; [apply in_app_iff; auto|exact Hb].
        + intros p Hp Hb. apply B; [apply in_app_iff; auto|exact Hb]. }
    rewrite G. cbn [fst snd curve0]. reflexivity.
  Qed.

  (* a point of the label has at most as many true positives as there are hits *)
  Lemma point_tp R p : In p (pts R) -> d_pl (fst (fst p)) = l ->
    snd p <= trues (map (tp_outer eps t) (filter (fun r => (d_pl r =? l)%Z) R)).
  Proof.
    clear n datums. intros Hp Hl. assert (E := running_label eps t l R run0). cbn [fst snd run0] in E.
    assert (Hin : In p (filter (fun p => (d_pl (fst (fst p)) =? l)%Z) (pts R))) by (apply filter_In; split; [exact Hp|lia]).
    apply In_nth_error in Hin. destruct Hin as (j & Hj).
    assert (Hn := pr_list_nth (map (tp_outer eps t) (filter (fun r => (d_pl r =? l)%Z) R)) 0 0 j).
    rewrite <- E, nth_error_map, Hj in Hn. cbn [option_map] in Hn.
    destruct (nth_error (map (tp_outer eps t) _) j) as [h|]; [|discriminate]. injection Hn as _ Hn2. rewrite Hn2.
    destruct h; [|lia]. apply (trues_firstn_le (map (tp_outer eps t) (filter (fun r => (d_pl r =? l)%Z) R)) (S j)).
  Qed.
End Points.

(* the running maximum from bin 100 down to bin k *)
Lemma level_nth c k q : nth_error (rev (run_max c (rev (seq 0 101)) 0)) k = Some q ->
  k <= 100 /\ forall x, (q <= x)%Q <-> (0 <= x)%Q /\ forall b, k <= b <= 100 -> (c b <= x)%Q.
Proof.
  intros H. assert (Hlen : length (rev (run_max c (rev (seq 0 101)) 0)) = 101) by (rewrite rev_length, run_max_length, rev_length, seq_length; reflexivity).
  assert (Hk : k < 101) by (rewrite <- Hlen; apply nth_error_Some; congruence).
  split; [lia|].
  rewrite nth_error_rev_bins in H by (rewrite run_max_length, rev_length, seq_length; exact Hk).
  rewrite run_max_length, rev_length, seq_length in H.
  intros x. rewrite (run_max_nth _ _ _ _ _ H x). replace (S (101 - S k)) with (101 - k) by lia.
  split; intros [A B]; (split; [exact A|]); intros b Hb; apply B; [apply firstn_rev_bins; lia|apply firstn_rev_bins in Hb; lia].
Qed.

Lemma sum_shift : forall E F, length E = length F -> 
  (forall k f, nth_error F k = Some f -> (0 <= f)%Q) ->
  (forall k e f, nth_error E k = Some e -> nth_error F k = Some f -> (f <= e)%Q) ->
  (forall k e f, nth_error E (S k) = Some e -> nth_error F k = Some f -> (e <= f)%Q) ->
  (qsum F <= qsum E /\ qsum E <= qsum F + hd 0 E)%Q.
Proof.
  induction E as [|e E IH]; intros [|f F] HL H0 H1 H2; try discriminate HL.
  - cbn. split; discriminate.
  - cbn in HL. destruct (IH F) as [A B]; [lia| | | |].
    + intros k g Hg. apply (H0 (S k) g Hg).
    + intros k a g Ha Hg. apply (H1 (S k) a g Ha Hg).
    + intros k a g Ha Hg. apply (H2 (S k) a g Ha Hg).
    + assert (He := H1 0 e f eq_refl eq_refl). assert (Hf := H0 0 f eq_refl).
      unfold qsum in *. cbn [fold_right hd]. split; [lra|].
      destruct E as [|e' E]; cbn [hd] in B; [lra|]. assert (X := H2 0 e' f eq_refl eq_refl). lra.
Qed.

Section FloatEnd.
  Variables (eps unit : Z) (ds : list detection).
  Hypothesis Hin : det_input unit ds.
  Variables (sel : detection -> bool) (datums : drow -> bool).
  Hypothesis Hsel : det_selects ds datums sel.
  Variable e : deval.
  Hypothesis Hu : (0 <= unit)%Z.
  Hypothesis He : det_evaluator eps unit ds e.
  Hypothesis Hfew : few_det_labels ds.
  Hypothesis Hann : few_annotations ds.
  Variables (v : String.string) (vi : nat).
  Hypothesis Hv : label_no e v vi.
  Variable t : Z.
  Hypothesis Ht : (0 < t)%Z.
  Local Notation l := (Z.of_nat vi).
  Local Notation G := (gts_with sel ds v).
  Local Notation pts := (fst (running eps t run0 (filter datums (List.concat (de_ranked e))))).

  Lemma G_small : (Z.of_nat G < 2 ^ 31)%Z.
  Proof. destruct Hann as (_ & Hg & _). assert (Y := gts_with_bound sel v ds). lia. Qed.

  Lemma point_bound p : In p pts -> d_pl (fst (fst p)) = l -> snd p <= G.
  Proof.
    intros Hp Hl. destruct (end_facts eps unit ds Hin e He) as (L & Hst & HR & _ & B & Hf & _). assert (Hv' := Hv). apply B in Hv'.
    specialize (Hf Hfew). set (ids := sel_rows ds sel). assert (Hids := sel_rows_selects ds sel). fold ids in Hids.
    assert (Hb := hits_bound eps unit ds L _ _ Hu Hin Hst HR Hf sel ids Hids v vi Hv' t Ht).
    assert (Ef : filter datums (List.concat (de_ranked e)) = filter ids (List.concat (de_ranked e))).
    { apply filter_ext_in. intros r Hr. apply (end_ranked_ext eps unit ds Hin sel datums Hsel e Hu He). exact Hr. }
    rewrite Ef in Hp. etransitivity; [apply (point_tp eps t l _ p Hp Hl)|exact Hb].
  Qed.

  Local Notation bins p := (ebin (snd p) G).
  Local Notation fbins p := (fbin (snd p) G).

  Lemma bins_le p : In p pts -> d_pl (fst (fst p)) = l -> fbins p <= bins p <= 100.
  Proof.
    intros Hp Hl. assert (H := point_bound p Hp Hl). assert (HG := G_small). change (2 ^ 31)%Z with 2147483648%Z in HG.
    destruct (Nat.eq_dec G 0) as [E|E].
    - rewrite E in *. replace (snd p) with 0 by lia. rewrite fbin_zero. split; [apply Nat.le_0_l|]. cbn. lia.
    - split; [|unfold ebin; apply Nat.div_le_upper_bound; lia].
      rewrite fbin_spec; [|exact H|lia|change (2 ^ 44)%Z with 17592186044416%Z; lia]. destruct (_ && _); lia.
  Qed.
  Lemma bins_ge p k : In p pts -> d_pl (fst (fst p)) = l -> k <= bins p ->
    k <= fbins p \/ (lost k = true /\ (exists j, G = 50 * j)) .
  Proof.
    intros Hp Hl Hk. assert (H := point_bound p Hp Hl). assert (HG := G_small). change (2 ^ 31)%Z with 2147483648%Z in HG.
    destruct (Nat.eq_dec G 0) as [E|E].
    - left. rewrite E in *. replace (snd p) with 0 in * by lia. unfold ebin in Hk. cbn in Hk. lia.
    - rewrite fbin_spec; [|exact H|lia|change (2 ^ 44)%Z with 17592186044416%Z; lia].
      destruct (lost (bins p) && Nat.eqb (bins p * G) (100 * snd p)) eqn:El; [|left; exact Hk].
      destruct (Nat.eq_dec k (bins p)) as [->|Hne]; [|left; lia].
      right. split; [apply andb_true_iff in El; tauto|]. apply (lost_50 (snd p) G); [lia|exact El].
  Qed.
  Lemma bins_near p k : In p pts -> d_pl (fst (fst p)) = l -> S k <= bins p -> k <= fbins p.
  Proof.
    intros Hp Hl Hk. assert (H := point_bound p Hp Hl). assert (HG := G_small). change (2 ^ 31)%Z with 2147483648%Z in HG.
    destruct (Nat.eq_dec G 0) as [E|E].
    - rewrite E in *. replace (snd p) with 0 in * by lia. unfold ebin in Hk. cbn in Hk. lia.
    - rewrite fbin_spec; [|exact H|lia|change (2 ^ 44)%Z with 17592186044416%Z; lia].
      destruct (_ && _); lia.
  Qed.

  Lemma rep_gts_G : rep_gts e datums l = G.
  Proof. apply (end_gts eps unit ds Hin sel datums Hsel e He v vi Hv). Qed.

  (* what the two curves list at level k *)
  Lemma exact_level k q : nth_error (rep_pr_curve eps e datums t l) k = Some q ->
    forall x, (q <= x)%Q <-> (0 <= x)%Q /\ forall p, In p pts -> d_pl (fst (fst p)) = l -> k <= bins p -> (pt_precision p <= x)%Q.
  Proof.
    intros Hq x. destruct (level_nth _ k q Hq) as (Hk & A). rewrite A. split; intros [X1 X2]; (split; [exact X1|]).
    - intros p Hp Hl Hb. destruct (bins_le p Hp Hl) as [_ Hb2].
      refine (proj2 (proj1 (eval_curve_max eps t (rep_gts e datums) datums l (de_ranked e) (bins p) x) (X2 (bins p) (conj Hb Hb2))) p Hp _).
      unfold pt_in, pt_bin. rewrite Hl, rep_gts_G, Z.eqb_refl. apply Nat.eqb_refl.
    - intros b Hb. apply (eval_curve_max eps t (rep_gts e datums) datums l (de_ranked e) b x). split; [exact X1|].
      intros p Hp Hin'. unfold pt_in, pt_bin in Hin'. apply andb_true_iff in Hin'. destruct Hin' as [Hl Hb'].
      apply Z.eqb_eq in Hl. apply Nat.eqb_eq in Hb'. rewrite Hl, rep_gts_G in Hb'. apply X2; [exact Hp|exact Hl|].
      unfold ebin. rewrite Hb'. lia.
  Qed.
  Lemma float_level k q : nth_error (rep_fpr_curve eps e datums t l) k = Some q ->
    forall x, (q <= x)%Q <-> (0 <= x)%Q /\ forall p, In p pts -> d_pl (fst (fst p)) = l -> k <= fbins p -> (pt_precision p <= x)%Q.
  Proof.
    intros Hq x. destruct (level_nth _ k q Hq) as (Hk & A). rewrite A. split; intros [X1 X2]; (split; [exact X1|]).
    - intros p Hp Hl Hb. destruct (bins_le p Hp Hl) as [Hb1 Hb2].
      refine (proj2 (proj1 (eval_fcurve_max eps t (rep_gts e datums) datums l (de_ranked e) (fbins p) x) (X2 (fbins p) (conj Hb (Nat.le_trans _ _ _ Hb1 Hb2)))) p Hp _).
      unfold pt_fin, pt_fbin. rewrite Hl, rep_gts_G, Z.eqb_refl. apply Nat.eqb_refl.
    - intros b Hb. apply (eval_fcurve_max eps t (rep_gts e datums) datums l (de_ranked e) b x). split; [exact X1|].
      intros p Hp Hin'. unfold pt_fin, pt_fbin in Hin'. apply andb_true_iff in Hin'. destruct Hin' as [Hl Hb'].
      apply Z.eqb_eq in Hl. apply Nat.eqb_eq in Hb'. rewrite Hl, rep_gts_G in Hb'. apply X2; [exact Hp|exact Hl|]. lia.
  Qed.

  Lemma float_le_exact k q f : nth_error (rep_pr_curve eps e datums t l) k = Some q -> nth_error (rep_fpr_curve eps e datums t l) k = Some f -> (f <= q)%Q.
  Proof.
    intros Hq Hf. apply (float_level k f Hf). destruct (proj1 (exact_level k q Hq q) (Qle_refl q)) as [A B]. split; [exact A|].
    intros p Hp Hl Hb. apply B; auto. destruct (bins_le p Hp Hl). lia.
  Qed.
  Lemma next_le_float k q f : nth_error (rep_pr_curve eps e datums t l) (S k) = Some q -> nth_error (rep_fpr_curve eps e datums t l) k = Some f -> (q <= f)%Q.
  Proof.
    intros Hq Hf. apply (exact_level (S k) q Hq). destruct (proj1 (float_level k f Hf f) (Qle_refl f)) as [A B]. split; [exact A|].
    intros p Hp Hl Hb. apply B; auto. apply bins_near; assumption.
  Qed.
  Lemma float_eq_exact k q f : nth_error (rep_pr_curve eps e datums t l) k = Some q -> nth_error (rep_fpr_curve eps e datums t l) k = Some f ->
    lost k = false \/ (forall j, G <> 50 * j) -> (f == q)%Q.
  Proof.
    intros Hq Hf Hor. apply Qle_antisym; [apply (float_le_exact k q f Hq Hf)|].
    apply (exact_level k q Hq). destruct (proj1 (float_level k f Hf f) (Qle_refl f)) as [A B]. split; [exact A|].
    intros p Hp Hl Hb. apply B; auto. destruct (bins_ge p k Hp Hl Hb) as [X|[X (j & Y)]]; [exact X|].
    destruct Hor as [Hor|Hor]; [congruence|]. exfalso. apply (Hor j Y).
  Qed.
  Lemma float_nonneg k f : nth_error (rep_fpr_curve eps e datums t l) k = Some f -> (0 <= f)%Q.
  Proof. intros Hf. apply (proj1 (float_level k f Hf f) (Qle_refl f)). Qed.

  Lemma fpr_length : length (rep_fpr_curve eps e datums t l) = 101.
  Proof. unfold rep_fpr_curve. rewrite rev_length, run_max_length, rev_length, seq_length. reflexivity. Qed.
  Lemma fap_mean : (rep_fap eps e datums t l == qsum (rep_fpr_curve eps e datums t l) / 101)%Q.
  Proof.
    unfold rep_fap, average_precision, rep_fpr_curve. rewrite run_max_sum.
    rewrite (qsum_perm (rev _) _ (Permutation_sym (Permutation_rev _))). field.
  Qed.

  Lemma float_ap : (rep_fap eps e datums t l <= rep_ap eps e datums t l /\ rep_ap eps e datums t l <= rep_fap eps e datums t l + (1 # 101))%Q.
  Proof.
    rewrite fap_mean, pr_curve_mean.
    destruct (sum_shift (rep_pr_curve eps e datums t l) (rep_fpr_curve eps e datums t l)) as [A B].
    - rewrite fpr_length. apply pr_curve_length.
    - apply float_nonneg.
    - apply float_le_exact.
    - apply next_le_float.
    - assert (H1 : (hd 0 (rep_pr_curve eps e datums t l) <= 1)%Q).
      { assert (HL := pr_curve_length eps e datums t l). destruct (rep_pr_curve eps e datums t l) as [|q u] eqn:E; [discriminate|]. cbn [hd].
        assert (X := pr_curve_range eps unit ds Hin sel datums Hsel e Hu He Hfew v vi t 0 q Hv Ht). rewrite E in X. apply X. reflexivity. }
      unfold Qdiv. change (/ 101)%Q with (1 # 101)%Q. split; lra.
  Qed.

  Lemma qsum_pointwise : forall (E F : list Q), length E = length F ->
    (forall k x f, nth_error E k = Some x -> nth_error F k = Some f -> (f == x)%Q) -> (qsum F == qsum E)%Q.
  Proof.
    clear. induction E as [|a E IH]; intros [|b F] HL H; try discriminate HL; [reflexivity|].
    unfold qsum in *. cbn [fold_right]. rewrite (IH F); [|cbn in HL; lia|intros k x f Hx Hf; apply (H (S k) x f Hx Hf)].
    rewrite (H 0 a b eq_refl eq_refl). reflexivity.
  Qed.
  Lemma float_ap_eq : (forall j, G <> 50 * j) -> (rep_fap eps e datums t l == rep_ap eps e datums t l)%Q.
  Proof.
    intros H. rewrite fap_mean, pr_curve_mean. rewrite (qsum_pointwise (rep_pr_curve eps e datums t l) (rep_fpr_curve eps e datums t l)); [reflexivity| |].
    - rewrite fpr_length. apply pr_curve_length.
    - intros k q f Hq Hf. apply (float_eq_exact k q f Hq Hf). right. exact H.
  Qed.
End FloatEnd.

(* mean average precision *)
Section FloatMean.
  Variables (eps unit : Z) (ds : list detection).
  Hypothesis Hin : det_input unit ds.
  Variables (sel : detection -> bool) (datums : drow -> bool).
  Hypothesis Hsel : det_selects ds datums sel.
  Variable e : deval.
  Hypothesis Hu : (0 <= unit)%Z.
  Hypothesis He : det_evaluator eps unit ds e.
  Hypothesis Hfew : few_det_labels ds.
  Hypothesis Hann : few_annotations ds.

  Lemma qmean_close {A} (f g : A -> Q) ls : (forall a, In a ls -> (f a <= g a /\ g a <= f a + (1 # 101))%Q) ->
    match qmean (map f ls), qmean (map g ls) with
    | Some a, Some b => (a <= b /\ b <= a + (1 # 101))%Q
    | None, None => ls = []
    | _, _ => False
    end.
  Proof.
    clear. intros H. destruct ls as [|a ls]; [reflexivity|].
    assert (X : forall us, (forall a, In a us -> (f a <= g a /\ g a <= f a + (1 # 101))%Q) ->
      (qsum (map f us) <= qsum (map g us) /\ qsum (map g us) <= qsum (map f us) + qnat (length us) * (1 # 101))%Q).
    { clear. induction us as [|a us IH]; intros H; [cbn; split; discriminate|].
      destruct (IH (fun a Ha => H a (or_intror Ha))) as [A1 A2]. destruct (H a (or_introl eq_refl)) as [B1 B2].
      unfold qsum, qnat in *. cbn [map fold_right length]. rewrite Nat2Z.inj_succ. unfold Z.succ. rewrite inject_Z_plus.
      change (inject_Z 1) with 1%Q. split; lra. }
    destruct (X (a :: ls) H) as [A1 A2]. clear X H.
    assert (Hp : (0 < qnat (length (a :: ls)))%Q) by (unfold qnat, Qlt; cbn; lia).
    assert (E : forall h : A -> Q, qmean (map h (a :: ls)) = Some (qsum (map h (a :: ls)) / qnat (length (a :: ls)))%Q).
    { intros h. unfold qmean. cbn [map length]. rewrite map_length. reflexivity. }
    rewrite !E. set (k := qnat (length (a :: ls))) in *. assert (Hk : ~ (k == 0)%Q) by (intros G; rewrite G in Hp; discriminate Hp).
    split.
    - apply Qmult_le_compat_r; [exact A1|]. apply Qinv_le_0_compat, Qlt_le_weak. exact Hp.
    - apply Qle_shift_div_r; [exact Hp|]. setoid_replace ((qsum (map f (a :: ls)) / k + (1 # 101)) * k)%Q with (qsum (map f (a :: ls)) + k * (1 # 101))%Q by (field; exact Hk).
      exact A2.
  Qed.

  Lemma float_map t : (0 < t)%Z -> 
    match rep_fmap eps e datums t, rep_map eps e datums t with
    | Some a, Some b => (a <= b /\ b <= a + (1 # 101))%Q
    | None, None => label_axis e = []
    | _, _ => False
    end.
  Proof.
    intros Ht. unfold rep_fmap, rep_map, mean_ap. apply qmean_close. intros a Ha.
    destruct (axis_label eps unit ds Hin e a He Ha) as (v & vi & Hv & ->).
    apply (float_ap eps unit ds Hin sel datums Hsel e Hu He Hfew Hann v vi Hv t Ht).
  Qed.
End FloatMean.
