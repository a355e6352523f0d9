(* ROCAUC in terms of the input. *)
From Verif Require Import Prelude CacheModel CacheSpec Counting SortProofs ClsModel ClsSpec ClsLabelProofs ClsProofs RocModel RocProofs.
From Coq Require Import QArith Lqa.
From Coq Require String.
Local Open Scope nat_scope.
Local Open Scope list_scope.

Lemma Permutation_filter {A} (f : A -> bool) l1 l2 : Permutation l1 l2 -> Permutation (filter f l1) (filter f l2).
Proof.
  induction 1 as [|x a b _ IH|x y a|a b c _ IH1 _ IH2]; cbn.
  - constructor.
  - destruct (f x); [constructor|]; exact IH.
  - destruct (f x), (f y); try reflexivity. apply perm_swap.
  - etransitivity; eauto.
Qed.

Lemma pos_of_perm a b : Permutation a b -> Permutation (pos_of a) (pos_of b).
Proof. intros H. unfold pos_of. apply Permutation_map, Permutation_filter, H. Qed.
Lemma neg_of_perm a b : Permutation a b -> Permutation (neg_of a) (neg_of b).
Proof. intros H. unfold neg_of. apply Permutation_map, Permutation_filter, H. Qed.
Lemma mw_perm a b : Permutation a b -> twice_mann_whitney a = twice_mann_whitney b.
Proof.
  intros H. unfold twice_mann_whitney.
  rewrite (zsum_perm _ _ (Permutation_map _ (pos_of_perm _ _ H))).
  apply zsum_ext. intros p _. apply zsum_perm, Permutation_map, neg_of_perm, H.
Qed.

Lemma mw_bounds o : (0 <= twice_mann_whitney o <= 2 * Z.of_nat (length (pos_of o)) * Z.of_nat (length (neg_of o)))%Z.
Proof.
  unfold twice_mann_whitney. generalize (pos_of o) (neg_of o). intros P N.
  assert (HN : forall p, (0 <= zsum (map (pair_score p) N) <= 2 * Z.of_nat (length N))%Z).
  { intros p. induction N as [|n t IH]; cbn; [lia|]. fold (zsum (map (pair_score p) t)). unfold pair_score at 1 3.
    destruct (n <? p)%Z, (n =? p)%Z; lia. }
  induction P as [|p t IH]; cbn [map zsum fold_right length]; [lia|].
  fold (zsum (map (fun p => zsum (map (pair_score p) N)) t)). specialize (HN p). lia.
Qed.

Lemma filter_map_comm {A B} (f : B -> bool) (g : A -> B) l : filter f (map g l) = map g (filter (fun x => f (g x)) l).
Proof. induction l as [|x t IH]; cbn; [reflexivity|]. destruct (f (g x)); cbn; rewrite IH; reflexivity. Qed.

Lemma filter_true {A} (l : list A) : filter (fun _ => true) l = l.
Proof. apply filter_all. reflexivity. Qed.

Section Auc.
  Variable cs : list classification.
  Hypothesis Hacc : Forall accepted cs.
  Local Notation L := (labels_of cs).

  Lemma outcomes_rows d c l i : nth_error cs d = Some c -> nth_error L i = Some l ->
    map outc (of_label i (map project (canon_rows L d c)))
    = map (fun p => (snd p, String.eqb (c_groundtruth c) l)) (filter (fun p => String.eqb (fst p) l) (candidates c)).
  Proof.
    intros Hc Hi. pose proof (nth_error_In _ _ Hc) as Hin. pose proof (nth_error_In _ _ Hi) as Hl.
    unfold of_label. rewrite filter_map_comm, map_map. unfold canon_rows, mapi.
    assert (Hcand : forall p, In p (candidates c) -> In (fst p) L) by (intros p Hp; eapply labels_of_pd; eauto).
    generalize 0. revert Hcand. generalize (argmax (c_scores c)) (candidates c). intros mx ps Hcand.
    induction ps as [|p t IH]; intros k; [reflexivity|].
    cbn [mapi_from filter].
    assert (E : (i_label (project (canon_row L d c mx k p)) =? Z.of_nat i)%Z = String.eqb (fst p) l).
    { cbn. rewrite <- (idx_of_nth L l i (labels_of_NoDup cs) Hi). apply idx_eqb; [apply Hcand; left; reflexivity|exact Hl]. }
    rewrite E. destruct (String.eqb_spec (fst p) l) as [Ep|N]; cbn [map].
    - rewrite IH by (intros; apply Hcand; right; auto). f_equal. unfold outc, project. cbn. rewrite Ep. reflexivity.
    - apply IH. intros; apply Hcand; right; auto.
  Qed.

  Lemma outcomes_mapi i l : nth_error L i = Some l -> forall cs' k, (forall j, nth_error cs' j = nth_error cs (k + j)) ->
    mapi_from (fun d c => map outc (filter (fun r => (i_label r =? Z.of_nat i)%Z) (map project (canon_rows L d c)))) k cs'
    = map (fun c => map (fun p => (snd p, String.eqb (c_groundtruth c) l)) (filter (fun p => String.eqb (fst p) l) (candidates c))) cs'.
  Proof.
    intros Hi. induction cs' as [|c t IH]; intros k Hnth; [reflexivity|].
    cbn [mapi_from map]. f_equal.
    - apply outcomes_rows; [|exact Hi]. specialize (Hnth 0). rewrite Nat.add_0_r in Hnth. symmetry. exact Hnth.
    - apply IH. intros j. specialize (Hnth (S j)). cbn [nth_error] in Hnth. rewrite Hnth. f_equal. lia.
  Qed.

  Lemma outcomes_stored tables l i : stored cs tables -> nth_error L i = Some l ->
    Permutation (map outc (of_label i (map project (concat tables)))) (outcomes l cs).
  Proof.
    intros [Hp _] Hi. rewrite (W_writes cs Hacc) in Hp.
    transitivity (map outc (of_label i (map project (concat (mapi (canon_rows L) cs))))).
    { apply Permutation_map. unfold of_label. apply Permutation_filter, Permutation_map, Hp. }
    rewrite concat_map. unfold of_label. rewrite filter_concat, concat_map, !map_map.
    unfold mapi. rewrite map_mapi_from. unfold outcomes. match goal with |- Permutation (concat ?a) (concat ?b) => replace a with b; [reflexivity|] end.
    symmetry. apply outcomes_mapi; [exact Hi|reflexivity].
  Qed.

  Hypothesis Hdist : Forall distinct_candidates cs.
  Hypothesis Hcov : Forall covered cs.

  Lemma one_candidate c l : accepted c -> distinct_candidates c ->
    length (filter (fun p => String.eqb (fst p) l) (candidates c)) = if smem l (c_predictions c) then 1 else 0.
  Proof.
    intros [_ Hlen] Hd. unfold distinct_candidates in Hd. unfold smem.
    rewrite <- (combine_fst (c_predictions c) (c_scores c) Hlen) in *. fold (candidates c) in *.
    generalize dependent (candidates c). intros ps Hd. induction ps as [|p t IH]; [reflexivity|].
    cbn [map] in Hd. inversion Hd as [|? ? Hn Hd']; subst. cbn [filter map existsb].
    rewrite (String.eqb_sym l (fst p)). destruct (String.eqb_spec (fst p) l) as [E|N].
    - cbn. f_equal. rewrite filter_none; [reflexivity|]. intros q Hq. apply String.eqb_neq. intros E'.
      apply Hn. apply in_map_iff. exists q. split; [congruence|exact Hq].
    - cbn. exact (IH Hd').
  Qed.

  Lemma gt_count tables l : stored cs tables -> In l L ->
    gt_count_label tables (idx L l) = countb (fun c => String.eqb (c_groundtruth c) l) cs.
  Proof.
    intros Hst Hl. unfold gt_count_label.
    rewrite (list_sum_nat_ext _ (fun t => dcount zz_dec (fun r => (r_datum r, r_gt r))
       (fun r => (0 <=? r_gt r)%Z && (r_gt r =? idx L l)%Z) (filter (fun _ => true) t))).
    2: { intros t _. rewrite dkeys_countb, filter_true. reflexivity. }
    rewrite (sum_dcount cs Hacc zz_dec _ tables (fun _ => true) (fun _ => true) _
        (fun c => if String.eqb (c_groundtruth c) l then 1 else 0) Hst).
    - apply list_sum_nat_if.
    - intros r d c _ _ _. reflexivity.
    - intros a b E. congruence.
    - intros d c Hc. rewrite (dkey_gt_const cs) by exact Hc. apply if_bool_eq. apply existsb_iff.
      pose proof (labels_of_gt cs c (nth_error_In _ _ Hc)) as Ig.
      assert (E : forall r, In r (canon_rows L d c) ->
                (0 <=? r_gt r)%Z && (r_gt r =? idx L l)%Z = String.eqb (c_groundtruth c) l).
      { intros r Hr. apply canon_In in Hr. destruct Hr as (_ & _ & _ & -> & _). rewrite idx_eqb by assumption.
        pose proof (idx_range L _ Ig). replace (0 <=? idx L (c_groundtruth c))%Z with true by lia. reflexivity. }
      split.
      + intros (r & Hr & H). rewrite (E r Hr) in H. exact H.
      + intros H. destruct (canon_split L d c (acc_of cs Hacc d c Hc)) as (pre & w & post & Ew & _).
        exists w. assert (Hw : In w (canon_rows L d c)) by (rewrite Ew; apply in_app_iff; right; left; reflexivity).
        split; [exact Hw|]. rewrite (E w Hw). exact H.
  Qed.

  Lemma pd_count tables l : stored cs tables -> In l L ->
    pd_count_label tables (idx L l) = countb (fun c => smem l (c_predictions c)) cs.
  Proof.
    intros Hst Hl. unfold pd_count_label.
    rewrite (list_sum_nat_ext _ (fun t => dcount zz_dec (fun r => (r_datum r, r_pd r))
       (fun r => (0 <=? r_pd r)%Z && (r_pd r =? idx L l)%Z) (filter (fun _ => true) t))).
    2: { intros t _. rewrite dkeys_countb, filter_true. reflexivity. }
    rewrite (sum_dcount cs Hacc zz_dec _ tables (fun _ => true) (fun _ => true) _
        (fun c => if smem l (c_predictions c) then 1 else 0) Hst).
    - apply list_sum_nat_if.
    - intros r d c _ _ _. reflexivity.
    - intros a b E. congruence.
    - intros d c Hc. rewrite (dkey_pd_const cs) by exact Hc. apply if_bool_eq. apply existsb_iff.
      rewrite smem_In. pose proof (acc_of cs Hacc d c Hc) as [_ Hlen].
      assert (E : forall r, In r (canon_rows L d c) ->
                (0 <=? r_pd r)%Z && (r_pd r =? idx L l)%Z = String.eqb (r_pd_label r) l).
      { intros r Hr. apply canon_In in Hr. destruct Hr as (_ & _ & _ & _ & -> & Hin & _).
        pose proof (labels_of_pd cs c _ (nth_error_In _ _ Hc) Hin) as Ip. cbn in Ip. rewrite idx_eqb by assumption.
        pose proof (idx_range L _ Ip). replace (0 <=? idx L (r_pd_label r))%Z with true by lia. reflexivity. }
      split.
      + intros (r & Hr & H). rewrite (E r Hr), String.eqb_eq in H. subst l. apply canon_In in Hr.
        destruct Hr as (_ & _ & _ & _ & _ & Hin & _). unfold candidates in Hin. apply in_combine_l in Hin. exact Hin.
      + intros H. rewrite <- (combine_fst (c_predictions c) (c_scores c) Hlen) in H.
        apply in_map_iff in H. destruct H as ([a s] & Ea & Hin). cbn in Ea. subst a.
        destruct (canon_In_conv L d c _ _ Hin) as (r & Hr & Hrl & _). exists r. split; [exact Hr|].
        rewrite (E r Hr), Hrl. apply String.eqb_refl.
  Qed.

  Lemma outcomes_length l : length (outcomes l cs) = countb (fun c => smem l (c_predictions c)) cs.
  Proof.
    unfold outcomes. rewrite length_concat, map_map. rewrite <- list_sum_nat_if.
    apply list_sum_nat_ext. intros c Hc. rewrite map_length. rewrite Forall_forall in Hacc, Hdist.
    apply one_candidate; auto.
  Qed.
  Lemma pos_length l : length (pos_of (outcomes l cs)) = countb (fun c => String.eqb (c_groundtruth c) l) cs.
  Proof.
    unfold pos_of, outcomes. rewrite map_length, filter_concat, length_concat, !map_map.
    rewrite <- list_sum_nat_if. apply list_sum_nat_ext. intros c Hc.
    rewrite Forall_forall in Hacc, Hdist, Hcov. destruct (String.eqb_spec (c_groundtruth c) l) as [E|N].
    - rewrite filter_all by (intros x Hx; apply in_map_iff in Hx; destruct Hx as (p & <- & _); reflexivity).
      rewrite map_length, one_candidate by auto. subst l. specialize (Hcov c Hc). unfold covered in Hcov.
      apply smem_In in Hcov. rewrite Hcov. reflexivity.
    - rewrite filter_none; [reflexivity|]. intros x Hx. apply in_map_iff in Hx. destruct Hx as (p & <- & _). reflexivity.
  Qed.
  Lemma pos_neg_length o : length (pos_of o) + length (neg_of o) = length o.
  Proof.
    unfold pos_of, neg_of. rewrite !map_length. induction o as [|x t IH]; [reflexivity|]. cbn.
    destruct (snd x); cbn; lia.
  Qed.

  Lemma countb_outc_pos rows : countb i_match rows = length (pos_of (map outc rows)).
  Proof. unfold pos_of, countb. rewrite map_length, filter_map_comm, map_length. reflexivity. Qed.
End Auc.

Lemma row_leb_score a b : row_leb roc_sorting a b = true -> (i_score b <= i_score a)%Z.
Proof. cbn. destruct (Z.eqb_spec (i_score a) (i_score b)); [lia|]. intros H. lia. Qed.

Lemma sorted_descending l out : stable_sort_of (row_leb roc_sorting) l out -> descending out.
Proof.
  intros [H _]. unfold descending. induction H as [|a t Hs IH Hf]; constructor; [exact IH|].
  rewrite Forall_forall in *. intros x Hx. apply row_leb_score. apply Hf. exact Hx.
Qed.

Lemma descending_filter f rows : descending rows -> descending (filter f rows).
Proof. apply StronglySorted_filter. Qed.

Section AucMain.
  Variable cs : list classification.
  Hypothesis Hacc : Forall accepted cs.
  Hypothesis Hdist : Forall distinct_candidates cs.
  Hypothesis Hcov : Forall covered cs.
  Local Notation L := (labels_of cs).
  Variable tables : list (list crow).
  Hypothesis Hst : stored cs tables.
  Variable inter : list (list irow).
  Hypothesis Hsort : stable_sort_of (row_leb roc_sorting) (map project (concat tables)) (concat inter).
  Variable keys : list nat.
  Hypothesis Hkeys : Permutation keys (seq 0 (length L)).

  Lemma inter_outcomes i l : nth_error L i = Some l ->
    Permutation (map outc (of_label i (concat inter))) (outcomes l cs).
  Proof.
    intros Hi. rewrite <- (outcomes_stored cs Hacc tables l i Hst Hi).
    apply Permutation_map. unfold of_label. apply Permutation_filter. symmetry.
    apply (stable_sort_perm (row_leb roc_sorting) (row_leb_total roc_sorting) (row_leb_trans roc_sorting)). exact Hsort.
  Qed.

  Lemma curve_points i l : nth_error L i = Some l ->
    points_of i (roc_curve keys inter) = label_curve (of_label i (concat inter)).
  Proof.
    intros Hi. assert (Hlt : i < length L) by (apply nth_error_Some; congruence).
    apply curve_of_label.
    - apply (Permutation_NoDup (Permutation_sym Hkeys)). apply seq_NoDup.
    - apply (Permutation_in _ (Permutation_sym Hkeys)). apply in_seq. lia.
    - rewrite (Permutation_length Hkeys), seq_length. exact Hlt.
  Qed.

  Lemma points_concat i files : points_of i (concat files) = concat (map (points_of i) files).
  Proof.
    induction files as [|f t IH]; [reflexivity|]. cbn [concat map]. rewrite points_of_app, IH. reflexivity.
  Qed.

  Definition reported (i : nat) (files : list (list cpoint)) : Q :=
    rocauc_label (Z.of_nat (gt_count_label tables (Z.of_nat i))) (Z.of_nat (pd_count_label tables (Z.of_nat i))) i files.

  (* no file holds only the origin of the label's curve *)
  Definition origin_not_alone (i : nat) (files : list (list cpoint)) : Prop :=
    forall f, In f files -> points_of i f <> [(0, 0)].

  Theorem reported_auc i l files :
    nth_error L i = Some l -> concat files = roc_curve keys inter -> origin_not_alone i files ->
    (Z.of_nat (length cs) < 2 ^ 64)%Z -> top_nonzero (outcomes l cs) ->
    pos_of (outcomes l cs) <> [] -> neg_of (outcomes l cs) <> [] ->
    (reported i files ==
      inject_Z (twice_mann_whitney (outcomes l cs))
      / (2 * inject_Z (Z.of_nat (length (neg_of (outcomes l cs)))) * inject_Z (Z.of_nat (length (pos_of (outcomes l cs))))))%Q.
  Proof.
    intros Hi Hfiles Hok Hsize Htop Hpos Hneg.
    pose proof (nth_error_In _ _ Hi) as Hl.
    pose proof (idx_of_nth L l i (labels_of_NoDup cs) Hi) as Ei.
    pose proof (inter_outcomes i l Hi) as Hperm.
    set (rows := of_label i (concat inter)) in *.
    assert (Hdesc : descending rows).
    { unfold rows, of_label. apply descending_filter. eapply sorted_descending; eauto. }
    destruct rows as [|r rest] eqn:Er.
    { exfalso. apply Permutation_nil in Hperm. rewrite Hperm in Hpos. apply Hpos. reflexivity. }
    assert (Hne : i_score r <> 0%Z).
    { inversion Hdesc as [|? ? _ Hf]; subst. rewrite Forall_forall in Hf. destruct Htop as [(x & Hx & H0)|Hall].
      - apply (Permutation_in _ (Permutation_sym Hperm)) in Hx. apply in_map_iff in Hx.
        destruct Hx as (r' & <- & Hr'). cbn in H0. destruct Hr' as [<-|Hr']; [lia|]. apply Hf in Hr'. lia.
      - assert (In (outc r) (outcomes l cs)) by (apply (Permutation_in _ Hperm); left; reflexivity).
        apply Hall in H. cbn in H. lia. }
    destruct (label_curve_area (r :: rest) r rest eq_refl Hdesc Hne) as (mid & Hc & Hmne & Hnz & Harea & _).
    unfold reported, rocauc_label. rewrite <- Ei, (gt_count cs Hacc tables l Hst Hl), (pd_count cs Hacc tables l Hst Hl).
    rewrite <- (pos_length cs Hacc Hdist Hcov), <- (outcomes_length cs Hacc Hdist).
    set (o := outcomes l cs) in *.
    assert (Hlen : length o <= length cs).
    { unfold o. rewrite (outcomes_length cs Hacc Hdist). apply countb_le_length. }
    pose proof (pos_neg_length o) as Hpn.
    assert (Hp1 : 0 < length (pos_of o)) by (destruct (pos_of o); [congruence|cbn; lia]).
    assert (Hn1 : 0 < length (neg_of o)) by (destruct (neg_of o); [congruence|cbn; lia]).
    assert (Hmod : ((Z.of_nat (length o) - Z.of_nat (length (pos_of o))) mod 2 ^ 64)%Z = Z.of_nat (length (neg_of o))).
    { rewrite Z.mod_small by lia. lia. }
    assert (Hpd : (Z.of_nat (length o) =? 0)%Z = false) by (apply Z.eqb_neq; lia).
    rewrite (chunks_area (Z.of_nat (length (pos_of o))) _ Hpd (map (points_of i) files) (0, 0) mid).
    - rewrite <- Hc. rewrite trap_area2 by (try rewrite Hmod; lia). rewrite Hmod, Harea, (mw_perm _ _ Hperm). reflexivity.
    - rewrite <- points_concat, Hfiles, (curve_points i l Hi). fold rows. rewrite Er. exact Hc.
    - exact Hnz.
    - intros H. apply in_map_iff in H. destruct H as (f & E & Hf). exact (Hok f Hf E).
  Qed.

  (* a curve kept in one file never has that problem *)
  Lemma single_file_ok i l : nth_error L i = Some l -> top_nonzero (outcomes l cs) ->
    origin_not_alone i [roc_curve keys inter].
  Proof.
    clear Hdist Hcov.
    intros Hi Htop f [<-|[]]. rewrite (curve_points i l Hi).
    pose proof (inter_outcomes i l Hi) as Hperm.
    assert (Hdesc : descending (of_label i (concat inter))).
    { unfold of_label. apply descending_filter. eapply sorted_descending; eauto. }
    destruct (of_label i (concat inter)) as [|r rest] eqn:Er; [cbn; discriminate|].
    assert (Hne : i_score r <> 0%Z).
    { inversion Hdesc as [|? ? _ Hf]; subst. rewrite Forall_forall in Hf. destruct Htop as [(x & Hx & H0)|Hall].
      - apply (Permutation_in _ (Permutation_sym Hperm)) in Hx. apply in_map_iff in Hx.
        destruct Hx as (r' & <- & Hr'). cbn in H0. destruct Hr' as [<-|Hr']; [lia|]. apply Hf in Hr'. lia.
      - assert (In (outc r) (outcomes l cs)) by (apply (Permutation_in _ Hperm); left; reflexivity).
        apply Hall in H. cbn in H. lia. }
    destruct (label_curve_area (r :: rest) r rest eq_refl Hdesc Hne) as (mid & Hc & Hmne & _).
    rewrite Hc. intros [= E]. contradiction.
  Qed.

  (* the curve cache of a finalized loader is never empty *)
  Lemma curve_nonempty : cs <> [] -> roc_curve keys inter <> [].
  Proof.
    clear Hdist Hcov.
    intros Hne. destruct cs as [|c cs'] eqn:Ecs; [congruence|]. rewrite <- Ecs in *.
    assert (Hc : In c cs) by (rewrite Ecs; left; reflexivity).
    destruct (candidates c) as [|p t] eqn:Ep.
    { rewrite Forall_forall in Hacc. destruct (Hacc c Hc) as [H1 H2]. unfold candidates in Ep.
      destruct (c_predictions c), (c_scores c); try discriminate; congruence. }
    assert (Hl : In (fst p) L) by (apply (labels_of_pd cs c p Hc); rewrite Ep; left; reflexivity).
    destruct (In_nth_error _ _ Hl) as (i & Hi).
    pose proof (inter_outcomes i (fst p) Hi) as Hperm. pose proof (curve_points i (fst p) Hi) as Hcp.
    intros E. rewrite E in Hcp. cbn in Hcp.
    destruct (of_label i (concat inter)) as [|r rest] eqn:Er.
    - apply Permutation_nil in Hperm. unfold outcomes in Hperm.
      assert (X : In (snd p, String.eqb (c_groundtruth c) (fst p)) (outcomes (fst p) cs)).
      { unfold outcomes. apply in_concat. eexists. split; [apply in_map_iff; exists c; split; [reflexivity|exact Hc]|].
        apply in_map_iff. exists p. split; [reflexivity|]. apply filter_In. split; [rewrite Ep; left; reflexivity|].
        apply String.eqb_refl. }
      unfold outcomes in X. rewrite Hperm in X. destruct X.
    - unfold label_curve in Hcp. symmetry in Hcp. apply app_eq_nil in Hcp. destruct Hcp as [H1 H2].
      pose proof (scan_state rocst0 (r :: rest)) as S. rewrite H1 in S. rewrite S in H2. unfold final_point in H2.
      cbn [k_last k_fp k_tp last rocst0 fst snd Nat.add] in H2.
      assert (countb (fun r0 => negb (i_match r0)) (r :: rest) + countb i_match (r :: rest) > 0).
      { unfold countb. cbn. destruct (i_match r); cbn; lia. }
      destruct (Nat.eqb_spec 0 (countb (fun r0 => negb (i_match r0)) (r :: rest)));
      destruct (Nat.eqb_spec 0 (countb i_match (r :: rest))); cbn in H2; try discriminate. lia.
  Qed.
End AucMain.
