(* The evaluators a user can obtain from an input, and what is true of all of them. *)
From Verif Require Import Prelude Counting CacheModel CacheSpec SortProofs CacheProofs ClsModel ClsLabelProofs FlowModel FlowProofs Pipeline
  DetModel DetSpec DetRankProofs DetCountProofs DetLoaderProofs DetStoreProofs DetLocalProofs DetApProofs DetMain DetApEnd
  DetFlowModel DetFlowProofs DetOrderProofs DetConfProofs DetMatchingProofs DetConfOrder DetExModel DetExampleProofs DetReportModel.
From Coq Require Import Lia QArith Lqa.
From Coq Require String.
Local Open Scope nat_scope.
Local Open Scope list_scope.

(* SPEC: an evaluator obtained by adding [ds] (in any number of calls) to a fresh
   in-memory or file-backed loader and finalizing it, for any batch sizes, any file
   size and any way the sorting re-batches its input *)
Definition det_evaluator (eps unit : Z) (ds : list detection) (e : deval) : Prop :=
  (exists bs rb calls, concat calls = ds /\ mem_evaluates eps unit bs rb calls e) \/
  (exists bs rpf rb calls, batching_ok rb /\ concat calls = ds /\ file_evaluates eps unit bs rpf rb calls e).
(* SPEC: number of a label in the evaluator *)
Definition label_no (e : deval) (v : String.string) (vi : nat) : Prop := ldict_get (de_labels e) (Z.of_nat vi) = Some (Some v).
Definition few_det_labels (ds : list detection) : Prop := few (nodup String.string_dec (det_labels ds)).

Lemma list_sum_nat_le {A} (f g : A -> nat) l : (forall x, f x <= g x) -> list_sum_nat (map f l) <= list_sum_nat (map g l).
Proof. intros H. induction l as [|a l IH]; [apply le_n|]. cbn. specialize (H a). unfold list_sum_nat in IH. lia. Qed.
Lemma filter_length_le {A} (f : A -> bool) l : length (filter f l) <= length l.
Proof. induction l as [|a l IH]; [apply le_n|]. cbn. destruct (f a); cbn; lia. Qed.
Lemma gts_with_bound sel v ds : gts_with sel ds v <= gts_before ds (length ds).
Proof.
  unfold gts_with, gts_before. rewrite firstn_all. apply list_sum_nat_le. intros d. destruct (sel d); [|lia].
  unfold countb. apply filter_length_le.
Qed.

(* datum filters that agree on the rows give the same reports *)
Lemma fold_left_ext_in {A B} (f g : A -> B -> A) l : (forall a b, In b l -> f a b = g a b) -> forall a, fold_left f l a = fold_left g l a.
Proof.
  induction l as [|b l IH]; intros H a; [reflexivity|]. cbn. rewrite (H a b (or_introl eq_refl)). apply IH. intros. apply H. right. assumption.
Qed.
Section FilterExt.
  Variables (f g : drow -> bool) (tables : list (list drow)).
  Hypothesis Hfg : forall r, In r (concat tables) -> f r = g r.
  Lemma filter_table_ext tb : In tb tables -> filter f tb = filter g tb.
  Proof. intros H. apply filter_ext_in. intros r Hr. apply Hfg. apply in_concat. eauto. Qed.
  Lemma filter_tables_ext : map (filter f) tables = map (filter g) tables.
  Proof. apply map_ext_in. exact filter_table_ext. Qed.
  Lemma eval_counts_ext eps t s l : eval_counts eps t s f tables l = eval_counts eps t s g tables l.
  Proof. unfold eval_counts. apply fold_left_ext_in. intros a tb Htb. rewrite (filter_table_ext tb Htb). reflexivity. Qed.
  Lemma eval_curve_ext eps t n : eval_curve eps t n f tables = eval_curve eps t n g tables.
  Proof. unfold eval_curve. f_equal. apply fold_left_ext_in. intros a tb Htb. rewrite (filter_table_ext tb Htb). reflexivity. Qed.
  Lemma gt_count_ext l : det_gt_count f tables l = det_gt_count g tables l.
  Proof. unfold det_gt_count. f_equal. apply map_ext_in. intros tb Htb. rewrite (filter_table_ext tb Htb). reflexivity. Qed.
  Lemma eval_confusion_ext eps t s : eval_confusion eps t s f tables = eval_confusion eps t s g tables.
  Proof. unfold eval_confusion. apply fold_left_ext_in. intros a tb Htb. rewrite (filter_table_ext tb Htb). reflexivity. Qed.
End FilterExt.

Section End_.
  Variables (eps unit : Z) (ds : list detection).
  Hypothesis Hin : det_input unit ds.

  Lemma end_groups e : det_evaluator eps unit ds e ->
    exists l G, add_detections eps dloader_init ds = Some l /\ loaded eps ds l /\ aligned d_datum G /\ concat G = concat (l_writes l) /\
      de_detailed e = map dsort G /\ de_labels e = det_extract_labels (de_detailed e) /\
      det_stored eps ds (l_labels l) (de_detailed e) /\ ranked_of unit (de_detailed e) (concat (de_ranked e)).
  Proof.
    intros [(bs & rb & calls & Ec & H)|(bs & rpf & rb & calls & Hrb & Ec & H)].
    - destruct (mem_evaluates_spec eps unit ds Hin bs rb calls e Ec H) as (l & El & Hl & S1 & R1 & Lb & T1).
      exists l, [concat (l_writes l)]. split; [exact El|]. split; [exact Hl|]. split; [apply aligned_single|].
      split; [cbn; apply app_nil_r|]. auto.
    - destruct (file_evaluates_spec eps unit ds Hin bs rpf rb calls e Hrb Ec H) as (l & gs & El & Hl & S1 & R1 & Lb & Hg & T1).
      exists l, (map (@concat drow) gs). split; [exact El|]. split; [exact Hl|].
      split; [apply aligned_groups; rewrite Hg; apply (ld_aligned _ _ _ Hl)|].
      split; [rewrite concat_map_concat, Hg; reflexivity|]. auto.
  Qed.

  Lemma same_length_nodup (l1 l2 : list String.string) : NoDup l1 -> NoDup l2 -> (forall v, In v l1 <-> In v l2) -> length l1 = length l2.
  Proof. intros N1 N2 H. apply Permutation_length, NoDup_Permutation; auto. Qed.

  Lemma end_facts e : det_evaluator eps unit ds e ->
    exists L, det_stored eps ds L (de_detailed e) /\ ranked_of unit (de_detailed e) (concat (de_ranked e)) /\
      sorted_tables (de_detailed e) /\ (forall v vi, label_no e v vi <-> index_of v L = Some vi) /\
      (few_det_labels ds -> few L) /\ length (de_labels e) = length L /\
      (forall k v, In (k, v) (de_labels e) <-> exists s vi, v = Some s /\ k = Z.of_nat vi /\ index_of s L = Some vi) /\
      NoDup (map fst (de_labels e)).
  Proof.
    intros He. destruct (end_groups e He) as (l & G & El & Hl & Ha & Ec & Ed & Eb & Hst & HR).
    exists (l_labels l). split; [exact Hst|]. split; [exact HR|]. split; [rewrite Ed; apply map_dsort_sorted|].
    assert (HN : NoDup (l_labels l)) by apply (stored_NoDup eps unit ds (l_labels l) (de_detailed e) Hin Hst).
    assert (Hlab : forall v vi, label_no e v vi <-> index_of v (l_labels l) = Some vi).
    { intros v vi. unfold label_no. rewrite Eb, (det_labels_readback eps unit ds _ _ Hin Hst). split.
      - intros (s & E & H). inversion E; subst. apply index_of_NoDup; assumption.
      - intros H. exists v. split; [reflexivity|]. apply index_of_nth. exact H. }
    split; [exact Hlab|]. split.
    { unfold few_det_labels, few. rewrite (same_length_nodup (l_labels l) (nodup String.string_dec (det_labels ds))); auto.
      - apply NoDup_nodup.
      - intros v. rewrite nodup_In. apply (stored_labels eps unit ds _ _ Hin Hst). }
    assert (Hg := det_extract_gen (l_labels l) (de_detailed e)). destruct Hg as [Hs Hk].
    { intros r Hr. apply (stored_ids_ok eps ds (l_labels l) (de_detailed e) (input_ok unit ds Hin) Hst r Hr). }
    assert (Hget : forall k v, In (k, v) (de_labels e) <-> exists s vi, v = Some s /\ k = Z.of_nat vi /\ index_of s (l_labels l) = Some vi).
    { intros k v. split.
      - intros H. rewrite Eb in H. assert (H' := H). apply (proj2 Hs) in H'. destruct H' as (H0 & s & -> & Hn).
        exists s, (Z.to_nat k). split; [reflexivity|]. split; [lia|]. apply index_of_NoDup; assumption.
      - intros (s & vi & -> & -> & H). apply Hlab in H. unfold label_no in H. rewrite Eb in *. apply (ldict_get_In (l_labels l)) in H; [exact H|exact Hs]. }
    split; [|split; [exact Hget|rewrite Eb; apply Hs]].
    rewrite <- (map_length fst (de_labels e)), <- (seq_length (length (l_labels l)) 0), <- (map_length Z.of_nat (seq 0 _)).
    apply Permutation_length, NoDup_Permutation.
    - rewrite Eb. apply Hs.
    - apply FinFun.Injective_map_NoDup; [intros a b; lia|apply seq_NoDup].
    - intros k. rewrite !in_map_iff. split.
      + intros ([k' v] & <- & H). apply Hget in H. destruct H as (s & vi & -> & -> & H). exists vi. split; [reflexivity|].
        apply in_seq. apply index_of_nth in H. assert (vi < length (l_labels l)) by (apply nth_error_Some; congruence). lia.
      + intros (i & <- & H). apply in_seq in H. destruct (nth_error (l_labels l) i) as [s|] eqn:E; [|apply nth_error_None in E; lia].
        exists (Z.of_nat i, Some s). split; [reflexivity|]. apply Hget. exists s, i. split; [reflexivity|]. split; [reflexivity|].
        apply index_of_NoDup; assumption.
  Qed.

  Lemma det_label_exists e v : det_evaluator eps unit ds e -> (exists vi, label_no e v vi) <-> In v (det_labels ds).
  Proof.
    intros He. destruct (end_facts e He) as (L & Hst & _ & _ & Hl & _). rewrite <- (stored_labels eps unit ds L _ Hin Hst). split.
    - intros (vi & H). apply Hl in H. apply index_of_nth in H. eapply nth_error_In; eauto.
    - intros H. destruct (index_of v L) as [i|] eqn:E; [exists i; apply Hl; exact E|]. apply index_of_None in E. contradiction.
  Qed.

  (* ---------------------------------------------------------------- two evaluators *)
  Lemma end_same_ranking e1 e2 : det_evaluator eps unit ds e1 -> det_evaluator eps unit ds e2 ->
    concat (de_ranked e1) = concat (de_ranked e2).
  Proof.
    intros H1 H2.
    destruct (end_groups e1 H1) as (l & G1 & El & Hl & A1 & C1 & D1 & _ & _ & R1).
    destruct (end_groups e2 H2) as (l' & G2 & El' & _ & A2 & C2 & D2 & _ & _ & R2).
    assert (l' = l) by congruence. subst l'. rewrite D1 in R1. rewrite D2 in R2.
    eapply (ranked_groups unit (concat (l_writes l)) G1 G2); eauto.
    - apply (ld_sorted _ _ _ Hl).
    - apply (written_pds eps unit ds Hin l El Hl).
  Qed.

  Lemma end_same_labels e1 e2 v vi : det_evaluator eps unit ds e1 -> det_evaluator eps unit ds e2 ->
    label_no e1 v vi <-> label_no e2 v vi.
  Proof.
    intros H1 H2.
    destruct (end_facts e1 H1) as (L1 & S1 & _ & _ & B1 & _). destruct (end_facts e2 H2) as (L2 & S2 & _ & _ & B2 & _).
    assert (L1 = L2) as -> by (destruct S1 as (l & E & <- & _); destruct S2 as (l' & E' & <- & _); congruence).
    rewrite B1, B2. reflexivity.
  Qed.

  Lemma end_same_axis e1 e2 : det_evaluator eps unit ds e1 -> det_evaluator eps unit ds e2 -> label_axis e1 = label_axis e2.
  Proof.
    intros H1 H2.
    destruct (end_facts e1 H1) as (L1 & S1 & _ & _ & _ & _ & N1 & _). destruct (end_facts e2 H2) as (L2 & S2 & _ & _ & _ & _ & N2 & _).
    assert (L1 = L2) as -> by (destruct S1 as (l & E & <- & _); destruct S2 as (l' & E' & <- & _); congruence).
    unfold label_axis. congruence.
  Qed.

  Lemma axis_label e l : det_evaluator eps unit ds e -> In l (label_axis e) -> exists v vi, label_no e v vi /\ l = Z.of_nat vi.
  Proof.
    intros He Hl. destruct (end_facts e He) as (L & S & _ & _ & B & _ & N & _). unfold label_axis in Hl. rewrite N in Hl.
    apply in_map_iff in Hl. destruct Hl as (i & <- & Hi). apply in_seq in Hi.
    destruct (nth_error L i) as [v|] eqn:E; [|apply nth_error_None in E; lia]. exists v, i. split; [|reflexivity].
    apply B. apply index_of_NoDup; [|exact E]. apply (stored_NoDup eps unit ds L _ Hin S).
  Qed.

  Section Selected.
    Variables (sel : detection -> bool) (datums : drow -> bool).
    Hypothesis Hsel : det_selects ds datums sel.

    Local Notation ids := (sel_rows ds sel).
    Local Notation Hids := (sel_rows_selects ds sel).
    Lemma end_detailed_ext e : det_evaluator eps unit ds e -> forall r, In r (concat (de_detailed e)) -> datums r = ids r.
    Proof.
      intros He r Hr. destruct (end_facts e He) as (L & Hst & _).
      apply (stored_rows eps unit ds L _ Hin Hst) in Hr.
      destruct Hr; (rewrite (Hids _ i d) by (cbn; auto); apply (Hsel _ i d); cbn; auto).
    Qed.
    Lemma end_ranked_ext e : (0 <= unit)%Z -> det_evaluator eps unit ds e -> forall r, In r (concat (de_ranked e)) -> datums r = ids r.
    Proof.
      intros Hu He r Hr. destruct (end_facts e He) as (L & Hst & HR & _).
      destruct (ranked_In unit _ _ r HR Hr) as (t & r0 & Ht & Hr0 & E & _).
      assert (Hi0 : In r0 (concat (de_detailed e))) by (apply in_concat; eauto).
      apply (stored_rows eps unit ds L _ Hin Hst) in Hi0.
      assert (exists i d, nth_error ds i = Some d /\ d_datum r0 = Z.of_nat i /\ d_uid r0 = t_uid d) as (i & d & Hi & E1 & E2)
        by (destruct Hi0; exists i, d; auto).
      unfold strip, set_prev in E. injection E as E3 E4. intros.
      rewrite (Hids r i d) by congruence. apply (Hsel r i d); congruence.
    Qed.
    Lemma matrix_ids e t s : det_evaluator eps unit ds e -> rep_matrix eps e datums t s = rep_matrix eps e ids t s.
    Proof. intros He. apply eval_confusion_ext. apply end_detailed_ext. exact He. Qed.

    Lemma end_same_matrix e1 e2 t s v vi w wi : few_annotations ds -> Forall distinct_pd_labels ds ->
      det_evaluator eps unit ds e1 -> det_evaluator eps unit ds e2 -> label_no e1 v vi -> label_no e1 w wi ->
      dm (rep_matrix eps e1 datums t s) (Z.of_nat vi) (Z.of_nat wi) = dm (rep_matrix eps e2 datums t s) (Z.of_nat vi) (Z.of_nat wi) /\
      dm_gt (rep_matrix eps e1 datums t s) (Z.of_nat vi) = dm_gt (rep_matrix eps e2 datums t s) (Z.of_nat vi) /\
      dm_pd (rep_matrix eps e1 datums t s) (Z.of_nat vi) = dm_pd (rep_matrix eps e2 datums t s) (Z.of_nat vi).
    Proof.
      intros Hf Hd H1 H2 Hv Hw.
      destruct (end_groups e1 H1) as (l & G1 & El & Hl & A1 & C1 & D1 & _ & S1 & R1).
      destruct (end_groups e2 H2) as (l' & G2 & El' & _ & A2 & C2 & D2 & _ & S2 & R2).
      assert (l' = l) by congruence. subst l'.
      destruct (end_facts e1 H1) as (L1 & S1' & _ & _ & B1 & _).
      assert (L1 = l_labels l) as -> by (destruct S1' as (l' & E & <- & _); congruence).
      apply B1 in Hv. apply B1 in Hw.
      assert (HM : same_matrix (l_labels l) (rep_matrix eps e1 datums t s) (rep_matrix eps e2 datums t s)).
      { rewrite (matrix_ids e1 t s H1), (matrix_ids e2 t s H2). unfold rep_matrix. rewrite D1 in *. rewrite D2 in *.
        apply (groups_matrix eps unit ds Hin Hf Hd sel ids Hids l G1 G2 t s); auto. }
      destruct (HM v vi w wi Hv Hw) as (X1 & X2 & _). destruct (HM w wi v vi Hw Hv) as (_ & _ & X3). auto.
    Qed.

    Variable e : deval.
    Hypothesis Hu : (0 <= unit)%Z.
    Hypothesis He : det_evaluator eps unit ds e.
    Hypothesis Hfew : few_det_labels ds.

    Lemma counts_flat t s l : (0 < t)%Z -> rep_counts eps e datums t s l = det_counts_at eps t s (filter ids (concat (de_ranked e))) l.
    Proof.
      intros Ht. unfold rep_counts. rewrite (eval_counts_ext datums ids _ (end_ranked_ext e Hu He)). apply eval_counts_concat.
      destruct (end_facts e He) as (L & Hst & HR & _ & _ & Hf & _).
      apply (tp_keys_NoDup eps _ (main_filter_ok eps unit ds L _ _ Hu Hin Hst HR (Hf Hfew) sel ids Hids) t s Ht).
    Qed.

    Lemma curve_flat t n l b : 
      eval_curve eps t n datums (de_ranked e) l b
      = upd_curve n (fst (running eps t run0 (filter ids (concat (de_ranked e))))) curve0 l b.
    Proof.
      rewrite (eval_curve_ext datums ids _ (end_ranked_ext e Hu He)). apply eval_curve_concat. destruct (end_facts e He) as (L & Hst & HR & _ & _ & Hf & _).
      apply sorted_by_score. apply (ro_sorted _ (main_filter_ok eps unit ds L _ _ Hu Hin Hst HR (Hf Hfew) sel ids Hids)).
    Qed.

    Variables (v : String.string) (vi : nat).
    Hypothesis Hv : label_no e v vi.

    Lemma end_gts : rep_gts e datums (Z.of_nat vi) = gts_with sel ds v.
    Proof.
      destruct (end_facts e He) as (L & Hst & HR & _ & B & Hf & _). apply B in Hv.
      unfold rep_gts. rewrite (gt_count_ext datums ids _ (end_detailed_ext e He)).
      apply (main_gt_count eps unit ds L _ Hin Hst sel ids Hids v vi Hv).
    Qed.

    Lemma end_tp_le t s : (0 < t)%Z -> rep_tp eps e datums t s (Z.of_nat vi) <= gts_with sel ds v.
    Proof.
      intros Ht. unfold rep_tp. rewrite counts_flat by exact Ht. destruct (end_facts e He) as (L & Hst & HR & _ & B & Hf & _). apply B in Hv.
      apply (main_tp_le eps unit ds L _ _ Hu Hin Hst HR (Hf Hfew) sel ids Hids v vi Hv t s Ht).
    Qed.

    Lemma end_fn t s : (0 < t)%Z -> few_annotations ds ->
      rep_fn eps e datums t s (Z.of_nat vi) = (Z.of_nat (gts_with sel ds v) - Z.of_nat (rep_tp eps e datums t s (Z.of_nat vi)))%Z.
    Proof.
      intros Ht (_ & Hg & _). unfold rep_fn, det_fn. rewrite end_gts. assert (X := end_tp_le t s Ht). assert (Y := gts_with_bound sel v ds).
      apply Z.mod_small. change (2 ^ 64)%Z with 18446744073709551616%Z. change (2 ^ 31)%Z with 2147483648%Z in Hg.
      clear - X Y Hg. lia.
    Qed.

    Lemma end_pd_count t s : (0 < t)%Z -> Forall distinct_pd_labels ds ->
      rep_tp eps e datums t s (Z.of_nat vi) + rep_fp eps e datums t s (Z.of_nat vi)
      = pds_where sel (fun d p a sc => (eps <? sc)%Z && (s <=? sc)%Z && takes_part eps d p a v) ds v.
    Proof.
      intros Ht Hd. unfold rep_tp, rep_fp. rewrite counts_flat by exact Ht. destruct (end_facts e He) as (L & Hst & HR & _ & B & Hf & _). apply B in Hv.
      apply (main_pd_count eps unit ds L _ _ Hu Hin Hst HR (Hf Hfew) sel ids Hids v vi Hv t s Hd).
    Qed.

    Lemma end_pd_count_single t s : (0 < t)%Z -> Forall single_pd_labels ds ->
      rep_tp eps e datums t s (Z.of_nat vi) + rep_fp eps e datums t s (Z.of_nat vi)
      = pds_with sel (fun sc => (eps <? sc)%Z && (s <=? sc)%Z) ds v.
    Proof.
      intros Ht Hd. unfold rep_tp, rep_fp. rewrite counts_flat by exact Ht. destruct (end_facts e He) as (L & Hst & HR & _ & B & Hf & _). apply B in Hv.
      apply (main_pd_count_single eps unit ds L _ _ Hu Hin Hst HR (Hf Hfew) sel ids Hids v vi Hv t s Hd).
    Qed.

    Lemma end_tp_spec t s : (0 < t)%Z -> (0 <= eps)%Z -> Forall distinct_pd_labels ds -> Forall (no_ties eps) ds ->
      rep_tp eps e datums t s (Z.of_nat vi) = gts_where sel (fun d g => detected eps t s d v g) ds v.
    Proof.
      intros Ht He0 Hd Hn. unfold rep_tp. rewrite counts_flat by exact Ht. destruct (end_facts e He) as (L & Hst & HR & _ & B & Hf & _). apply B in Hv.
      apply (main_tp_spec eps unit ds L _ _ Hu Hin Hst HR (Hf Hfew) sel ids Hids v vi Hv t s Ht He0 Hd Hn).
    Qed.

    Lemma end_tp_mono t t' s s' : (0 < t)%Z -> (t <= t')%Z -> (s <= s')%Z ->
      rep_tp eps e datums t' s' (Z.of_nat vi) <= rep_tp eps e datums t s (Z.of_nat vi).
    Proof.
      intros Ht Ht' Hs. unfold rep_tp. rewrite !counts_flat by lia. destruct (end_facts e He) as (L & Hst & HR & _ & B & Hf & _).
      apply tp_mono; auto. apply (main_filter_ok eps unit ds L _ _ Hu Hin Hst HR (Hf Hfew) sel ids Hids).
    Qed.

    Lemma end_total_mono t t' s s' : (0 < t)%Z -> (0 < t')%Z -> (s <= s')%Z ->
      rep_tp eps e datums t' s' (Z.of_nat vi) + rep_fp eps e datums t' s' (Z.of_nat vi)
      <= rep_tp eps e datums t s (Z.of_nat vi) + rep_fp eps e datums t s (Z.of_nat vi).
    Proof. intros Ht Ht' Hs. unfold rep_tp, rep_fp. rewrite !counts_flat by lia. apply score_mono. exact Hs. Qed.

    Lemma average_precision_ext c c' : (forall b, c b = c' b) -> average_precision c = average_precision c'.
    Proof.
      intros H. unfold average_precision. f_equal. assert (X : forall bins m s, ap_loop c bins m s = ap_loop c' bins m s); [|apply X].
      induction bins as [|b bins IH]; intros m s; cbn; [reflexivity|]. rewrite H. apply IH.
    Qed.

    Lemma end_ap t : (0 < t)%Z -> Forall distinct_pd_labels ds -> Forall (no_ties eps) ds ->
      exists P hits, ap_ranking eps sel ds v P /\ ap_hits eps t ds v P hits /\
        (rep_ap eps e datums t (Z.of_nat vi) == ap_spec (gts_with sel ds v) hits)%Q.
    Proof.
      intros Ht Hd Hn. destruct (end_facts e He) as (L & Hst & HR & _ & B & Hf & _). assert (Hv' := Hv). apply B in Hv'.
      specialize (Hf Hfew).
      set (R := concat (de_ranked e)) in *.
      exists (map (item_of ds) (filter (fun r => (d_pl r =? Z.of_nat vi)%Z) (filter ids R))),
             (map (tp_outer eps t) (filter (fun r => (d_pl r =? Z.of_nat vi)%Z) (filter ids R))).
      split; [apply (rl_ranking eps unit ds L _ R Hu Hin Hst HR Hf Hd sel ids Hids v vi Hv')|]. split; [apply (rl_hits eps unit ds L _ R Hu Hin Hst HR Hf sel ids Hids v vi Hv' Hn t Ht)|].
      unfold rep_ap. rewrite (average_precision_ext _ (fun b => fst (upd_curve (rep_gts e datums) (fst (running eps t run0 (filter ids R))) curve0 (Z.of_nat vi) b))).
      - rewrite <- end_gts. apply ap_is_spec. rewrite end_gts. apply (hits_bound eps unit ds L _ R Hu Hin Hst HR Hf sel ids Hids v vi Hv' t Ht).
      - intros b. unfold rep_curve. rewrite curve_flat. reflexivity.
    Qed.
    
    (* without any assumption on ties *)
    Lemma end_ap_range t : (0 < t)%Z -> (0 <= rep_ap eps e datums t (Z.of_nat vi) <= 1)%Q.
    Proof.
      intros Ht. destruct (end_facts e He) as (L & Hst & HR & _ & B & Hf & _). assert (Hv' := Hv). apply B in Hv'.
      specialize (Hf Hfew). set (R := concat (de_ranked e)) in *.
      set (hits := map (tp_outer eps t) (filter (fun r => (d_pl r =? Z.of_nat vi)%Z) (filter ids R))).
      assert (E : (rep_ap eps e datums t (Z.of_nat vi) == ap_spec (gts_with sel ds v) hits)%Q).
      { unfold rep_ap. rewrite (average_precision_ext _ (fun b => fst (upd_curve (rep_gts e datums) (fst (running eps t run0 (filter ids R))) curve0 (Z.of_nat vi) b))).
        - rewrite <- end_gts. apply ap_is_spec. rewrite end_gts. apply (hits_bound eps unit ds L _ R Hu Hin Hst HR Hf sel ids Hids v vi Hv' t Ht).
        - intros b. unfold rep_curve. rewrite curve_flat. reflexivity. }
      rewrite E. apply ap_spec_range.
    Qed.

    (* ---------------------------------------------------------------- confusion matrix *)
    Hypothesis Hann : few_annotations ds.
    Hypothesis Hdis : Forall distinct_pd_labels ds.

    Lemma end_column t s :
      list_sum_nat (map (fun g => dm (rep_matrix eps e datums t s) g (Z.of_nat vi)) (label_axis e)) + dm_pd (rep_matrix eps e datums t s) (Z.of_nat vi)
      = pds_with sel (fun sc => (eps <? sc)%Z && (s <=? sc)%Z) ds v.
    Proof.
      destruct (end_facts e He) as (L & Hst & HR & _ & B & Hf & Hlen & _). apply B in Hv. unfold label_axis. rewrite Hlen.
      rewrite (matrix_ids e t s He). apply (confusion_column eps unit ds L (de_detailed e) Hin Hst Hann Hdis sel ids Hids t s v vi Hv).
    Qed.

    Lemma end_row t s : Forall single_pd_labels ds ->
      list_sum_nat (map (fun p => dm (rep_matrix eps e datums t s) (Z.of_nat vi) p) (label_axis e)) + dm_gt (rep_matrix eps e datums t s) (Z.of_nat vi)
      = gts_with sel ds v.
    Proof.
      intros H1. destruct (end_facts e He) as (L & Hst & HR & _ & B & Hf & Hlen & _). apply B in Hv. unfold label_axis. rewrite Hlen.
      rewrite (matrix_ids e t s He). apply (confusion_row eps unit ds L (de_detailed e) Hin Hst Hann Hdis sel ids Hids t s v vi Hv H1).
    Qed.

    (* one matching per datum explains the whole matrix *)
    Lemma end_matching : exists M : nat -> nat -> nat -> bool,
      (forall i d, nth_error ds i = Some d -> sel d = true -> best_first eps d (M i)) /\
      (forall t s gl gi pl pi, label_no e gl gi -> label_no e pl pi ->
        dm (rep_matrix eps e datums t s) (Z.of_nat gi) (Z.of_nat pi)
        = over_datums sel ds (fun i d => count_pairs gl pl d (fun g p sc => M i p g && reaches eps t s d p g sc))) /\
      (forall t s gl gi, label_no e gl gi ->
        dm_gt (rep_matrix eps e datums t s) (Z.of_nat gi)
        = over_datums sel ds (fun i d => count_gts gl d (fun g => negb (gt_covered eps t s d (M i) g)))) /\
      (forall t s pl pi, label_no e pl pi ->
        dm_pd (rep_matrix eps e datums t s) (Z.of_nat pi)
        = over_datums sel ds (fun i d => count_pds pl d (fun p sc => (eps <? sc)%Z && (s <=? sc)%Z && negb (pd_covered eps t s d (M i) p)))) /\
      (forall t s ious scores ex u, In (u, t, s, ex) (det_eval_examples eps ious scores (map (filter datums) (de_detailed e))) ->
        exists i d, nth_error ds i = Some d /\ sel d = true /\ u = Some (t_uid d) /\ In t ious /\ In s scores /\ det_example_ok eps t s d (M i) ex) /\
      (forall t s ious scores i d, nth_error ds i = Some d -> sel d = true -> has_rows d -> In t ious -> In s scores ->
        exists ex, In (Some (t_uid d), t, s, ex) (det_eval_examples eps ious scores (map (filter datums) (de_detailed e))) /\
          det_example_ok eps t s d (M i) ex).
    Proof.
      destruct (end_facts e He) as (L & Hst & HR & HS & B & Hf & Hlen & _). specialize (Hf Hfew).
      rewrite (filter_tables_ext datums ids _ (end_detailed_ext e He)).
      assert (Hi := Hids). exists (code_matching ds (de_detailed e) ids). split.
      { intros i d Hi' Hs. eapply code_best_first; eassumption. }
      split. { intros t s gl gi pl pi Hg Hp. apply B in Hg. apply B in Hp. rewrite (matrix_ids e t s He). unfold rep_matrix. eapply cells_spec; eassumption. }
      split. { intros t s gl gi Hg. apply B in Hg. rewrite (matrix_ids e t s He). unfold rep_matrix. eapply alone_gts_spec; eassumption. }
      split. { intros t s pl pi Hp. apply B in Hp. rewrite (matrix_ids e t s He). unfold rep_matrix. eapply alone_pds_spec; eassumption. }
      split.
      - intros t s ious scores ex u H. eapply eval_examples_sound; eassumption.
      - intros t s ious scores i d Hi' Hs Hr Ht Hsc. eapply eval_examples_complete; eassumption.
    Qed.
  End Selected.
End End_.
