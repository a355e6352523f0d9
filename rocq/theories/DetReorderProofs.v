(* Object detection: reports do not depend on the order of the images, and counts of
   the whole are the sums of the counts of the parts. *)
From Verif Require Import Prelude Counting CacheModel CacheSpec CacheProofs SortProofs FlowModel FlowProofs ClsModel ClsSpec ClsLabelProofs
  DetModel DetSpec DetMatchProofs DetRankProofs DetCountProofs DetApProofs DetApEnd DetLoaderProofs DetStoreProofs DetFlowModel DetLocalProofs DetMain DetOrderProofs
  DetExModel DetExampleProofs DetReportModel DetEnd DetMore DetImage DetReorderSpec DetImageRank.
From Coq Require Import String Lia QArith.
Local Open Scope nat_scope.
Local Open Scope list_scope.
Local Notation length := List.length (only parsing).
Local Notation concat := List.concat (only parsing).

(* ------------------------------------------------------------------ *)
(** * Inputs in another order *)

Lemma det_labels_In ds v : In v (det_labels ds) <-> exists d a, In d ds /\ In a (t_gts d ++ t_pds d) /\ In v (a_labels a).
Proof.
  unfold det_labels. rewrite in_concat. split.
  - intros (l & Hl & Hv). apply in_map_iff in Hl. destruct Hl as (d & <- & Hd). apply in_concat in Hv. destruct Hv as (l & Hl & Hv).
    apply in_map_iff in Hl. destruct Hl as (a & <- & Ha). eauto.
  - intros (d & a & Hd & Ha & Hv). eexists. split; [apply in_map; exact Hd|]. apply in_concat. exists (a_labels a). split; [apply in_map; exact Ha|exact Hv].
Qed.
Lemma det_labels_perm ds1 ds2 : Permutation ds1 ds2 -> forall v, In v (det_labels ds1) <-> In v (det_labels ds2).
Proof.
  intros HP v. rewrite !det_labels_In. split; intros (d & a & Hd & X); exists d, a; (split; [|exact X]).
  - apply (Permutation_in d HP Hd).
  - apply (Permutation_in d (Permutation_sym HP) Hd).
Qed.
Lemma few_det_labels_incl ds1 ds2 : (forall v, In v (det_labels ds1) -> In v (det_labels ds2)) -> few_det_labels ds2 -> few_det_labels ds1.
Proof.
  unfold few_det_labels, few. intros H F.
  assert (length (nodup string_dec (det_labels ds1)) <= length (nodup string_dec (det_labels ds2))); [|lia].
  apply NoDup_incl_length; [apply NoDup_nodup|]. intros v Hv. apply nodup_In. apply H. apply nodup_In in Hv. exact Hv.
Qed.
Lemma few_det_labels_perm ds1 ds2 : Permutation ds1 ds2 -> few_det_labels ds1 -> few_det_labels ds2.
Proof. intros HP. apply few_det_labels_incl. intros v. apply (det_labels_perm ds1 ds2 HP). Qed.
Lemma gts_before_all ds : gts_before ds (length ds) = list_sum_nat (map (fun d => length (t_gts d)) ds).
Proof. unfold gts_before. rewrite firstn_all. reflexivity. Qed.
Lemma pds_before_all ds : pds_before ds (length ds) = list_sum_nat (map (fun d => length (t_pds d)) ds).
Proof. unfold pds_before. rewrite firstn_all. reflexivity. Qed.
Lemma few_annotations_perm ds1 ds2 : Permutation ds1 ds2 -> few_annotations ds1 -> few_annotations ds2.
Proof.
  intros HP. unfold few_annotations. rewrite !gts_before_all, !pds_before_all, (Permutation_length HP).
  rewrite (list_sum_nat_perm _ _ (Permutation_map (fun d => length (t_gts d)) HP)), (list_sum_nat_perm _ _ (Permutation_map (fun d => length (t_pds d)) HP)). auto.
Qed.
Lemma few_annotations_app ds1 ds2 : few_annotations (ds1 ++ ds2) -> few_annotations ds1 /\ few_annotations ds2.
Proof.
  unfold few_annotations. rewrite !gts_before_all, !pds_before_all, !map_app, !list_sum_nat_app, app_length.
  set (a := list_sum_nat _). set (b := list_sum_nat _). set (c := list_sum_nat _). set (d := list_sum_nat _). intros (A & B & C).
  rewrite !Nat2Z.inj_add in *. repeat split; lia.
Qed.
Lemma det_input_perm unit ds1 ds2 : Permutation ds1 ds2 -> det_input unit ds1 -> det_input unit ds2.
Proof. intros HP. unfold det_input. apply Permutation_Forall. exact HP. Qed.
Lemma filter_perm {A} (f : A -> bool) l1 l2 : Permutation l1 l2 -> Permutation (filter f l1) (filter f l2).
Proof.
  intros H. induction H as [|x l l' H IH|x y l|l l' l'' H1 IH1 H2 IH2]; cbn; [constructor| | |eapply perm_trans; eassumption].
  - destruct (f x); [apply perm_skip|]; exact IH.
  - destruct (f x), (f y); try apply Permutation_refl. apply perm_swap.
Qed.
Lemma apart_perm sel v ds1 ds2 : Permutation ds1 ds2 -> apart sel v ds1 -> apart sel v ds2.
Proof. intros HP H c. rewrite <- (Permutation_length (filter_perm _ _ _ HP)). apply H. Qed.

Lemma sum_perm {A} (f : A -> nat) l1 l2 : Permutation l1 l2 -> list_sum_nat (map f l1) = list_sum_nat (map f l2).
Proof. intros HP. apply list_sum_nat_perm, Permutation_map, HP. Qed.

(* the evaluator knows exactly the labels of its data *)
Lemma end_known eps unit ds e : det_input unit ds -> det_evaluator eps unit ds e -> forall v, (exists k, label_no e v k) <-> In v (det_labels ds).
Proof.
  intros Hin He v. destruct (end_facts eps unit ds Hin e He) as (L & Hst & _ & _ & B & _). rewrite <- (stored_labels eps unit ds L _ Hin Hst v). split.
  - intros (k & Hk). apply B in Hk. apply index_of_nth in Hk. apply (nth_error_In _ _ Hk).
  - intros Hv. destruct (index_of v L) as [k|] eqn:E; [exists k; apply B; exact E|]. apply index_of_None in E. contradiction.
Qed.

(* ------------------------------------------------------------------ *)
(** * Values over label axes *)

Lemma qsum_perm l1 l2 : Permutation l1 l2 -> (qsum l1 == qsum l2)%Q.
Proof.
  intros H. induction H as [|x l l' H IH|x y l|l l' l'' H1 IH1 H2 IH2]; cbn; [reflexivity| | |].
  - unfold qsum in IH. rewrite IH. reflexivity.
  - ring.
  - rewrite IH1. exact IH2.
Qed.
Lemma qsum_Forall2 l1 l2 : Forall2 Qeq l1 l2 -> (qsum l1 == qsum l2)%Q.
Proof. intros H. induction H as [|x y l l' E H IH]; cbn; [reflexivity|]. unfold qsum in IH. rewrite E, IH. reflexivity. Qed.
(* the same numbers in some order *)
Definition same_values (l1 l2 : list Q) : Prop := exists l, Permutation l1 l /\ Forall2 Qeq l l2.
Lemma qmean_same l1 l2 : same_values l1 l2 -> same_number (qmean l1) (qmean l2).
Proof.
  intros (l & HP & HF). assert (E : length l1 = length l2) by (rewrite (Permutation_length HP); clear - HF; induction HF; cbn; congruence).
  assert (S : (qsum l1 == qsum l2)%Q) by (rewrite (qsum_perm _ _ HP); apply qsum_Forall2; exact HF).
  unfold qmean, same_number. destruct l1 as [|x l1], l2 as [|y l2]; try discriminate; [exact I|]. rewrite E, S. reflexivity.
Qed.
Lemma same_values_map {A} (f g : A -> Q) l1 l2 : Permutation l1 l2 -> (forall x, In x l2 -> (f x == g x)%Q) -> same_values (map f l1) (map g l2).
Proof.
  intros HP E. exists (map f l2). split; [apply Permutation_map; exact HP|]. clear HP. induction l2 as [|x l IH]; [constructor|]. cbn.
  constructor; [apply E; left; reflexivity|]. apply IH. intros y Hy. apply E. right. exact Hy.
Qed.
Lemma same_values_opt {A} (f g : A -> option Q) l1 l2 : Permutation l1 l2 -> (forall x, In x l2 -> same_number (f x) (g x)) ->
  same_values (concat (map (fun x => match f x with Some q => [q] | None => [] end) l1)) (concat (map (fun x => match g x with Some q => [q] | None => [] end) l2)).
Proof.
  intros HP E. exists (concat (map (fun x => match f x with Some q => [q] | None => [] end) l2)). split.
  - rewrite <- !flat_map_concat_map. apply Permutation_flat_map. exact HP.
  - clear HP. induction l2 as [|x l IH]; [constructor|]. cbn [map concat]. apply Forall2_app; [|apply IH; intros y Hy; apply E; right; exact Hy].
    assert (X := E x (or_introl eq_refl)). unfold same_number in X. destruct (f x), (g x); try contradiction; [|constructor]. constructor; [exact X|constructor].
Qed.

(* the label axis, by the names of the labels *)
Lemma end_axis eps unit ds e : det_input unit ds -> det_evaluator eps unit ds e ->
  exists L, NoDup L /\ (forall v, In v L <-> In v (det_labels ds)) /\ (forall v vi, label_no e v vi <-> index_of v L = Some vi) /\
    label_axis e = map (idx L) L /\ (forall kl, In kl (de_labels e) <-> In kl (map (fun v => (idx L v, Some v)) L)) /\ NoDup (map fst (de_labels e)).
Proof.
  intros Hin He. destruct (end_facts eps unit ds Hin e He) as (L & Hst & _ & _ & B & _ & Hlen & Hl & Hn). exists L.
  assert (N := stored_NoDup eps unit ds L _ Hin Hst). split; [exact N|].
  split; [intros v; apply (stored_labels eps unit ds L _ Hin Hst)|]. split; [exact B|]. split.
  - unfold label_axis. rewrite Hlen. clear - N. apply nth_error_ext. intros i. rewrite !nth_error_map.
    destruct (nth_error L i) as [v|] eqn:E; cbn.
    + rewrite (idx_of_nth L v i N E). assert (Hi : i < length L) by (apply nth_error_Some; congruence).
      replace (nth_error (seq 0 (length L)) i) with (Some i); [reflexivity|]. symmetry. rewrite (nth_error_nth' _ 0) by (rewrite seq_length; exact Hi).
      rewrite seq_nth by exact Hi. reflexivity.
    + apply nth_error_None in E. replace (nth_error (seq 0 (length L)) i) with (@None nat); [reflexivity|].
      symmetry. apply nth_error_None. rewrite seq_length. exact E.
  - split; [|exact Hn]. intros (k, o). rewrite Hl, in_map_iff. split.
    + intros (s & vi & -> & -> & E). exists s. split; [unfold idx; rewrite E; reflexivity|]. apply index_of_nth in E. apply (nth_error_In _ _ E).
    + intros (v & E & Hv). injection E as <- <-. destruct (index_of v L) as [vi|] eqn:Ei; [|apply index_of_None in Ei; contradiction].
      exists v, vi. unfold idx. rewrite Ei. auto.
Qed.

Lemma flat_map_one {A B} (f : A -> list B) (ne : A -> bool) l1 l2 : Permutation l1 l2 ->
  (forall x, In x l1 -> f x <> [] -> ne x = true) -> length (filter ne l1) <= 1 -> flat_map f l1 = flat_map f l2.
Proof.
  intros HP Hne Hl.
  assert (G : forall l, (forall x, In x l -> f x <> [] -> ne x = true) -> flat_map f l = flat_map f (filter ne l)).
  { induction l as [|x l IH]; intros H; [reflexivity|]. cbn. rewrite IH by (intros y Hy; apply H; right; exact Hy).
    destruct (ne x) eqn:E; [reflexivity|]. destruct (f x) eqn:Ef; [reflexivity|]. rewrite (H x) in E; [discriminate|left; reflexivity|rewrite Ef; discriminate]. }
  rewrite (G l1 Hne), (G l2) by (intros x Hx; apply Hne; apply (Permutation_in x (Permutation_sym HP) Hx)).
  f_equal. assert (P := filter_perm ne _ _ HP). destruct (filter ne l1) as [|x [|y u]]; [apply Permutation_nil in P; auto|apply Permutation_length_1_inv in P; auto|cbn in Hl; lia].
Qed.

(* lists sorted by decreasing score with the same entries at every score are equal *)
Lemma sorted_classes (l1 l2 : list (Z * bool)) :
  StronglySorted (fun a b => (fst b <= fst a)%Z) l1 -> StronglySorted (fun a b => (fst b <= fst a)%Z) l2 ->
  (forall c, filter (fun x => (fst x =? c)%Z) l1 = filter (fun x => (fst x =? c)%Z) l2) -> l1 = l2.
Proof.
  revert l2. induction l1 as [|a l1 IH]; intros l2 S1 S2 F.
  - destruct l2 as [|b l2]; [reflexivity|]. specialize (F (fst b)). cbn in F. rewrite Z.eqb_refl in F. discriminate.
  - destruct l2 as [|b l2]; [specialize (F (fst a)); cbn in F; rewrite Z.eqb_refl in F; discriminate|].
    inversion S1 as [|? ? T1 F1]; subst. inversion S2 as [|? ? T2 F2]; subst. rewrite Forall_forall in F1, F2.
    assert (Eab : fst a = fst b).
    { assert (A : In a (filter (fun x => (fst x =? fst a)%Z) (b :: l2))) by (rewrite <- F; cbn; rewrite Z.eqb_refl; left; reflexivity).
      assert (B : In b (filter (fun x => (fst x =? fst b)%Z) (a :: l1))) by (rewrite F; cbn; rewrite Z.eqb_refl; left; reflexivity).
      apply filter_In in A, B. destruct A as [[->|A] _], B as [[B|B] _]; try reflexivity; try (rewrite B; reflexivity).
      specialize (F1 b B). specialize (F2 a A). cbn in *. lia. }
    assert (E := F (fst a)). cbn in E. rewrite Eab, Z.eqb_refl in E. injection E as E _. subst b. f_equal. apply IH; auto.
    intros c. specialize (F c). cbn in F. destruct (fst a =? c)%Z; [injection F as F|]; exact F.
Qed.

Section Reorder.
  Variables (eps unit : Z) (ds1 ds2 : list detection).
  Hypothesis Hu : (0 <= unit)%Z.
  Hypothesis Hin1 : det_input unit ds1.
  Hypothesis Hfew1 : few_det_labels ds1.
  Hypothesis HP : Permutation ds1 ds2.
  Variables (sel : detection -> bool) (datums1 datums2 : drow -> bool) (e1 e2 : deval).
  Hypothesis Hs1 : det_selects ds1 datums1 sel.
  Hypothesis Hs2 : det_selects ds2 datums2 sel.
  Hypothesis He1 : det_evaluator eps unit ds1 e1.
  Hypothesis He2 : det_evaluator eps unit ds2 e2.

  Let Hin2 : det_input unit ds2 := det_input_perm unit ds1 ds2 HP Hin1.
  Let Hfew2 : few_det_labels ds2 := few_det_labels_perm ds1 ds2 HP Hfew1.

  Lemma reorder_labels v : (exists k, label_no e1 v k) <-> (exists k, label_no e2 v k).
  Proof. rewrite (end_known eps unit ds1 e1 Hin1 He1 v), (end_known eps unit ds2 e2 Hin2 He2 v). apply det_labels_perm. exact HP. Qed.

  Section Label.
    Variables (v : string) (i1 i2 : nat).
    Hypothesis H1 : label_no e1 v i1.
    Hypothesis H2 : label_no e2 v i2.

    Lemma reorder_gts : rep_gts e1 datums1 (Z.of_nat i1) = rep_gts e2 datums2 (Z.of_nat i2).
    Proof.
      rewrite (end_gts eps unit ds1 Hin1 sel datums1 Hs1 e1 He1 v i1 H1), (end_gts eps unit ds2 Hin2 sel datums2 Hs2 e2 He2 v i2 H2).
      unfold gts_with. apply sum_perm. exact HP.
    Qed.
    Lemma reorder_counts t s : (0 < t)%Z -> rep_counts eps e1 datums1 t s (Z.of_nat i1) = rep_counts eps e2 datums2 t s (Z.of_nat i2).
    Proof.
      intros Ht.
      destruct (image_end_counts eps unit ds1 Hu Hin1 sel datums1 e1 Hs1 He1 Hfew1 v i1 H1 t s Ht) as (A1 & B1).
      destruct (image_end_counts eps unit ds2 Hu Hin2 sel datums2 e2 Hs2 He2 Hfew2 v i2 H2 t s Ht) as (A2 & B2).
      rewrite (sum_perm _ _ _ HP), <- A2 in A1. rewrite (sum_perm _ _ _ HP), <- B2 in B1. unfold rep_tp, rep_fp in *.
      destruct (rep_counts eps e1 datums1 t s (Z.of_nat i1)), (rep_counts eps e2 datums2 t s (Z.of_nat i2)). cbn in *. congruence.
    Qed.
    Lemma reorder_metrics t s : (0 < t)%Z ->
      rep_tp eps e1 datums1 t s (Z.of_nat i1) = rep_tp eps e2 datums2 t s (Z.of_nat i2) /\
      rep_fp eps e1 datums1 t s (Z.of_nat i1) = rep_fp eps e2 datums2 t s (Z.of_nat i2) /\
      rep_fn eps e1 datums1 t s (Z.of_nat i1) = rep_fn eps e2 datums2 t s (Z.of_nat i2) /\
      rep_precision eps e1 datums1 t s (Z.of_nat i1) = rep_precision eps e2 datums2 t s (Z.of_nat i2) /\
      rep_recall eps e1 datums1 t s (Z.of_nat i1) = rep_recall eps e2 datums2 t s (Z.of_nat i2) /\
      rep_f1 eps e1 datums1 t s (Z.of_nat i1) = rep_f1 eps e2 datums2 t s (Z.of_nat i2).
    Proof.
      intros Ht. unfold rep_fn, rep_precision, rep_recall, rep_f1, rep_tp, rep_fp. rewrite (reorder_counts t s Ht), reorder_gts. repeat split; reflexivity.
    Qed.
    Lemma reorder_ar ious s : Forall (fun t => 0 < t)%Z ious -> rep_ar eps e1 datums1 ious s (Z.of_nat i1) = rep_ar eps e2 datums2 ious s (Z.of_nat i2).
    Proof.
      intros Ht. unfold rep_ar. f_equal. apply map_ext_in. intros t Hin. rewrite Forall_forall in Ht. apply (reorder_metrics t s (Ht t Hin)).
    Qed.

    (* the ranked predictions *)
    Lemma reorder_hits t : apart sel v ds1 ->
      end_hits eps ds1 sel e1 i1 t = end_hits eps ds2 sel e2 i2 t.
    Proof.
      intros Hap. apply sorted_classes.
      - apply (end_hits_sorted eps unit ds1 Hu Hin1 sel e1 He1 Hfew1).
      - apply (end_hits_sorted eps unit ds2 Hu Hin2 sel e2 He2 Hfew2).
      - intros c. rewrite (end_hits_class eps unit ds1 Hin1 sel e1 He1 Hfew1 v i1 H1 t c Hap).
        rewrite (end_hits_class eps unit ds2 Hin2 sel e2 He2 Hfew2 v i2 H2 t c (apart_perm sel v ds1 ds2 HP Hap)).
        apply (flat_map_one _ (fun d => sel d && scores_at v c d)); [exact HP| |apply Hap].
        intros d Hd N. destruct (sel d); [|congruence]. cbn. destruct (filter (fun x => (fst x =? c)%Z) (image_hits eps unit t v d)) as [|(c', h) u] eqn:E; [congruence|].
        assert (I : In (c', h) (filter (fun x => (fst x =? c)%Z) (image_hits eps unit t v d))) by (rewrite E; left; reflexivity).
        apply filter_In in I. destruct I as [I J]. cbn in J. apply Z.eqb_eq in J. subst c'. apply In_nth_error in Hd. destruct Hd as (i & Hi).
        apply (image_scored eps unit ds1 Hin1 e1 He1 Hfew1 v i1 H1 t i d c h Hi I).
    Qed.
    Lemma reorder_ap t : (0 < t)%Z -> apart sel v ds1 -> (rep_ap eps e1 datums1 t (Z.of_nat i1) == rep_ap eps e2 datums2 t (Z.of_nat i2))%Q.
    Proof.
      intros Ht Hap. rewrite (end_hits_ap eps unit ds1 Hu Hin1 sel datums1 e1 Hs1 He1 Hfew1 v i1 H1 t Ht).
      rewrite (end_hits_ap eps unit ds2 Hu Hin2 sel datums2 e2 Hs2 He2 Hfew2 v i2 H2 t Ht), (reorder_hits t Hap).
      unfold gts_with. rewrite (sum_perm _ _ _ HP). reflexivity.
    Qed.
    Lemma reorder_curve t : (0 < t)%Z -> apart sel v ds1 ->
      same_curve (rep_pr_curve eps e1 datums1 t (Z.of_nat i1)) (rep_pr_curve eps e2 datums2 t (Z.of_nat i2)).
    Proof.
      intros Ht Hap. unfold same_curve.
      assert (G : forall l l' : list Q, length l = length l' -> (forall k q q', nth_error l k = Some q -> nth_error l' k = Some q' -> (q == q')%Q) -> Forall2 Qeq l l').
      { induction l as [|x l IH]; intros [|y l'] E X; try discriminate; constructor; [apply (X 0); reflexivity|]. apply IH; [cbn in E; lia|]. intros k. apply (X (S k)). }
      apply G; [rewrite !pr_curve_length; reflexivity|]. intros k q q' Hq Hq'.
      rewrite (end_hits_curve eps unit ds1 Hu Hin1 sel datums1 e1 Hs1 He1 Hfew1 v i1 H1 t k q Ht Hq).
      rewrite (end_hits_curve eps unit ds2 Hu Hin2 sel datums2 e2 Hs2 He2 Hfew2 v i2 H2 t k q' Ht Hq'), (reorder_hits t Hap).
      unfold gts_with. rewrite (sum_perm _ _ _ HP). reflexivity.
    Qed.
  End Label.

  (* values over the label axes *)
  Lemma reorder_axis (f g : Z -> option Q) :
    (forall v i1 i2, label_no e1 v i1 -> label_no e2 v i2 -> same_number (f (Z.of_nat i1)) (g (Z.of_nat i2))) ->
    same_values (concat (map (fun l => match f l with Some q => [q] | None => [] end) (label_axis e1)))
                (concat (map (fun l => match g l with Some q => [q] | None => [] end) (label_axis e2))).
  Proof.
    intros H. destruct (end_axis eps unit ds1 e1 Hin1 He1) as (L1 & N1 & I1 & B1 & A1 & _). destruct (end_axis eps unit ds2 e2 Hin2 He2) as (L2 & N2 & I2 & B2 & A2 & _).
    rewrite A1, A2, !map_map. apply same_values_opt.
    - apply NoDup_Permutation; auto. intros v. rewrite I1, I2. apply det_labels_perm. exact HP.
    - intros v Hv. assert (Hv1 : In v L1) by (apply I1, (det_labels_perm ds1 ds2 HP), I2; exact Hv).
      destruct (index_of v L1) as [k1|] eqn:E1; [|apply index_of_None in E1; contradiction]. destruct (index_of v L2) as [k2|] eqn:E2; [|apply index_of_None in E2; contradiction].
      unfold idx. rewrite E1, E2. apply (H v k1 k2); [apply B1|apply B2]; assumption.
  Qed.
  Lemma concat_singletons {A} (f : A -> Q) l : concat (map (fun x => [f x]) l) = map f l.
  Proof. induction l as [|x l IH]; [reflexivity|]. cbn. f_equal. exact IH. Qed.
  Lemma reorder_map t : (0 < t)%Z -> (forall v, apart sel v ds1) -> same_number (rep_map eps e1 datums1 t) (rep_map eps e2 datums2 t).
  Proof.
    intros Ht Hap. unfold rep_map, mean_ap. apply qmean_same.
    rewrite <- !concat_singletons. apply (reorder_axis (fun l => Some (rep_ap eps e1 datums1 t l)) (fun l => Some (rep_ap eps e2 datums2 t l))).
    intros v i1 i2 H1 H2. cbn. apply (reorder_ap v i1 i2 H1 H2 t Ht (Hap v)).
  Qed.
  Lemma reorder_map_over ious : Forall (fun t => 0 < t)%Z ious -> (forall v, apart sel v ds1) ->
    same_number (rep_map_over_ious eps e1 datums1 ious) (rep_map_over_ious eps e2 datums2 ious).
  Proof.
    intros Ht Hap. unfold rep_map_over_ious. apply qmean_same. apply same_values_opt; [apply Permutation_refl|].
    intros t Hin. rewrite Forall_forall in Ht. apply reorder_map; auto.
  Qed.
  Lemma same_number_refl a : same_number a a.
  Proof. unfold same_number. destruct a; [reflexivity|exact I]. Qed.
  Lemma reorder_mar ious s : Forall (fun t => 0 < t)%Z ious -> same_number (rep_mar eps e1 datums1 ious s) (rep_mar eps e2 datums2 ious s).
  Proof.
    intros Ht. unfold rep_mar. apply qmean_same. apply reorder_axis. intros v i1 i2 H1 H2. rewrite (reorder_ar v i1 i2 H1 H2 ious s Ht). apply same_number_refl.
  Qed.

  (* reported lists *)
  Lemma reorder_unpacked {V} ious scores (f g : Z -> Z -> Z -> V) :
    (forall v i1 i2 t s, label_no e1 v i1 -> label_no e2 v i2 -> In t ious -> f t s (Z.of_nat i1) = g t s (Z.of_nat i2)) ->
    Permutation (unpacked e1 ious scores f) (unpacked e2 ious scores g).
  Proof.
    intros H. destruct (end_axis eps unit ds1 e1 Hin1 He1) as (L1 & N1 & I1 & B1 & _ & A1 & F1). destruct (end_axis eps unit ds2 e2 Hin2 He2) as (L2 & N2 & I2 & B2 & _ & A2 & F2).
    assert (P : forall (L : list string) (e : deval), NoDup L -> NoDup (map fst (de_labels e)) -> (forall kl, In kl (de_labels e) <-> In kl (map (fun v => (idx L v, Some v)) L)) ->
      Permutation (de_labels e) (map (fun v => (idx L v, Some v)) L)).
    { intros L e N F A. apply NoDup_Permutation; [apply (NoDup_map_inv fst); exact F| |exact A]. apply FinFun.Injective_map_NoDup; [|exact N].
      intros x y E. injection E as _ E. exact E. }
    unfold unpacked. rewrite <- !(flat_map_concat_map _ (de_labels _)).
    rewrite (Permutation_flat_map _ (P L1 e1 N1 F1 A1)), (Permutation_flat_map _ (P L2 e2 N2 F2 A2)).
    assert (HL : Permutation L1 L2) by (apply NoDup_Permutation; auto; intros v; rewrite I1, I2; apply det_labels_perm; exact HP).
    rewrite (Permutation_flat_map _ (Permutation_map _ HL)).
    assert (E : forall l, (forall v, In v l -> In v L2) -> 
      flat_map (fun kl : Z * option string => concat (map (fun s => map (fun t => (snd kl, s, t, f t s (fst kl))) ious) scores)) (map (fun v => (idx L1 v, Some v)) l)
      = flat_map (fun kl : Z * option string => concat (map (fun s => map (fun t => (snd kl, s, t, g t s (fst kl))) ious) scores)) (map (fun v => (idx L2 v, Some v)) l)).
    { induction l as [|v l IH]; intros Hl; [reflexivity|]. cbn [map flat_map fst snd]. rewrite IH by (intros w Hw; apply Hl; right; exact Hw). f_equal.
      f_equal. apply map_ext. intros s. apply map_ext_in. intros t Ht. f_equal.
      assert (Hv2 : In v L2) by (apply Hl; left; reflexivity). assert (Hv1 : In v L1) by (apply I1, (det_labels_perm ds1 ds2 HP), I2; exact Hv2).
      destruct (index_of v L1) as [k1|] eqn:E1; [|apply index_of_None in E1; contradiction]. destruct (index_of v L2) as [k2|] eqn:E2; [|apply index_of_None in E2; contradiction].
      unfold idx. rewrite E1, E2. apply (H v k1 k2 t s); [apply B1|apply B2|]; assumption. }
    rewrite E by auto. apply Permutation_refl.
  Qed.
  Lemma reorder_report ious scores : Forall (fun t => 0 < t)%Z ious ->
    match report_counts eps e1 datums1 ious scores, report_counts eps e2 datums2 ious scores with
    | Some r1, Some r2 => Permutation r1 r2
    | None, None => True
    | _, _ => False
    end.
  Proof.
    intros Ht. unfold report_counts. destruct ious as [|t0 ious]; [exact I|]. destruct scores as [|s0 scores]; [exact I|].
    apply reorder_unpacked. intros v i1 i2 t s H1 H2 Hin. rewrite Forall_forall in Ht.
    destruct (reorder_metrics v i1 i2 H1 H2 t s (Ht t Hin)) as (A & B & C & _). rewrite A, B, C. reflexivity.
  Qed.

  Section Confusion.
    Hypothesis Hann : few_annotations ds1.
    Hypothesis Hdis : Forall distinct_pd_labels ds1.
    Lemma reorder_confusion t s :
      (forall gl g1 g2 pl p1 p2, label_no e1 gl g1 -> label_no e2 gl g2 -> label_no e1 pl p1 -> label_no e2 pl p2 ->
        dm (rep_matrix eps e1 datums1 t s) (Z.of_nat g1) (Z.of_nat p1) = dm (rep_matrix eps e2 datums2 t s) (Z.of_nat g2) (Z.of_nat p2)) /\
      (forall v i1 i2, label_no e1 v i1 -> label_no e2 v i2 ->
        dm_gt (rep_matrix eps e1 datums1 t s) (Z.of_nat i1) = dm_gt (rep_matrix eps e2 datums2 t s) (Z.of_nat i2) /\
        dm_pd (rep_matrix eps e1 datums1 t s) (Z.of_nat i1) = dm_pd (rep_matrix eps e2 datums2 t s) (Z.of_nat i2)).
    Proof.
      destruct (image_end_matching eps unit ds1 Hin1 sel datums1 Hs1 e1 He1 Hfew1 Hann Hdis) as (_ & C1 & G1 & P1 & _).
      assert (Hdis2 : Forall distinct_pd_labels ds2) by (apply (Permutation_Forall HP Hdis)).
      destruct (image_end_matching eps unit ds2 Hin2 sel datums2 Hs2 e2 He2 Hfew2 (few_annotations_perm _ _ HP Hann) Hdis2) as (_ & C2 & G2 & P2 & _).
      split; [|intros v i1 i2 A1 A2; split].
      - intros gl g1 g2 pl p1 p2 A1 A2 B1 B2. rewrite (C1 t s gl g1 pl p1 A1 B1), (C2 t s gl g2 pl p2 A2 B2). apply sum_perm. exact HP.
      - rewrite (G1 t s v i1 A1), (G2 t s v i2 A2). apply sum_perm. exact HP.
      - rewrite (P1 t s v i1 A1), (P2 t s v i2 A2). apply sum_perm. exact HP.
    Qed.
  End Confusion.
End Reorder.

(* ------------------------------------------------------------------ *)
(** * Examples *)

Lemma lists_once_perm {X U} (P : X -> Prop) (name : X -> U) l1 l2 : lists_once P name l1 -> lists_once P name l2 -> Permutation l1 l2.
Proof.
  intros (T1 & N1 & A1 & E1) (T2 & N2 & A2 & E2).
  assert (HT : Permutation T1 T2) by (apply NoDup_Permutation; auto; intros x; rewrite A1, A2; reflexivity).
  subst. apply Permutation_map. exact HT.
Qed.

Lemma reorder_examples eps unit ds1 ds2 : det_input unit ds1 -> Permutation ds1 ds2 ->
  forall sel datums1 datums2 e1 e2, det_selects ds1 datums1 sel -> det_selects ds2 datums2 sel ->
  det_evaluator eps unit ds1 e1 -> det_evaluator eps unit ds2 e2 ->
  few_det_labels ds1 -> few_annotations ds1 -> Forall distinct_pd_labels ds1 ->
  forall ious scores t s d, In d ds1 -> sel d = true -> has_rows d -> In t ious -> In s scores ->
  exists x1 x2, In (Some (t_uid d), t, s, x1) (det_eval_examples eps ious scores (map (filter datums1) (de_detailed e1))) /\
    In (Some (t_uid d), t, s, x2) (det_eval_examples eps ious scores (map (filter datums2) (de_detailed e2))) /\
    Permutation (dx_tp x1) (dx_tp x2) /\ Permutation (dx_fp x1) (dx_fp x2) /\ Permutation (dx_fn x1) (dx_fn x2).
Proof.
  intros Hin1 HP sel datums1 datums2 e1 e2 Hs1 Hs2 He1 He2 Hfew Hann Hdis ious scores t s d Hd Hs Hr Ht Hsc.
  destruct (image_end_matching eps unit ds1 Hin1 sel datums1 Hs1 e1 He1 Hfew Hann Hdis) as (_ & _ & _ & _ & _ & X1).
  destruct (image_end_matching eps unit ds2 (det_input_perm unit ds1 ds2 HP Hin1) sel datums2 Hs2 e2 He2 (few_det_labels_perm _ _ HP Hfew)
    (few_annotations_perm _ _ HP Hann) (Permutation_Forall HP Hdis)) as (_ & _ & _ & _ & _ & X2).
  destruct (X1 t s ious scores d Hd Hs Hr Ht Hsc) as (x1 & I1 & (A1 & B1 & C1)).
  destruct (X2 t s ious scores d (Permutation_in d HP Hd) Hs Hr Ht Hsc) as (x2 & I2 & (A2 & B2 & C2)).
  exists x1, x2. split; [exact I1|]. split; [exact I2|]. split; [|split]; eapply lists_once_perm; eassumption.
Qed.

(* ------------------------------------------------------------------ *)
(** * Parts *)

Lemma sum_zero_or (sel : detection -> bool) (f : detection -> nat) ds : (forall d, In d ds -> f d = 0) ->
  list_sum_nat (map (fun d => if sel d then f d else 0) ds) = 0.
Proof. intros H. apply list_sum_nat_none. intros d Hd. rewrite (H d Hd). destruct (sel d); reflexivity. Qed.
Lemma has_label_none v a : ~ In v (a_labels a) -> has_label v a = false.
Proof.
  intros H. unfold has_label. apply not_true_iff_false. intros X. apply existsb_exists in X. destruct X as (w & Hw & E). apply String.eqb_eq in E. subst w. contradiction.
Qed.
Lemma numbered_snd_In {A} (l : list A) x : In x (numbered l) -> In (snd x) l.
Proof. destruct x as (i, a). intros H. apply numbered_In in H. apply (nth_error_In _ _ H). Qed.
Lemma countb_none {A} (f : A -> bool) l : (forall x, In x l -> f x = false) -> countb f l = 0.
Proof. intros H. unfold countb. rewrite filter_none by exact H. reflexivity. Qed.

(* an image without the label contributes nothing *)
Section Absent.
  Variables (v : string) (d : detection).
  Hypothesis Habs : forall a, In a (t_gts d ++ t_pds d) -> ~ In v (a_labels a).
  Lemma absent_gts : countb (fun a => existsb (String.eqb v) (a_labels a)) (t_gts d) = 0.
  Proof. apply countb_none. intros a Ha. apply (has_label_none v a), Habs, in_app_iff. left. exact Ha. Qed.
  Lemma absent_pd_labels a ls : In a (t_pds d) -> In ls (combine (a_labels a) (a_scores a)) -> String.eqb v (fst ls) = false.
  Proof.
    intros Ha Hls. apply String.eqb_neq. intros E. apply (Habs a); [apply in_app_iff; right; exact Ha|]. rewrite E. destruct ls as (l, sc).
    apply in_combine_l in Hls. exact Hls.
  Qed.
  Lemma absent_scores c : scores_at v c d = false.
  Proof.
    unfold scores_at. apply not_true_iff_false. intros X. apply existsb_exists in X. destruct X as (a & Ha & X). apply existsb_exists in X.
    destruct X as (ls & Hls & X). rewrite (absent_pd_labels a ls Ha Hls) in X. discriminate.
  Qed.
  Lemma absent_count_gts ok : count_gts v d ok = 0.
  Proof. apply countb_none. intros x Hx. rewrite has_label_none; [reflexivity|]. apply Habs, in_app_iff. left. apply numbered_snd_In. exact Hx. Qed.
  Lemma absent_count_pds ok : count_pds v d ok = 0.
  Proof.
    apply list_sum_nat_none. intros x Hx. apply countb_none. intros ls Hls. rewrite (absent_pd_labels (snd x) ls); [reflexivity| |exact Hls]. apply numbered_snd_In. exact Hx.
  Qed.
  Lemma absent_pairs_gt pl ok : count_pairs v pl d ok = 0.
  Proof.
    apply list_sum_nat_none. intros x Hx. rewrite has_label_none; [reflexivity|]. apply Habs, in_app_iff. left. apply numbered_snd_In. exact Hx.
  Qed.
  Lemma absent_pairs_pd gl ok : count_pairs gl v d ok = 0.
  Proof.
    apply list_sum_nat_none. intros x Hx. destruct (has_label gl (snd x)); [|reflexivity].
    apply list_sum_nat_none. intros y Hy. apply countb_none. intros ls Hls. rewrite (absent_pd_labels (snd y) ls); [reflexivity| |exact Hls]. apply numbered_snd_In. exact Hy.
  Qed.
End Absent.

Section Parts.
  Variables (eps unit : Z) (ds1 ds2 : list detection).
  Hypothesis Hu : (0 <= unit)%Z.
  Hypothesis Hin : det_input unit (ds1 ++ ds2).
  Hypothesis Hfew : few_det_labels (ds1 ++ ds2).
  Variables (sel : detection -> bool) (datums1 datums2 datums : drow -> bool) (e1 e2 e : deval).
  Hypothesis Hs1 : det_selects ds1 datums1 sel.
  Hypothesis Hs2 : det_selects ds2 datums2 sel.
  Hypothesis Hs : det_selects (ds1 ++ ds2) datums sel.
  Hypothesis He1 : det_evaluator eps unit ds1 e1.
  Hypothesis He2 : det_evaluator eps unit ds2 e2.
  Hypothesis He : det_evaluator eps unit (ds1 ++ ds2) e.

  Lemma parts_input : det_input unit ds1 /\ det_input unit ds2.
  Proof. unfold det_input in *. apply Forall_app in Hin. exact Hin. Qed.
  Let Hin1 : det_input unit ds1 := proj1 parts_input.
  Let Hin2 : det_input unit ds2 := proj2 parts_input.
  Lemma parts_few : few_det_labels ds1 /\ few_det_labels ds2.
  Proof.
    split; (apply (few_det_labels_incl _ (ds1 ++ ds2)); [|exact Hfew]); intros v Hv; apply det_labels_In; apply det_labels_In in Hv;
    destruct Hv as (d & a & Hd & X); exists d, a; (split; [|exact X]); apply in_app_iff; auto.
  Qed.
  Let Hfew1 : few_det_labels ds1 := proj1 parts_few.
  Let Hfew2 : few_det_labels ds2 := proj2 parts_few.

  Lemma not_known_absent ds' e' v : det_input unit ds' -> det_evaluator eps unit ds' e' -> (forall k, ~ label_no e' v k) ->
    forall d, In d ds' -> forall a, In a (t_gts d ++ t_pds d) -> ~ In v (a_labels a).
  Proof.
    intros Hi Hev Hn d Hd a Ha Hv. assert (X : In v (det_labels ds')) by (apply det_labels_In; eauto).
    apply (end_known eps unit ds' e' Hi Hev v) in X. destruct X as (k & Hk). apply (Hn k Hk).
  Qed.

  Lemma parts_known v : (exists k, label_no e v k) <-> (exists k, label_no e1 v k) \/ (exists k, label_no e2 v k).
  Proof.
    rewrite (end_known eps unit _ e Hin He v), (end_known eps unit _ e1 Hin1 He1 v), (end_known eps unit _ e2 Hin2 He2 v), !det_labels_In. split.
    - intros (d & a & Hd & X). apply in_app_iff in Hd. destruct Hd as [Hd|Hd]; [left|right]; eauto.
    - intros [(d & a & Hd & X)|(d & a & Hd & X)]; exists d, a; (split; [|exact X]); apply in_app_iff; auto.
  Qed.

  Section Label.
    Variables (v : string) (k : nat).
    Hypothesis Hk : label_no e v k.

    Lemma absent_ranked d : In d (ds1 ++ ds2) -> (forall a, In a (t_gts d ++ t_pds d) -> ~ In v (a_labels a)) -> image_ranked eps unit d v = [].
    Proof.
      intros Hd Habs. destruct (image_ranked eps unit d v) as [|r u] eqn:E; [reflexivity|]. exfalso.
      apply In_nth_error in Hd. destruct Hd as (i & Hi).
      assert (X := image_scored eps unit (ds1 ++ ds2) Hin e He Hfew v k Hk 1%Z i d (d_score r) (tp_outer eps 1 r) Hi).
      rewrite (absent_scores v d Habs) in X. assert (false = true); [|discriminate]. apply X. unfold image_hits. rewrite E. left. reflexivity.
    Qed.

    (* a quantity that is a sum over the selected images, each contributing zero without the label *)
    Lemma parts_sum (F : Z -> nat) (F1 F2 : Z -> nat) (f : detection -> nat) :
      (forall d, In d (ds1 ++ ds2) -> (forall a, In a (t_gts d ++ t_pds d) -> ~ In v (a_labels a)) -> f d = 0) ->
      F (Z.of_nat k) = list_sum_nat (map (fun d => if sel d then f d else 0) (ds1 ++ ds2)) ->
      (forall i, label_no e1 v i -> F1 (Z.of_nat i) = list_sum_nat (map (fun d => if sel d then f d else 0) ds1)) ->
      (forall i, label_no e2 v i -> F2 (Z.of_nat i) = list_sum_nat (map (fun d => if sel d then f d else 0) ds2)) ->
      forall n1 n2, reported 0 e1 v F1 n1 -> reported 0 e2 v F2 n2 -> F (Z.of_nat k) = n1 + n2.
    Proof.
      intros H0 H H1 H2 n1 n2 R1 R2. rewrite H, map_app, list_sum_nat_app. f_equal.
      - destruct R1 as [(i & Hi & ->)|(Hn & ->)]; [symmetry; apply H1; exact Hi|]. apply sum_zero_or. intros d Hd.
        apply H0; [apply in_app_iff; left; exact Hd|]. apply (not_known_absent ds1 e1 v Hin1 He1 Hn d Hd).
      - destruct R2 as [(i & Hi & ->)|(Hn & ->)]; [symmetry; apply H2; exact Hi|]. apply sum_zero_or. intros d Hd.
        apply H0; [apply in_app_iff; right; exact Hd|]. apply (not_known_absent ds2 e2 v Hin2 He2 Hn d Hd).
    Qed.

    Lemma parts_gts n1 n2 : reported 0 e1 v (rep_gts e1 datums1) n1 -> reported 0 e2 v (rep_gts e2 datums2) n2 ->
      rep_gts e datums (Z.of_nat k) = n1 + n2.
    Proof.
      apply (parts_sum (rep_gts e datums) _ _ (fun d => countb (fun a => existsb (String.eqb v) (a_labels a)) (t_gts d))).
      - intros d _ Ha. apply absent_gts. exact Ha.
      - apply (end_gts eps unit _ Hin sel datums Hs e He v k Hk).
      - intros i Hi. apply (end_gts eps unit _ Hin1 sel datums1 Hs1 e1 He1 v i Hi).
      - intros i Hi. apply (end_gts eps unit _ Hin2 sel datums2 Hs2 e2 He2 v i Hi).
    Qed.
    Lemma parts_tp t s : (0 < t)%Z -> forall n1 n2, reported 0 e1 v (rep_tp eps e1 datums1 t s) n1 -> reported 0 e2 v (rep_tp eps e2 datums2 t s) n2 ->
      rep_tp eps e datums t s (Z.of_nat k) = n1 + n2.
    Proof.
      intros Ht. apply (parts_sum (rep_tp eps e datums t s) _ _ (image_tp eps unit t s v)).
      - intros d Hd Ha. unfold image_tp. rewrite (absent_ranked d Hd Ha). reflexivity.
      - apply (image_end_counts eps unit _ Hu Hin sel datums e Hs He Hfew v k Hk t s Ht).
      - intros i Hi. apply (image_end_counts eps unit _ Hu Hin1 sel datums1 e1 Hs1 He1 Hfew1 v i Hi t s Ht).
      - intros i Hi. apply (image_end_counts eps unit _ Hu Hin2 sel datums2 e2 Hs2 He2 Hfew2 v i Hi t s Ht).
    Qed.
    Lemma parts_fp t s : (0 < t)%Z -> forall n1 n2, reported 0 e1 v (rep_fp eps e1 datums1 t s) n1 -> reported 0 e2 v (rep_fp eps e2 datums2 t s) n2 ->
      rep_fp eps e datums t s (Z.of_nat k) = n1 + n2.
    Proof.
      intros Ht. apply (parts_sum (rep_fp eps e datums t s) _ _ (image_fp eps unit t s v)).
      - intros d Hd Ha. unfold image_fp. rewrite (absent_ranked d Hd Ha). reflexivity.
      - apply (image_end_counts eps unit _ Hu Hin sel datums e Hs He Hfew v k Hk t s Ht).
      - intros i Hi. apply (image_end_counts eps unit _ Hu Hin1 sel datums1 e1 Hs1 He1 Hfew1 v i Hi t s Ht).
      - intros i Hi. apply (image_end_counts eps unit _ Hu Hin2 sel datums2 e2 Hs2 He2 Hfew2 v i Hi t s Ht).
    Qed.
    Lemma parts_fn t s : (0 < t)%Z -> few_annotations (ds1 ++ ds2) -> forall n1 n2,
      reported 0%Z e1 v (rep_fn eps e1 datums1 t s) n1 -> reported 0%Z e2 v (rep_fn eps e2 datums2 t s) n2 ->
      rep_fn eps e datums t s (Z.of_nat k) = (n1 + n2)%Z.
    Proof.
      intros Ht Hann n1 n2 R1 R2. destruct (few_annotations_app _ _ Hann) as (Ha1 & Ha2).
      rewrite (end_fn eps unit _ Hin sel datums Hs e Hu He Hfew v k Hk t s Ht Hann).
      assert (X : forall ds' e' datums' n, det_input unit ds' -> det_selects ds' datums' sel -> det_evaluator eps unit ds' e' -> few_det_labels ds' -> few_annotations ds' ->
        reported 0%Z e' v (rep_fn eps e' datums' t s) n ->
        exists g p, reported 0 e' v (rep_gts e' datums') g /\ reported 0 e' v (rep_tp eps e' datums' t s) p /\ n = (Z.of_nat g - Z.of_nat p)%Z).
      { intros ds' e' datums' n A1 A2 A3 A4 A5 [(i & Hi & ->)|(Hn & ->)].
        - exists (rep_gts e' datums' (Z.of_nat i)), (rep_tp eps e' datums' t s (Z.of_nat i)). split; [left; eauto|]. split; [left; eauto|].
          rewrite (end_fn eps unit ds' A1 sel datums' A2 e' Hu A3 A4 v i Hi t s Ht A5), (end_gts eps unit ds' A1 sel datums' A2 e' A3 v i Hi). reflexivity.
        - exists 0, 0. split; [right; auto|]. split; [right; auto|reflexivity]. }
      destruct (X ds1 e1 datums1 n1 Hin1 Hs1 He1 Hfew1 Ha1 R1) as (g1 & p1 & G1 & P1 & ->).
      destruct (X ds2 e2 datums2 n2 Hin2 Hs2 He2 Hfew2 Ha2 R2) as (g2 & p2 & G2 & P2 & ->).
      rewrite <- (end_gts eps unit _ Hin sel datums Hs e He v k Hk), (parts_gts g1 g2 G1 G2), (parts_tp t s Ht p1 p2 P1 P2). lia.
    Qed.

    Section Confusion.
      Hypothesis Hann : few_annotations (ds1 ++ ds2).
      Hypothesis Hdis : Forall distinct_pd_labels (ds1 ++ ds2).
      Lemma parts_missed t s n1 n2 : reported 0 e1 v (dm_gt (rep_matrix eps e1 datums1 t s)) n1 -> reported 0 e2 v (dm_gt (rep_matrix eps e2 datums2 t s)) n2 ->
        dm_gt (rep_matrix eps e datums t s) (Z.of_nat k) = n1 + n2.
      Proof.
        destruct (few_annotations_app _ _ Hann) as (Ha1 & Ha2). assert (D := Hdis). apply Forall_app in D. destruct D as (D1 & D2).
        apply (parts_sum (dm_gt (rep_matrix eps e datums t s)) _ _ (fun d => count_gts v d (fun g => negb (gt_covered eps t s d (image_matching eps d) g)))).
        - intros d _ Ha. apply absent_count_gts. exact Ha.
        - apply (image_end_matching eps unit _ Hin sel datums Hs e He Hfew Hann Hdis). exact Hk.
        - intros i Hi. apply (image_end_matching eps unit _ Hin1 sel datums1 Hs1 e1 He1 Hfew1 Ha1 D1). exact Hi.
        - intros i Hi. apply (image_end_matching eps unit _ Hin2 sel datums2 Hs2 e2 He2 Hfew2 Ha2 D2). exact Hi.
      Qed.
      Lemma parts_unmatched t s n1 n2 : reported 0 e1 v (dm_pd (rep_matrix eps e1 datums1 t s)) n1 -> reported 0 e2 v (dm_pd (rep_matrix eps e2 datums2 t s)) n2 ->
        dm_pd (rep_matrix eps e datums t s) (Z.of_nat k) = n1 + n2.
      Proof.
        destruct (few_annotations_app _ _ Hann) as (Ha1 & Ha2). assert (D := Hdis). apply Forall_app in D. destruct D as (D1 & D2).
        apply (parts_sum (dm_pd (rep_matrix eps e datums t s)) _ _ (fun d => count_pds v d (fun p sc => (eps <? sc)%Z && (s <=? sc)%Z && negb (pd_covered eps t s d (image_matching eps d) p)))).
        - intros d _ Ha. apply absent_count_pds. exact Ha.
        - apply (image_end_matching eps unit _ Hin sel datums Hs e He Hfew Hann Hdis). exact Hk.
        - intros i Hi. apply (image_end_matching eps unit _ Hin1 sel datums1 Hs1 e1 He1 Hfew1 Ha1 D1). exact Hi.
        - intros i Hi. apply (image_end_matching eps unit _ Hin2 sel datums2 Hs2 e2 He2 Hfew2 Ha2 D2). exact Hi.
      Qed.
      Lemma parts_cells t s pl p n1 n2 : label_no e pl p ->
        reported_cell e1 v pl (dm (rep_matrix eps e1 datums1 t s)) n1 -> reported_cell e2 v pl (dm (rep_matrix eps e2 datums2 t s)) n2 ->
        dm (rep_matrix eps e datums t s) (Z.of_nat k) (Z.of_nat p) = n1 + n2.
      Proof.
        intros Hp R1 R2.
        destruct (few_annotations_app _ _ Hann) as (Ha1 & Ha2). assert (D := Hdis). apply Forall_app in D. destruct D as (D1 & D2).
        assert (E : forall ds' e' datums' n, det_input unit ds' -> det_selects ds' datums' sel -> det_evaluator eps unit ds' e' -> few_det_labels ds' -> few_annotations ds' ->
          Forall distinct_pd_labels ds' -> reported_cell e' v pl (dm (rep_matrix eps e' datums' t s)) n ->
          n = list_sum_nat (map (fun d => if sel d then count_pairs v pl d (fun g p sc => image_matching eps d p g && reaches eps t s d p g sc) else 0) ds')).
        { intros ds' e' datums' n A1 A2 A3 A4 A5 A6 [(i & j & Hi & Hj & ->)|([Hn|Hn] & ->)].
          - apply (image_end_matching eps unit _ A1 sel datums' A2 e' A3 A4 A5 A6); assumption.
          - symmetry. apply sum_zero_or. intros d Hd. apply absent_pairs_gt. apply (not_known_absent ds' e' v A1 A3 Hn d Hd).
          - symmetry. apply sum_zero_or. intros d Hd. apply absent_pairs_pd. apply (not_known_absent ds' e' pl A1 A3 Hn d Hd). }
        rewrite (E ds1 e1 datums1 n1), (E ds2 e2 datums2 n2), <- list_sum_nat_app, <- map_app by assumption.
        apply (image_end_matching eps unit _ Hin sel datums Hs e He Hfew Hann Hdis); assumption.
      Qed.
    End Confusion.
  End Label.
End Parts.
