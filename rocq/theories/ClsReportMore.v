(* Order independence and additivity of the classification reports. *)
From Verif Require Import Prelude Counting CacheModel CacheSpec ClsModel ClsSpec ClsLabelProofs ClsProofs ClsConfProofs RocModel RocProofs RocMain RocCurve
  FlowModel FlowProofs FlowMore ClsLemmas ClsMore ClsFilterModel ClsFilterSpec ClsFilterProofs ClsFilterCounts ClsFilterMain ClsFilterRoc
  ClsReportModel ClsReportSpec ClsReportProofs.
From Coq Require Import String QArith Lqa.
Local Notation length := List.length (only parsing).
Local Notation concat := List.concat (only parsing).
Local Open Scope nat_scope.
Local Open Scope list_scope.

Lemma labels_of_spec cs l : Forall accepted cs ->
  (In l (labels_of cs) <-> exists c, In c cs /\ (l = c_groundtruth c \/ In l (c_predictions c))).
Proof.
  intros Ha. split.
  - intros Hl. destruct (labels_of_inv cs l Ha Hl) as (c & Hc & [->|(s & Hs)]); exists c; split; auto.
    right. apply in_combine_l in Hs. exact Hs.
  - intros (c & Hc & [->|Hl]); [apply labels_of_gt; exact Hc|].
    rewrite Forall_forall in Ha. destruct (Ha c Hc) as [_ Hlen].
    destruct (In_nth_error _ _ Hl) as (i & Hi).
    assert (Hp : i < length (c_predictions c)) by (apply nth_error_Some; congruence).
    destruct (nth_error (c_scores c) i) as [s|] eqn:Es; [|apply nth_error_None in Es; lia].
    apply (labels_of_pd cs c (l, s) Hc). unfold candidates. eapply nth_error_In. apply nth_error_combine; eauto.
Qed.

Section Order.
  Variables cs1 cs2 : list classification.
  Hypothesis HP : Permutation cs1 cs2.
  Hypothesis Ha : Forall accepted cs1.

  Lemma accepted_perm : Forall accepted cs2.
  Proof. rewrite Forall_forall in *. intros c Hc. apply Ha. eapply Permutation_in; [symmetry; exact HP|exact Hc]. Qed.
  Lemma labels_perm : Permutation (labels_of cs1) (labels_of cs2).
  Proof.
    apply NoDup_Permutation; [apply labels_of_NoDup|apply labels_of_NoDup|]. intros l.
    rewrite (labels_of_spec cs1 l Ha), (labels_of_spec cs2 l accepted_perm).
    split; intros (c & Hc & H); exists c; (split; [|exact H]).
    - exact (Permutation_in _ HP Hc).
    - exact (Permutation_in _ (Permutation_sym HP) Hc).
  Qed.
  Lemma few_perm : few_labels cs1 -> few_labels cs2.
  Proof. unfold few_labels. rewrite (Permutation_length labels_perm). auto. Qed.
  Lemma data_counts_perm u hm pass l : data_counts u hm pass cs1 l = data_counts u hm pass cs2 l.
  Proof. unfold data_counts. f_equal; apply countb_perm; exact HP. Qed.
  Lemma data_cell_perm u hm pass g p : data_cell u hm pass cs1 g p = data_cell u hm pass cs2 g p.
  Proof. apply countb_perm; exact HP. Qed.
  Lemma data_missed_perm u hm pass g : data_missed u hm pass cs1 g = data_missed u hm pass cs2 g.
  Proof. apply countb_perm; exact HP. Qed.
  Lemma data_accuracy_perm w u hm pass : data_accuracy w u hm pass cs1 = data_accuracy w u hm pass cs2.
  Proof. unfold data_accuracy. rewrite !(countb_perm _ _ _ HP). reflexivity. Qed.
End Order.

Lemma table_of_perm {V} ls1 ls2 thrs (f g : string -> Z -> V) : Permutation ls1 ls2 -> (forall l t, f l t = g l t) ->
  Permutation (table_of ls1 thrs f) (table_of ls2 thrs g).
Proof.
  intros HP HE. unfold table_of. etransitivity.
  - rewrite <- flat_map_concat_map. apply Permutation_flat_map. exact HP.
  - rewrite <- flat_map_concat_map. erewrite flat_map_ext; [reflexivity|].
    intros l. apply map_ext. intros t. rewrite HE. reflexivity.
Qed.

Lemma qsum_perm l1 l2 : Permutation l1 l2 -> (qsum l1 == qsum l2)%Q.
Proof. intros P. induction P; cbn; [reflexivity|rewrite IHP; reflexivity|ring|etransitivity; eauto]. Qed.

Lemma sget_map {V} (f : string -> V) ls k : sget (map (fun x => (x, f x)) ls) k = if smem k ls then Some (f k) else None.
Proof.
  induction ls as [|a t IH]; [reflexivity|]. cbn [map sget]. rewrite IH.
  change (smem k (a :: t)) with (String.eqb k a || smem k t).
  destruct (String.eqb_spec k a) as [->|N]; reflexivity.
Qed.
Lemma smem_perm k a b : Permutation a b -> smem k a = smem k b.
Proof.
  intros HP. destruct (smem k a) eqn:E1, (smem k b) eqn:E2; try reflexivity; exfalso.
  - apply smem_In in E1. apply (Permutation_in _ HP) in E1. apply smem_In in E1. congruence.
  - apply smem_In in E2. apply (Permutation_in _ (Permutation_sym HP)) in E2. apply smem_In in E2. congruence.
Qed.
Lemma cell_map (f : string -> string -> nat) ls g p :
  cell (map (fun g => (g, map (fun p => (p, f g p)) ls)) ls) g p = if smem g ls && smem p ls then Some (f g p) else None.
Proof.
  unfold cell. rewrite (sget_map (fun g => map (fun p => (p, f g p)) ls)). destruct (smem g ls); [|reflexivity].
  rewrite sget_map. reflexivity.
Qed.

Section Same.
  Variables cs1 cs2 : list classification.
  Hypothesis HP : Permutation cs1 cs2.
  Hypothesis Hdist : Forall distinct_candidates cs1.
  Variable w : cview.
  Variables e1 e2 : ceval.
  Hypothesis He1 : cls_evaluator cs1 w e1.
  Hypothesis He2 : cls_evaluator cs2 w e2.
  Let Ha : Forall accepted cs1 := ev_acc cs1 w e1 He1.

  Lemma distinct_perm : Forall distinct_candidates cs2.
  Proof. rewrite Forall_forall in *. intros c Hc. apply Hdist. eapply Permutation_in; [symmetry; exact HP|exact Hc]. Qed.

  Theorem order_metrics tol hm thrs d1 d2 sel : few_labels cs1 -> expresses cs1 d1 sel -> expresses cs2 d2 sel -> thrs <> [] ->
    exists m1 m2, report_metrics e1 tol hm thrs d1 = Some m1 /\ report_metrics e2 tol hm thrs d2 = Some m2 /\
      mt_accuracy m1 = mt_accuracy m2 /\ Permutation (mt_counts m1) (mt_counts m2) /\ Permutation (mt_precision m1) (mt_precision m2) /\
      Permutation (mt_recall m1) (mt_recall m2) /\ Permutation (mt_f1 m1) (mt_f1 m2).
  Proof.
    intros Hf H1 H2 Hne.
    destruct (metrics_report cs1 Hdist w e1 He1 Hf tol hm thrs d1 sel H1 Hne) as (ls1 & P1 & _ & E1).
    destruct (metrics_report cs2 distinct_perm w e2 He2 (few_perm cs1 cs2 HP Ha Hf) tol hm thrs d2 sel H2 Hne) as (ls2 & P2 & _ & E2).
    cbn zeta in E1, E2. rewrite E1, E2. do 2 eexists. split; [reflexivity|]. split; [reflexivity|].
    cbn [mt_accuracy mt_counts mt_precision mt_recall mt_f1].
    assert (PL : Permutation ls1 ls2).
    { etransitivity; [exact P1|]. etransitivity; [apply (labels_perm cs1 cs2 HP Ha)|symmetry; exact P2]. }
    split; [|repeat split; apply table_of_perm; auto; intros l t; rewrite (data_counts_perm cs1 cs2 HP); reflexivity].
    apply map_ext. intros t. rewrite (data_accuracy_perm cs1 cs2 HP). reflexivity.
  Qed.

  Theorem order_confusion tol9 hm thrs d1 d2 sel : expresses cs1 d1 sel -> expresses cs2 d2 sel -> thrs <> [] ->
    exists o1 o2, report_confusion e1 tol9 hm thrs d1 = Some o1 /\ report_confusion e2 tol9 hm thrs d2 = Some o2 /\
      length o1 = length o2 /\
      forall k t1 C1 U1 t2 C2 U2, nth_error o1 k = Some (t1, (C1, U1)) -> nth_error o2 k = Some (t2, (C2, U2)) ->
        t1 = t2 /\ (forall g p, cell C1 g p = cell C2 g p) /\ (forall g, sget U1 g = sget U2 g).
  Proof.
    intros H1 H2 Hne.
    destruct (confusion_report cs1 Hdist w e1 He1 tol9 hm thrs d1 sel H1 Hne) as (ls1 & P1 & _ & o1 & E1 & F1 & N1).
    destruct (confusion_report cs2 distinct_perm w e2 He2 tol9 hm thrs d2 sel H2 Hne) as (ls2 & P2 & _ & o2 & E2 & F2 & N2).
    exists o1, o2. split; [exact E1|]. split; [exact E2|].
    assert (L1 : length o1 = length thrs) by (rewrite <- F1, map_length; reflexivity).
    assert (L2 : length o2 = length thrs) by (rewrite <- F2, map_length; reflexivity).
    split; [congruence|]. intros k t1 C1 U1 t2 C2 U2 K1 K2.
    assert (Hk : k < length thrs) by (rewrite <- L1; apply nth_error_Some; congruence).
    destruct (nth_error thrs k) as [thr|] eqn:Et; [|apply nth_error_None in Et; lia].
    pose proof (N1 k thr Et) as Q1. pose proof (N2 k thr Et) as Q2. cbn zeta in Q1, Q2.
    rewrite Q1 in K1. rewrite Q2 in K2. injection K1 as <- <- <-. injection K2 as <- <- <-.
    assert (PL : Permutation ls1 ls2).
    { etransitivity; [exact P1|]. etransitivity; [apply (labels_perm cs1 cs2 HP Ha)|symmetry; exact P2]. }
    split; [reflexivity|]. split.
    - intros g p. rewrite !cell_map, (smem_perm g _ _ PL), (smem_perm p _ _ PL), (data_cell_perm cs1 cs2 HP). reflexivity.
    - intros g. rewrite !sget_map, (smem_perm g _ _ PL), (data_missed_perm cs1 cs2 HP). reflexivity.
  Qed.

  Theorem order_info d1 d2 sel : expresses cs1 d1 sel -> expresses cs2 d2 sel -> cls_info d1 e1 = cls_info d2 e2.
  Proof.
    intros H1 H2. rewrite (ev_info cs1 Hdist w e1 He1 d1 sel H1), (ev_info cs2 distinct_perm w e2 He2 d2 sel H2).
    rewrite (Permutation_length (labels_perm cs1 cs2 HP Ha)), (countb_perm _ _ _ HP).
    rewrite (list_sum_nat_perm _ _ (Permutation_map _ HP)). reflexivity.
  Qed.

  Lemma outcomes_perm l : Permutation (outcomes l (reduced w cs1)) (outcomes l (reduced w cs2)).
  Proof.
    rewrite !outcomes_reduced, <- !flat_map_concat_map. apply Permutation_flat_map. exact HP.
  Qed.

  Lemma rocauc_entry cs e (Hd : Forall distinct_candidates cs) (He : cls_evaluator cs w e) l i v :
    has_number e l i -> nth_error (cls_rocauc e) i = Some v -> sget (fst (report_rocauc e)) l = Some (Some v).
  Proof.
    intros Hn Hv. pose proof (ev_good cs Hd w e He) as G.
    unfold report_rocauc. cbn [fst]. apply sget_In.
    - rewrite map_map. cbn [fst]. erewrite map_ext; [|intros a; reflexivity].
      eapply Permutation_NoDup; [symmetry; apply (items_labels cs w e G)|apply labels_of_NoDup].
    - unfold has_number in Hn. apply dict_get_In in Hn. apply in_map_iff. exists (Z.of_nat i, l). cbn [fst snd].
      rewrite Nat2Z.id, Hv. auto.
  Qed.

  Theorem order_rocauc l : In l (labels_of cs1) -> safe_curve w cs1 e1 l -> safe_curve w cs2 e2 l ->
    exists v1 v2, sget (fst (report_rocauc e1)) l = Some (Some v1) /\ sget (fst (report_rocauc e2)) l = Some (Some v2) /\ (v1 == v2)%Q.
  Proof.
    intros Hl S1 S2.
    destruct (In_nth_error _ _ Hl) as (i1 & N1). pose proof (Permutation_in _ (labels_perm cs1 cs2 HP Ha) Hl) as Hl2.
    destruct (In_nth_error _ _ Hl2) as (i2 & N2).
    apply (ev_labels cs1 Hdist w e1 He1) in N1. apply (ev_labels cs2 distinct_perm w e2 He2) in N2.
    destruct (same_rocauc cs1 w e1 cs2 w e2 l i1 i2 Hdist distinct_perm He1 He2 N1 N2 (S1 _ N1) (S2 _ N2) (outcomes_perm l)
      (countb_perm _ _ _ HP)) as (v1 & v2 & V1 & V2 & E).
    exists v1, v2. split; [exact (rocauc_entry cs1 e1 Hdist He1 l i1 v1 N1 V1)|].
    split; [exact (rocauc_entry cs2 e2 distinct_perm He2 l i2 v2 N2 V2)|exact E].
  Qed.

  Theorem order_mean_rocauc : (forall l, In l (labels_of cs1) -> safe_curve w cs1 e1 l /\ safe_curve w cs2 e2 l) ->
    exists m1 m2, snd (report_rocauc e1) = Some m1 /\ snd (report_rocauc e2) = Some m2 /\ (m1 == m2)%Q.
  Proof.
    intros Hsafe. unfold report_rocauc. cbn [snd].
    assert (N : forall cs e (Hd : Forall distinct_candidates cs) (He : cls_evaluator cs w e), length (cls_rocauc e) = length (labels_of cs) /\ cls_rocauc e <> []).
    { intros cs e Hd He. assert (Hl : length (cls_rocauc e) = length (labels_of cs)).
      { unfold cls_rocauc, compute_rocauc. rewrite map_length, seq_length. apply (ev_n cs Hd w e He). }
      split; [exact Hl|]. intros E. rewrite E in Hl. pose proof (labels_nonempty cs Hd w e He) as Hne.
      pose proof (ev_n cs Hd w e He) as Hn. rewrite <- Hl in Hn. destruct (ce_labels e); [congruence|discriminate]. }
    destruct (N cs1 e1 Hdist He1) as [L1 Z1]. destruct (N cs2 e2 distinct_perm He2) as [L2 Z2].
    assert (M : forall l : list Q, l <> [] -> mean l = Some (qsum l / inject_Z (Z.of_nat (length l)))%Q) by (intros [|a t] H; [congruence|reflexivity]).
    rewrite (M _ Z1), (M _ Z2). do 2 eexists. split; [reflexivity|]. split; [reflexivity|].
    rewrite L1, L2, (Permutation_length (labels_perm cs1 cs2 HP Ha)).
    set (g l := match sget (fst (report_rocauc e1)) l with Some (Some v) => v | _ => 0%Q end).
    assert (S1 : (qsum (cls_rocauc e1) == qsum (map g (labels_of cs1)))%Q).
    { apply qsum_nth; [exact L1|]. intros i x Hx. assert (Hi : i < length (labels_of cs1)) by (apply nth_error_Some; congruence).
      destruct (nth_error (cls_rocauc e1) i) as [v|] eqn:Ev; [|apply nth_error_None in Ev; lia].
      exists v. split; [reflexivity|]. apply (ev_labels cs1 Hdist w e1 He1) in Hx. unfold g.
      rewrite (rocauc_entry cs1 e1 Hdist He1 x i v Hx Ev). reflexivity. }
    assert (S2 : (qsum (cls_rocauc e2) == qsum (map g (labels_of cs2)))%Q).
    { apply qsum_nth; [exact L2|]. intros i x Hx. assert (Hi : i < length (labels_of cs2)) by (apply nth_error_Some; congruence).
      destruct (nth_error (cls_rocauc e2) i) as [v|] eqn:Ev; [|apply nth_error_None in Ev; lia].
      exists v. split; [reflexivity|].
      assert (Hx1 : In x (labels_of cs1)) by (eapply Permutation_in; [symmetry; apply (labels_perm cs1 cs2 HP Ha)|eapply nth_error_In; exact Hx]).
      destruct (Hsafe x Hx1) as [Q1 Q2]. destruct (order_rocauc x Hx1 Q1 Q2) as (v1 & v2 & V1 & V2 & E).
      apply (ev_labels cs2 distinct_perm w e2 He2) in Hx.
      rewrite (rocauc_entry cs2 e2 distinct_perm He2 x i v Hx Ev) in V2. injection V2 as ->.
      unfold g. rewrite V1. symmetry. exact E. }
    rewrite S1, S2.
    assert (S3 : (qsum (map g (labels_of cs1)) == qsum (map g (labels_of cs2)))%Q).
    { apply qsum_perm, Permutation_map, (labels_perm cs1 cs2 HP Ha). }
    rewrite S3. reflexivity.
  Qed.
End Same.

(* ---------------------------------------------------------------- additivity *)
Lemma find_app {A} (P : A -> bool) l1 l2 : find P (l1 ++ l2) = match find P l1 with Some x => Some x | None => find P l2 end.
Proof. induction l1 as [|a t IH]; [reflexivity|]. cbn. destruct (P a); [reflexivity|exact IH]. Qed.
Lemma find_table (f : string -> Z -> counts) ls thrs l t : In t thrs ->
  counts_at (table_of ls thrs f) l t = if smem l ls then f l t else MkCounts 0 0 0 0.
Proof.
  intros Ht. unfold counts_at, table_of. induction ls as [|a ls IH]; [reflexivity|].
  change (smem l (a :: ls)) with (String.eqb l a || smem l ls). cbn [map concat].
  rewrite find_app. destruct (String.eqb_spec l a) as [->|N].
  - cbn [orb]. assert (E : find (fun x : string * Z * option counts => String.eqb (fst (fst x)) a && (snd (fst x) =? t)%Z)
        (map (fun t0 => (a, t0, Some (f a t0))) thrs) = Some (a, t, Some (f a t))).
    { clear -Ht. induction thrs as [|b thrs IH]; [destruct Ht|]. cbn [map find fst snd]. rewrite String.eqb_refl. cbn [andb].
      destruct (Z.eqb_spec b t) as [->|N]; [reflexivity|]. apply IH. destruct Ht; [congruence|assumption]. }
    rewrite E. reflexivity.
  - cbn [orb]. assert (E : find (fun x : string * Z * option counts => String.eqb (fst (fst x)) l && (snd (fst x) =? t)%Z)
        (map (fun t0 => (a, t0, Some (f a t0))) thrs) = None).
    { clear -N. induction thrs as [|b thrs IH]; [reflexivity|]. cbn [map find fst snd].
      destruct (String.eqb_spec a l); [congruence|]. cbn [andb]. exact IH. }
    rewrite E. exact IH.
Qed.

Lemma countb_none {A} (P : A -> bool) l : (forall x, In x l -> P x = false) -> countb P l = 0.
Proof.
  intros H. unfold countb. induction l as [|a l IH]; [reflexivity|]. cbn [filter].
  rewrite (H a (or_introl eq_refl)). apply IH. intros x Hx. apply H. right. exact Hx.
Qed.

Section Absent.
  Variable cs : list classification.
  Hypothesis Ha : Forall accepted cs.
  Variable u : cview.
  Lemma absent_truth l c : ~ In l (labels_of cs) -> In c cs -> String.eqb (c_groundtruth c) l = false.
  Proof. intros Hn Hc. destruct (String.eqb_spec (c_groundtruth c) l) as [E|]; [|reflexivity]. exfalso. apply Hn. rewrite <- E. apply labels_of_gt. exact Hc. Qed.
  Lemma absent_predicted l c : ~ In l (labels_of cs) -> In c cs -> ~ In l (c_predictions c).
  Proof. intros Hn Hc Hi. apply Hn. apply (labels_of_spec cs l Ha). eauto. Qed.
  Lemma absent_positive hm pass l c : ~ In l (labels_of cs) -> In c cs -> smem l (vpositives u hm pass c) = false.
  Proof.
    intros Hn Hc. destruct (smem l (vpositives u hm pass c)) eqn:E; [|reflexivity]. exfalso.
    apply smem_In in E. unfold vpositives in E. apply filter_In in E. destruct E as [E _]. apply positives_sub in E.
    exact (absent_predicted l c Hn Hc E).
  Qed.
  Lemma absent_viewed l c : ~ In l (labels_of cs) -> In c cs -> smem l (c_predictions (viewed u c)) = false.
  Proof.
    intros Hn Hc. destruct (smem l (c_predictions (viewed u c))) eqn:E; [|reflexivity]. exfalso.
    apply smem_In in E. rewrite viewed_predictions in E by (rewrite Forall_forall in Ha; auto).
    apply filter_In in E. exact (absent_predicted l c Hn Hc (proj1 E)).
  Qed.
  Lemma data_counts_absent hm pass l : ~ In l (labels_of cs) -> data_counts u hm pass cs l = MkCounts 0 0 0 0.
  Proof.
    intros Hn. unfold data_counts. f_equal; apply countb_none; intros c Hc.
    - unfold v_tp. rewrite (absent_truth l c Hn Hc). reflexivity.
    - unfold v_fp. rewrite (absent_positive hm pass l c Hn Hc), andb_false_r. reflexivity.
    - unfold v_fn. rewrite (absent_truth l c Hn Hc). reflexivity.
    - unfold v_tn. rewrite (absent_viewed l c Hn Hc). cbn. apply andb_false_r.
  Qed.
  Lemma data_cell_absent hm pass g p : ~ In g (labels_of cs) \/ ~ In p (labels_of cs) -> data_cell u hm pass cs g p = 0.
  Proof.
    intros Hn. apply countb_none. intros c Hc. destruct Hn as [Hn|Hn].
    - rewrite (absent_truth g c Hn Hc). reflexivity.
    - rewrite (absent_positive hm pass p c Hn Hc). apply andb_false_r.
  Qed.
  Lemma data_missed_absent hm pass g : ~ In g (labels_of cs) -> data_missed u hm pass cs g = 0.
  Proof. intros Hn. apply countb_none. intros c Hc. rewrite (absent_truth g c Hn Hc). cbn. apply andb_false_r. Qed.
End Absent.

Section Reading.
  Variable cs : list classification.
  Hypothesis Hdist : Forall distinct_candidates cs.
  Variable w : cview.
  Variable e : ceval.
  Hypothesis He : cls_evaluator cs w e.
  Let Ha : Forall accepted cs := ev_acc cs w e He.

  Lemma smem_labels ls l : Permutation ls (labels_of cs) -> smem l ls = false -> ~ In l (labels_of cs).
  Proof.
    intros P H Hi. apply (Permutation_in _ (Permutation_sym P)) in Hi. apply smem_In in Hi. congruence.
  Qed.

  Lemma read_counts tol hm thrs datums sel m l t : few_labels cs -> expresses cs datums sel ->
    report_metrics e tol hm thrs datums = Some m -> In t thrs ->
    counts_at (mt_counts m) l t = data_counts (cselect w sel) hm (pass_counts tol t) cs l.
  Proof.
    intros Hf Hs Hm Ht. assert (Hne : thrs <> []) by (intros ->; destruct Ht).
    destruct (metrics_report cs Hdist w e He Hf tol hm thrs datums sel Hs Hne) as (ls & P & _ & E). cbn zeta in E.
    rewrite Hm in E. injection E as ->. cbn [mt_counts]. rewrite (find_table _ ls thrs l t Ht).
    destruct (smem l ls) eqn:El; [reflexivity|]. symmetry. apply (data_counts_absent cs Ha). exact (smem_labels ls l P El).
  Qed.
  Lemma read_accuracy tol hm thrs datums sel m k t a : few_labels cs -> expresses cs datums sel ->
    report_metrics e tol hm thrs datums = Some m -> nth_error (mt_accuracy m) k = Some (t, a) ->
    nth_error thrs k = Some t /\ a = data_accuracy w (cselect w sel) hm (pass_counts tol t) cs.
  Proof.
    intros Hf Hs Hm Hk. assert (Hne : thrs <> []) by (intros ->; cbn in Hm; discriminate).
    destruct (metrics_report cs Hdist w e He Hf tol hm thrs datums sel Hs Hne) as (ls & P & _ & E). cbn zeta in E.
    rewrite Hm in E. injection E as ->. cbn [mt_accuracy] in Hk.
    rewrite nth_error_map in Hk. destruct (nth_error thrs k) as [x|] eqn:Ex; [|discriminate]. cbn in Hk. injection Hk as <- <-. auto.
  Qed.
  Lemma read_confusion tol9 hm thrs datums sel o k t C U : expresses cs datums sel ->
    report_confusion e tol9 hm thrs datums = Some o -> nth_error o k = Some (t, (C, U)) ->
    let pass := pass_cm tol9 (firstn (S k) thrs) in nth_error thrs k = Some t /\
    (forall g p, or0 (cell C g p) = data_cell (cselect w sel) hm pass cs g p) /\
    (forall g, or0 (sget U g) = data_missed (cselect w sel) hm pass cs g).
  Proof.
    intros Hs Hm Hk. assert (Hne : thrs <> []) by (intros ->; cbn in Hm; discriminate).
    destruct (confusion_report cs Hdist w e He tol9 hm thrs datums sel Hs Hne) as (ls & P & _ & o' & E & F & N).
    rewrite Hm in E. injection E as <-. cbn zeta.
    assert (Hl : k < length thrs) by (rewrite <- F, map_length; apply nth_error_Some; congruence).
    destruct (nth_error thrs k) as [x|] eqn:Ex; [|apply nth_error_None in Ex; lia].
    specialize (N k x Ex). cbn zeta in N. rewrite Hk in N. injection N as -> -> ->. split; [reflexivity|]. split.
    - intros g p. rewrite cell_map. destruct (smem g ls) eqn:Eg; cbn [andb].
      + destruct (smem p ls) eqn:Ep; [reflexivity|]. cbn. symmetry. apply (data_cell_absent cs Ha). right. exact (smem_labels ls p P Ep).
      + cbn. symmetry. apply (data_cell_absent cs Ha). left. exact (smem_labels ls g P Eg).
    - intros g. rewrite sget_map. destruct (smem g ls) eqn:Eg; [reflexivity|]. cbn. symmetry.
      apply (data_missed_absent cs). exact (smem_labels ls g P Eg).
  Qed.
End Reading.

Lemma labels_sub cs cs' : Forall accepted cs' -> (forall c, In c cs -> In c cs') -> Forall accepted cs ->
  forall l, In l (labels_of cs) -> In l (labels_of cs').
Proof.
  intros H' Hs H l Hl. apply (labels_of_spec cs l H) in Hl. destruct Hl as (c & Hc & E). apply (labels_of_spec cs' l H'). eauto.
Qed.
Lemma few_sub cs cs' : Forall accepted cs' -> (forall c, In c cs -> In c cs') -> Forall accepted cs -> few_labels cs' -> few_labels cs.
Proof.
  intros H' Hs H. unfold few_labels.
  pose proof (NoDup_incl_length (labels_of_NoDup cs) (labels_sub cs cs' H' Hs H)). lia.
Qed.

Section Parts.
  Variables cs1 cs2 : list classification.
  Variable w : cview.
  Hypothesis Hdist : Forall distinct_candidates (cs1 ++ cs2).
  Variables e1 e2 e : ceval.
  Hypothesis He1 : cls_evaluator cs1 w e1.
  Hypothesis He2 : cls_evaluator cs2 w e2.
  Hypothesis He : cls_evaluator (cs1 ++ cs2) w e.
  Variables (d1 d2 d : crow -> bool) (sel : cview).
  Hypothesis H1 : expresses cs1 d1 sel.
  Hypothesis H2 : expresses cs2 d2 sel.
  Hypothesis H : expresses (cs1 ++ cs2) d sel.

  Let D1 : Forall distinct_candidates cs1 := proj1 (proj1 (Forall_app _ _ _) Hdist).
  Let D2 : Forall distinct_candidates cs2 := proj2 (proj1 (Forall_app _ _ _) Hdist).

  Lemma parts_few : few_labels (cs1 ++ cs2) -> few_labels cs1 /\ few_labels cs2.
  Proof.
    intros Hf. pose proof (ev_acc _ _ _ He) as Ha. split.
    - apply (few_sub cs1 (cs1 ++ cs2) Ha); [intros; apply in_app_iff; auto|exact (ev_acc _ _ _ He1)|exact Hf].
    - apply (few_sub cs2 (cs1 ++ cs2) Ha); [intros; apply in_app_iff; auto|exact (ev_acc _ _ _ He2)|exact Hf].
  Qed.

  Theorem additive_counts tol hm thrs m1 m2 m l t : few_labels (cs1 ++ cs2) ->
    report_metrics e1 tol hm thrs d1 = Some m1 -> report_metrics e2 tol hm thrs d2 = Some m2 ->
    report_metrics e tol hm thrs d = Some m -> In t thrs ->
    counts_at (mt_counts m) l t = counts_sum (counts_at (mt_counts m1) l t) (counts_at (mt_counts m2) l t).
  Proof.
    intros Hf M1 M2 M Ht. destruct (parts_few Hf) as [F1 F2].
    rewrite (read_counts cs1 D1 w e1 He1 tol hm thrs d1 sel m1 l t F1 H1 M1 Ht),
            (read_counts cs2 D2 w e2 He2 tol hm thrs d2 sel m2 l t F2 H2 M2 Ht),
            (read_counts _ Hdist w e He tol hm thrs d sel m l t Hf H M Ht).
    unfold data_counts, counts_sum. cbn [n_tp n_fp n_fn n_tn]. rewrite !countb_app. reflexivity.
  Qed.

  Theorem additive_confusion tol9 hm thrs o1 o2 o k t1 C1 U1 t2 C2 U2 t C U :
    report_confusion e1 tol9 hm thrs d1 = Some o1 -> report_confusion e2 tol9 hm thrs d2 = Some o2 ->
    report_confusion e tol9 hm thrs d = Some o ->
    nth_error o1 k = Some (t1, (C1, U1)) -> nth_error o2 k = Some (t2, (C2, U2)) -> nth_error o k = Some (t, (C, U)) ->
    t1 = t /\ t2 = t /\ (forall g p, or0 (cell C g p) = or0 (cell C1 g p) + or0 (cell C2 g p)) /\
    (forall g, or0 (sget U g) = or0 (sget U1 g) + or0 (sget U2 g)).
  Proof.
    intros M1 M2 M K1 K2 K.
    destruct (read_confusion cs1 D1 w e1 He1 tol9 hm thrs d1 sel o1 k t1 C1 U1 H1 M1 K1) as (A1 & B1 & E1).
    destruct (read_confusion cs2 D2 w e2 He2 tol9 hm thrs d2 sel o2 k t2 C2 U2 H2 M2 K2) as (A2 & B2 & E2).
    destruct (read_confusion _ Hdist w e He tol9 hm thrs d sel o k t C U H M K) as (A & B & E).
    split; [congruence|]. split; [congruence|]. split.
    - intros g p. rewrite B, B1, B2. unfold data_cell. apply countb_app.
    - intros g. rewrite E, E1, E2. unfold data_missed. apply countb_app.
  Qed.

  Theorem additive_info : exists r1 r2 l1 l2 l n1 n2,
    cls_info d1 e1 = (r1, l1, n1) /\ cls_info d2 e2 = (r2, l2, n2) /\ cls_info d e = (r1 + r2, l, n1 + n2) /\ l1 <= l /\ l2 <= l /\ l <= l1 + l2.
  Proof.
    rewrite (ev_info cs1 D1 w e1 He1 d1 sel H1), (ev_info cs2 D2 w e2 He2 d2 sel H2), (ev_info _ Hdist w e He d sel H).
    rewrite map_app, list_sum_nat_app, countb_app. do 7 eexists. do 3 (split; [reflexivity|]).
    pose proof (ev_acc _ _ _ He) as Ha.
    pose proof (labels_sub cs1 (cs1 ++ cs2) Ha (fun c Hc => proj2 (in_app_iff _ _ _) (or_introl Hc)) (ev_acc _ _ _ He1)) as S1.
    pose proof (labels_sub cs2 (cs1 ++ cs2) Ha (fun c Hc => proj2 (in_app_iff _ _ _) (or_intror Hc)) (ev_acc _ _ _ He2)) as S2.
    split; [exact (NoDup_incl_length (labels_of_NoDup cs1) S1)|]. split; [exact (NoDup_incl_length (labels_of_NoDup cs2) S2)|].
    rewrite <- app_length. apply NoDup_incl_length; [apply labels_of_NoDup|]. intros l Hl.
    apply (labels_of_spec _ l Ha) in Hl. destruct Hl as (c & Hc & E). apply in_app_iff in Hc. apply in_app_iff.
    destruct Hc as [Hc|Hc]; [left; apply (labels_of_spec _ l (ev_acc _ _ _ He1))|right; apply (labels_of_spec _ l (ev_acc _ _ _ He2))]; eauto.
  Qed.

  Theorem additive_accuracy tol hm thrs m1 m2 m k t1 a1 t2 a2 t a : few_labels (cs1 ++ cs2) ->
    report_metrics e1 tol hm thrs d1 = Some m1 -> report_metrics e2 tol hm thrs d2 = Some m2 ->
    report_metrics e tol hm thrs d = Some m ->
    nth_error (mt_accuracy m1) k = Some (t1, a1) -> nth_error (mt_accuracy m2) k = Some (t2, a2) -> nth_error (mt_accuracy m) k = Some (t, a) ->
    let n x := inject_Z (Z.of_nat (snd (cls_info (fun _ => true) x))) in
    t1 = t /\ t2 = t /\ (a * n e == a1 * n e1 + a2 * n e2)%Q.
  Proof.
    intros Hf M1 M2 M K1 K2 K. destruct (parts_few Hf) as [F1 F2]. cbn zeta.
    destruct (read_accuracy cs1 D1 w e1 He1 tol hm thrs d1 sel m1 k t1 a1 F1 H1 M1 K1) as [T1 ->].
    destruct (read_accuracy cs2 D2 w e2 He2 tol hm thrs d2 sel m2 k t2 a2 F2 H2 M2 K2) as [T2 ->].
    destruct (read_accuracy _ Hdist w e He tol hm thrs d sel m k t a Hf H M K) as [T ->].
    assert (t1 = t) by congruence. assert (t2 = t) by congruence. subst t1 t2. split; [reflexivity|]. split; [reflexivity|].
    unfold cls_info. cbn [snd]. rewrite (ev_visible cs1 D1 w e1 He1), (ev_visible cs2 D2 w e2 He2), (ev_visible _ Hdist w e He).
    pose proof (ev_visible_pos cs1 D1 w e1 He1) as P1. pose proof (ev_visible_pos cs2 D2 w e2 He2) as P2.
    unfold data_accuracy. rewrite !countb_app.
    assert (Cancel : forall x n, 0 < n -> (inject_Z (Z.of_nat x) / inject_Z (Z.of_nat n) * inject_Z (Z.of_nat n) == inject_Z (Z.of_nat x))%Q).
    { intros x n Hn. rewrite Qmult_comm. apply Qmult_div_r. intros E. unfold Qeq in E. cbn in E. lia. }
    rewrite !Cancel by lia. rewrite Nat2Z.inj_add, inject_Z_plus. reflexivity.
  Qed.
End Parts.

(* ---------------------------------------------------------------- shape and ranges *)
Lemma table_of_In {V} (f : string -> Z -> V) ls thrs l t q : In (l, t, q) (table_of ls thrs f) <-> In l ls /\ In t thrs /\ q = Some (f l t).
Proof.
  unfold table_of. rewrite in_concat. split.
  - intros (x & Hx & Hi). apply in_map_iff in Hx. destruct Hx as (l' & <- & Hl). apply in_map_iff in Hi.
    destruct Hi as (t' & [= <- <- <-] & Ht). auto.
  - intros (Hl & Ht & ->). exists (map (fun t => (l, t, Some (f l t))) thrs). split; [apply in_map_iff; eauto|apply in_map_iff; eauto].
Qed.
Lemma table_of_keys {V} (f : string -> Z -> V) ls thrs : map fst (table_of ls thrs f) = list_prod ls thrs.
Proof.
  unfold table_of. induction ls as [|l ls IH]; [reflexivity|]. cbn [map concat list_prod]. rewrite map_app, map_map, IH. reflexivity.
Qed.
Lemma NoDup_list_prod {A B} (l : list A) (m : list B) : NoDup l -> NoDup m -> NoDup (list_prod l m).
Proof.
  intros Hl Hm. induction Hl as [|a l Ha Hl IH]; [constructor|]. cbn [list_prod]. apply NoDup_app_disjoint.
  - apply FinFun.Injective_map_NoDup; [intros x y [= E]; exact E|exact Hm].
  - exact IH.
  - intros [x y] H1 H2. apply in_map_iff in H1. destruct H1 as (z & [= <- <-] & _). apply in_prod_iff in H2. tauto.
Qed.

Theorem listed_once cs w e : Forall distinct_candidates cs -> cls_evaluator cs w e -> few_labels cs ->
  forall tol hm thrs datums sel m, expresses cs datums sel -> NoDup thrs -> report_metrics e tol hm thrs datums = Some m ->
  NoDup (map fst (mt_counts m)) /\ length (mt_counts m) = length (labels_of cs) * length thrs /\
  (forall l t, In (l, t) (map fst (mt_counts m)) <-> In l (labels_of cs) /\ In t thrs) /\
  map fst (mt_precision m) = map fst (mt_counts m) /\ map fst (mt_recall m) = map fst (mt_counts m) /\ map fst (mt_f1 m) = map fst (mt_counts m).
Proof.
  intros Hd He Hf tol hm thrs datums sel m Hs Hn Hm. assert (Hne : thrs <> []) by (intros ->; cbn in Hm; discriminate).
  destruct (metrics_report cs Hd w e He Hf tol hm thrs datums sel Hs Hne) as (ls & P & _ & E). cbn zeta in E.
  rewrite Hm in E. injection E as ->. cbn [mt_counts mt_precision mt_recall mt_f1].
  rewrite <- (map_length fst (table_of ls thrs _)), !table_of_keys. rewrite prod_length, (Permutation_length P).
  split; [|split; [reflexivity|split; [|auto]]].
  - apply NoDup_list_prod; [|exact Hn]. eapply Permutation_NoDup; [symmetry; exact P|apply labels_of_NoDup].
  - intros l t. rewrite in_prod_iff. split; intros [A B]; split; auto; eapply Permutation_in; [exact P|exact A|symmetry; exact P|exact A].
Qed.

Theorem report_ranges cs w e : Forall distinct_candidates cs -> cls_evaluator cs w e -> few_labels cs ->
  forall tol hm thrs datums sel m, expresses cs datums sel -> report_metrics e tol hm thrs datums = Some m ->
  (forall l t q, In (l, t, q) (mt_precision m ++ mt_recall m ++ mt_f1 m) -> exists v, q = Some v /\ (0 <= v <= 1)%Q) /\
  (forall t a, In (t, a) (mt_accuracy m) -> (0 <= a)%Q /\ (hm = true -> a <= 1)%Q).
Proof.
  intros Hd He Hf tol hm thrs datums sel m Hs Hm. assert (Hne : thrs <> []) by (intros ->; cbn in Hm; discriminate).
  destruct (metrics_report cs Hd w e He Hf tol hm thrs datums sel Hs Hne) as (ls & P & _ & E). cbn zeta in E.
  rewrite Hm in E. injection E as ->. cbn [mt_accuracy mt_precision mt_recall mt_f1]. split.
  - intros l t q Hi. rewrite !in_app_iff in Hi.
    set (c := data_counts (cselect w sel) hm (pass_counts tol t) cs l). assert (A : (0 <= precision c <= 1)%Q) by (apply qdiv_bounds; lia).
    assert (B : (0 <= recall c <= 1)%Q) by (apply qdiv_bounds; lia).
    pose proof (f1_bounds _ _ A B) as C.
    destruct Hi as [Hi|[Hi|Hi]]; apply table_of_In in Hi; destruct Hi as (_ & _ & ->); eexists; (split; [reflexivity|]); assumption.
  - intros t a Hi. apply in_map_iff in Hi. destruct Hi as (t' & [= <- <-] & _). unfold data_accuracy.
    pose proof (ev_visible_pos cs Hd w e He) as Hp.
    set (n := countb (visible w) cs) in *. set (k := countb _ cs).
    assert (Hn : (0 < inject_Z (Z.of_nat n))%Q) by (unfold Qlt; cbn; lia).
    split.
    + apply Qle_shift_div_l; [exact Hn|]. rewrite Qmult_0_l. unfold Qle; cbn; lia.
    + intros ->. apply Qle_shift_div_r; [exact Hn|]. rewrite Qmult_1_l.
      assert (k <= n); [|unfold Qle; cbn; lia]. unfold k, n. apply countb_mono. intros c _ Ht.
      apply smem_In in Ht. unfold vpositives in Ht. apply filter_In in Ht. destruct Ht as [H1 H2]. unfold visible. apply existsb_exists.
      exists (c_groundtruth c). split; [exact (positives_sub _ _ _ _ H1)|]. unfold cselect in H2. apply andb_prop in H2. tauto.
Qed.
