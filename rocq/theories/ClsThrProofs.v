(* Proofs for C139. *)
From Verif Require Import Prelude Counting CacheModel CacheSpec ClsModel ClsSpec ClsLabelProofs ClsProofs ClsConfProofs RocModel RocProofs RocMain RocCurve
  FlowModel FlowProofs FlowMore ClsLemmas ClsMore ClsFilterModel ClsFilterSpec ClsFilterProofs ClsFilterCounts ClsFilterMain
  ClsReportModel ClsReportSpec ClsReportProofs ClsReportMore ClsThrSpec.
From Coq Require Import String QArith Sorted.
Local Notation length := List.length (only parsing).
Local Notation concat := List.concat (only parsing).
Local Open Scope nat_scope.
Local Open Scope list_scope.

Lemma countb_below {A} (f g : A -> bool) l : (forall x, In x l -> f x = true -> g x = true) -> countb f l <= countb g l.
Proof.
  intros H. unfold countb. induction l as [|a l IH]; [apply le_n|]. cbn. assert (X := IH (fun x Hx => H x (or_intror Hx))).
  destruct (f a) eqn:E; [rewrite (H a (or_introl eq_refl) E)|destruct (g a)]; cbn; lia.
Qed.
Lemma countb_split {A} (f g h : A -> bool) l : (forall x, In x l -> h x = f x || g x) -> (forall x, In x l -> f x && g x = false) ->
  countb f l + countb g l = countb h l.
Proof.
  intros H D. unfold countb. induction l as [|a l IH]; [reflexivity|]. cbn.
  assert (X := IH (fun x Hx => H x (or_intror Hx)) (fun x Hx => D x (or_intror Hx))).
  rewrite (H a (or_introl eq_refl)). assert (Y := D a (or_introl eq_refl)). destruct (f a), (g a); cbn in *; try discriminate; lia.
Qed.

(* [narrower hm pass hm' pass']: what is predicted with [hm'] and [pass'] is predicted with [hm] and [pass] *)
Definition narrower (hm : bool) (pass : Z -> bool) (hm' : bool) (pass' : Z -> bool) : Prop :=
  forall c l, In l (positives hm' pass' c) -> In l (positives hm pass c).

Lemma narrower_pass hm (pass pass' : Z -> bool) : (forall s, pass' s = true -> pass s = true) -> narrower hm pass hm pass'.
Proof.
  intros H c l. destruct hm; cbn [positives].
  - unfold positives. destruct (top c) as [[x s]|]; [|auto]. destruct (pass' s) eqn:E; [rewrite (H s E); auto|intros []].
  - unfold positives. rewrite !in_map_iff. intros (p & <- & Hp). apply filter_In in Hp. destruct Hp as [Hp Hs].
    exists p. split; [reflexivity|]. apply filter_In. split; [exact Hp|apply H; exact Hs].
Qed.
Lemma narrower_hardmax pass : narrower false pass true pass.
Proof.
  intros c l. unfold positives. destruct (top c) as [[x s]|] eqn:E; [|intros []].
  destruct (pass s) eqn:Ep; [|intros []]. intros [<-|[]]. apply top_In in E.
  apply in_map_iff. exists (x, s). split; [reflexivity|]. apply filter_In. auto.
Qed.

Lemma pass_counts_mono tol t t' s : (t <= t')%Z -> pass_counts tol t' s = true -> pass_counts tol t s = true.
Proof.
  unfold pass_counts. rewrite !andb_true_iff, !Z.leb_le. intros H [H1 H2]. split; [lia|exact H2].
Qed.
Lemma pass_cm_mono tol9 ts ts' t' s : In t' ts' -> (forall t, In t ts -> (t <= t')%Z) -> pass_cm tol9 ts' s = true -> pass_cm tol9 ts s = true.
Proof.
  unfold pass_cm. rewrite !andb_true_iff, !forallb_forall. intros Hi H [H1 H2]. split; [exact H1|].
  intros x Hx. apply Z.leb_le. specialize (H2 t' Hi). apply Z.leb_le in H2. specialize (H x Hx). lia.
Qed.

Section Narrow.
  Variables (u : cview) (hm hm' : bool) (pass pass' : Z -> bool).
  Hypothesis N : narrower hm pass hm' pass'.
  Variable cs : list classification.
  Hypothesis Ha : Forall accepted cs.

  Lemma smem_narrow c l : smem l (vpositives u hm' pass' c) = true -> smem l (vpositives u hm pass c) = true.
  Proof.
    rewrite !smem_In. unfold vpositives. rewrite !filter_In. intros [H1 H2]. split; [apply N; exact H1|exact H2].
  Qed.
  Lemma smem_viewed h p c l : In c cs -> smem l (vpositives u h p c) = true -> smem l (c_predictions (viewed u c)) = true.
  Proof.
    intros Hc. rewrite !smem_In. rewrite viewed_predictions by (rewrite Forall_forall in Ha; auto).
    unfold vpositives. rewrite !filter_In. intros [H1 H2]. split; [apply positives_sub in H1; exact H1|exact H2].
  Qed.
  Lemma negatives_sum h p l : countb (v_fp u h p l) cs + countb (v_tn u h p l) cs
    = countb (fun c => negb (String.eqb (c_groundtruth c) l) && smem l (c_predictions (viewed u c))) cs.
  Proof.
    apply countb_split; intros c Hc; unfold v_fp, v_tn.
    - destruct (String.eqb (c_groundtruth c) l); [reflexivity|]. cbn [negb andb].
      destruct (smem l (vpositives u h p c)) eqn:E; cbn [negb andb orb]; [|rewrite andb_true_r; reflexivity].
      rewrite (smem_viewed h p c l Hc E). reflexivity.
    - destruct (String.eqb (c_groundtruth c) l); [reflexivity|]. cbn [negb andb].
      destruct (smem l (vpositives u h p c)); [rewrite andb_false_r; reflexivity|reflexivity].
  Qed.
  Lemma narrow_counts l : fewer_positives (data_counts u hm pass cs l) (data_counts u hm' pass' cs l).
  Proof.
    assert (F : countb (v_fp u hm' pass' l) cs <= countb (v_fp u hm pass l) cs).
    { apply countb_below. intros c _. unfold v_fp. rewrite !andb_true_iff. intros [H1 H2]. split; [exact H1|apply smem_narrow; exact H2]. }
    assert (S1 := negatives_sum hm pass l). assert (S2 := negatives_sum hm' pass' l).
    unfold fewer_positives, data_counts. cbn [n_tp n_fp n_fn n_tn]. repeat split; [|lia|lia|lia].
    apply countb_below. intros c _. unfold v_tp. rewrite !andb_true_iff. intros [H1 H2]. split; [exact H1|apply smem_narrow; exact H2].
  Qed.
  Lemma narrow_cell g p : data_cell u hm' pass' cs g p <= data_cell u hm pass cs g p.
  Proof.
    apply countb_below. intros c _. rewrite !andb_true_iff. intros [H1 H2]. split; [exact H1|apply smem_narrow; exact H2].
  Qed.
  Lemma narrow_missed g : data_missed u hm pass cs g <= data_missed u hm' pass' cs g.
  Proof.
    apply countb_below. intros c _. rewrite !andb_true_iff. intros (H1 & H2 & H3). split; [exact H1|]. split; [exact H2|].
    destruct (vpositives u hm' pass' c) as [|x r] eqn:E; [reflexivity|]. exfalso.
    assert (X : smem x (vpositives u hm pass c) = true).
    { apply smem_narrow. rewrite E. cbn. rewrite String.eqb_refl. reflexivity. }
    destruct (vpositives u hm pass c); [discriminate X|discriminate H3].
  Qed.
  Lemma narrow_accuracy w : (data_accuracy w u hm' pass' cs <= data_accuracy w u hm pass cs)%Q.
  Proof.
    unfold data_accuracy, Qdiv. apply Qmult_le_compat_r.
    - rewrite <- Zle_Qle. apply inj_le. apply countb_below. intros c _. apply smem_narrow.
    - apply Qinv_le_0_compat. change 0%Q with (inject_Z 0). rewrite <- Zle_Qle. lia.
  Qed.
End Narrow.

Section Truths.
  Variable u : cview.
  Variable cs : list classification.
  Hypothesis Ha : Forall accepted cs.
  Hypothesis Ht : truths_seen u cs.

  Lemma invisible_positives h p c : visible u c = false -> vpositives u h p c = [].
  Proof.
    intros H. unfold vpositives. destruct (filter (u c) (positives h p c)) as [|x r] eqn:E; [reflexivity|]. exfalso.
    assert (X : In x (filter (u c) (positives h p c))) by (rewrite E; left; reflexivity).
    apply filter_In in X. destruct X as [X1 X2]. apply positives_sub in X1.
    unfold visible in H. rewrite (proj2 (existsb_exists _ _) (ex_intro _ x (conj X1 X2))) in H. discriminate.
  Qed.
  Lemma invisible_viewed c l : In c cs -> visible u c = false -> smem l (c_predictions (viewed u c)) = false.
  Proof.
    intros Hc H. destruct (smem l (c_predictions (viewed u c))) eqn:E; [|reflexivity]. exfalso.
    apply smem_In in E. rewrite viewed_predictions in E by (rewrite Forall_forall in Ha; auto). apply filter_In in E. destruct E as [X1 X2].
    unfold visible in H. rewrite (proj2 (existsb_exists _ _) (ex_intro _ l (conj X1 X2))) in H. discriminate.
  Qed.
  Lemma hardmax_one p c : vpositives u true p c = [] \/ exists x, vpositives u true p c = [x].
  Proof.
    unfold vpositives, positives. destruct (top c) as [[x s]|]; [|auto]. destruct (p s); [|auto]. cbn.
    destruct (u c x); [right; eauto|auto].
  Qed.
  Lemma truths_sum p l : countb (v_tp u true p l) cs + countb (v_fn u true p l) cs
    = countb (fun c => visible u c && String.eqb (c_groundtruth c) l) cs.
  Proof.
    apply countb_split; intros c Hc; unfold v_tp, v_fn.
    - destruct (String.eqb_spec (c_groundtruth c) l) as [E|E]; [|rewrite andb_false_r; reflexivity]. cbn [andb]. rewrite andb_true_r.
      destruct (visible u c) eqn:V.
      + destruct (Ht c Hc V) as [X1 X2].
        assert (S : smem l (c_predictions (viewed u c)) = true).
        { apply smem_In. rewrite viewed_predictions by (rewrite Forall_forall in Ha; auto). apply filter_In. subst l. auto. }
        rewrite S. destruct (smem l (vpositives u true p c)); reflexivity.
      + rewrite (invisible_positives true p c V), (invisible_viewed c l Hc V). reflexivity.
    - destruct (String.eqb (c_groundtruth c) l); [|reflexivity]. cbn [andb].
      destruct (hardmax_one p c) as [->|[x ->]]; [reflexivity|].
      cbn [smem existsb]. destruct (String.eqb_spec l x) as [->|Hx].
      + rewrite String.eqb_refl. cbn. rewrite andb_false_r. reflexivity.
      + reflexivity.
  Qed.
  Lemma truths_fn pass pass' l : (forall s, pass' s = true -> pass s = true) ->
    n_fn (data_counts u true pass cs l) <= n_fn (data_counts u true pass' cs l) /\
    n_tp (data_counts u true pass' cs l) + n_fn (data_counts u true pass' cs l)
      = n_tp (data_counts u true pass cs l) + n_fn (data_counts u true pass cs l).
  Proof.
    intros H. destruct (narrow_counts u true true pass pass' (narrower_pass true pass pass' H) cs Ha l) as (X & _).
    assert (S1 := truths_sum pass l). assert (S2 := truths_sum pass' l). unfold data_counts in *. cbn [n_tp n_fn] in *. lia.
  Qed.
End Truths.

Lemma recall_le a b : n_tp b <= n_tp a -> n_tp b + n_fn b = n_tp a + n_fn a -> (recall b <= recall a)%Q.
Proof.
  intros H S. unfold recall. rewrite S. unfold qdiv_or_0. destruct (n_tp a + n_fn a) as [|n]; [apply Qle_refl|].
  cbn. apply Qmult_le_compat_r.
  - rewrite <- Zle_Qle. lia.
  - apply Qinv_le_0_compat. change 0%Q with (inject_Z 0). rewrite <- Zle_Qle. lia.
Qed.

Lemma In_table {V} (f : string -> Z -> V) ls thrs l t o : In (l, t, o) (table_of ls thrs f) -> In l ls /\ In t thrs /\ o = Some (f l t).
Proof.
  unfold table_of. rewrite in_concat. intros (r & Hr & Hi). apply in_map_iff in Hr. destruct Hr as (x & <- & Hx).
  apply in_map_iff in Hi. destruct Hi as (y & E & Hy). injection E as -> -> <-. auto.
Qed.

Section Reports.
  Variable cs : list classification.
  Hypothesis Hd : Forall distinct_candidates cs.
  Variables (w : cview) (e : ceval).
  Hypothesis He : cls_evaluator cs w e.
  Let Ha : Forall accepted cs := ev_acc cs w e He.
  Variables (datums : crow -> bool) (sel : cview).
  Hypothesis Hs : expresses cs datums sel.

  Lemma thr_counts : few_labels cs -> forall tol hm thrs thrs' m m' l t t',
    report_metrics e tol hm thrs datums = Some m -> report_metrics e tol hm thrs' datums = Some m' ->
    In t thrs -> In t' thrs' -> (t <= t')%Z ->
    fewer_positives (counts_at (mt_counts m) l t) (counts_at (mt_counts m') l t').
  Proof.
    intros Hf tol hm thrs thrs' m m' l t t' Hm Hm' Hi Hi' Hle.
    rewrite (read_counts cs Hd w e He tol hm thrs datums sel m l t Hf Hs Hm Hi), (read_counts cs Hd w e He tol hm thrs' datums sel m' l t' Hf Hs Hm' Hi').
    apply narrow_counts; [|exact Ha]. apply narrower_pass. intros s. apply pass_counts_mono. exact Hle.
  Qed.
  Lemma thr_accuracy : few_labels cs -> forall tol hm thrs thrs' m m' t t' a a',
    report_metrics e tol hm thrs datums = Some m -> report_metrics e tol hm thrs' datums = Some m' ->
    In (t, a) (mt_accuracy m) -> In (t', a') (mt_accuracy m') -> (t <= t')%Z -> (a' <= a)%Q.
  Proof.
    intros Hf tol hm thrs thrs' m m' t t' a a' Hm Hm' Hi Hi' Hle.
    apply In_nth_error in Hi, Hi'. destruct Hi as [k Hi], Hi' as [k' Hi'].
    destruct (read_accuracy cs Hd w e He tol hm thrs datums sel m k t a Hf Hs Hm Hi) as [_ ->].
    destruct (read_accuracy cs Hd w e He tol hm thrs' datums sel m' k' t' a' Hf Hs Hm' Hi') as [_ ->].
    apply narrow_accuracy. apply narrower_pass. intros s. apply pass_counts_mono. exact Hle.
  Qed.
  Lemma hardmax_counts : few_labels cs -> forall tol thrs thrs' m m' l t,
    report_metrics e tol false thrs datums = Some m -> report_metrics e tol true thrs' datums = Some m' ->
    In t thrs -> In t thrs' -> fewer_positives (counts_at (mt_counts m) l t) (counts_at (mt_counts m') l t).
  Proof.
    intros Hf tol thrs thrs' m m' l t Hm Hm' Hi Hi'.
    rewrite (read_counts cs Hd w e He tol false thrs datums sel m l t Hf Hs Hm Hi), (read_counts cs Hd w e He tol true thrs' datums sel m' l t Hf Hs Hm' Hi').
    apply narrow_counts; [apply narrower_hardmax|exact Ha].
  Qed.
  Lemma hardmax_accuracy : few_labels cs -> forall tol thrs thrs' m m' t a a',
    report_metrics e tol false thrs datums = Some m -> report_metrics e tol true thrs' datums = Some m' ->
    In (t, a) (mt_accuracy m) -> In (t, a') (mt_accuracy m') -> (a' <= a)%Q.
  Proof.
    intros Hf tol thrs thrs' m m' t a a' Hm Hm' Hi Hi'.
    apply In_nth_error in Hi, Hi'. destruct Hi as [k Hi], Hi' as [k' Hi'].
    destruct (read_accuracy cs Hd w e He tol false thrs datums sel m k t a Hf Hs Hm Hi) as [_ ->].
    destruct (read_accuracy cs Hd w e He tol true thrs' datums sel m' k' t a' Hf Hs Hm' Hi') as [_ ->].
    apply narrow_accuracy. apply narrower_hardmax.
  Qed.
  Lemma thr_false_negatives : few_labels cs -> truths_seen (cselect w sel) cs -> forall tol thrs thrs' m m' l t t',
    report_metrics e tol true thrs datums = Some m -> report_metrics e tol true thrs' datums = Some m' ->
    In t thrs -> In t' thrs' -> (t <= t')%Z ->
    let c := counts_at (mt_counts m) l t in let c' := counts_at (mt_counts m') l t' in
    n_fn c <= n_fn c' /\ n_tp c' + n_fn c' = n_tp c + n_fn c.
  Proof.
    intros Hf Ht tol thrs thrs' m m' l t t' Hm Hm' Hi Hi' Hle. cbn zeta.
    rewrite (read_counts cs Hd w e He tol true thrs datums sel m l t Hf Hs Hm Hi), (read_counts cs Hd w e He tol true thrs' datums sel m' l t' Hf Hs Hm' Hi').
    apply truths_fn; [exact Ha|exact Ht|]. intros s. apply pass_counts_mono. exact Hle.
  Qed.
  Lemma thr_recall : few_labels cs -> truths_seen (cselect w sel) cs -> forall tol thrs thrs' m m' l t t' r r',
    report_metrics e tol true thrs datums = Some m -> report_metrics e tol true thrs' datums = Some m' ->
    In (l, t, Some r) (mt_recall m) -> In (l, t', Some r') (mt_recall m') -> (t <= t')%Z -> (r' <= r)%Q.
  Proof.
    intros Hf Ht tol thrs thrs' m m' l t t' r r' Hm Hm' Hi Hi' Hle.
    assert (Hne : thrs <> []) by (intros ->; cbn in Hm; discriminate).
    assert (Hne' : thrs' <> []) by (intros ->; cbn in Hm'; discriminate).
    destruct (metrics_report cs Hd w e He Hf tol true thrs datums sel Hs Hne) as (ls & _ & _ & E). cbn zeta in E.
    destruct (metrics_report cs Hd w e He Hf tol true thrs' datums sel Hs Hne') as (ls' & _ & _ & E'). cbn zeta in E'.
    rewrite Hm in E. rewrite Hm' in E'. injection E as ->. injection E' as ->. cbn [mt_recall] in Hi, Hi'.
    apply In_table in Hi, Hi'. destruct Hi as (_ & _ & Hi), Hi' as (_ & _ & Hi'). injection Hi as ->. injection Hi' as ->.
    assert (Hp : forall s, pass_counts tol t' s = true -> pass_counts tol t s = true) by (intros s; apply pass_counts_mono; exact Hle).
    apply recall_le.
    - apply (narrow_counts (cselect w sel) true true _ _ (narrower_pass true _ _ Hp) cs Ha l).
    - apply (truths_fn (cselect w sel) cs Ha Ht _ _ l Hp).
  Qed.
  Lemma thr_confusion : forall tol9 hm thrs thrs' o o' k k' t t' C U C' U',
    report_confusion e tol9 hm thrs datums = Some o -> report_confusion e tol9 hm thrs' datums = Some o' ->
    nth_error o k = Some (t, (C, U)) -> nth_error o' k' = Some (t', (C', U')) -> (forall x, In x (firstn (S k) thrs) -> (x <= t')%Z) ->
    (forall g p, or0 (cell C' g p) <= or0 (cell C g p)) /\ (forall g, or0 (sget U g) <= or0 (sget U' g)).
  Proof.
    intros tol9 hm thrs thrs' o o' k k' t t' C U C' U' Ho Ho' Hk Hk' Hle.
    destruct (read_confusion cs Hd w e He tol9 hm thrs datums sel o k t C U Hs Ho Hk) as (_ & R1 & R2).
    destruct (read_confusion cs Hd w e He tol9 hm thrs' datums sel o' k' t' C' U' Hs Ho' Hk') as (Ht' & R1' & R2').
    assert (N : narrower hm (pass_cm tol9 (firstn (S k) thrs)) hm (pass_cm tol9 (firstn (S k') thrs'))).
    { apply narrower_pass. intros s. apply (pass_cm_mono tol9 _ _ t'); [|exact Hle].
      apply nth_error_split in Ht'. destruct Ht' as (a & b & -> & <-).
      replace (S (length a)) with (length a + 1) by lia. rewrite firstn_app_2. apply in_or_app. right. left. reflexivity. }
    split; intros.
    - rewrite R1, R1'. apply narrow_cell. exact N.
    - rewrite R2, R2'. apply narrow_missed. exact N.
  Qed.
End Reports.

Lemma sorted_firstn_le thrs : StronglySorted Z.le thrs -> forall k t, nth_error thrs k = Some t -> forall x, In x (firstn (S k) thrs) -> (x <= t)%Z.
Proof.
  induction 1 as [|a l Hl IH Ha]; intros [|k] t Hk x Hx; try discriminate.
  - cbn in *. injection Hk as ->. destruct Hx as [->|[]]. lia.
  - cbn [nth_error] in Hk. change (firstn (S (S k)) (a :: l)) with (a :: firstn (S k) l) in Hx. destruct Hx as [->|Hx]; [|eapply IH; eauto].
    rewrite Forall_forall in Ha. apply Ha. eapply nth_error_In. exact Hk.
Qed.

Lemma sorted_confusion cs : Forall distinct_candidates cs -> forall w e, cls_evaluator cs w e -> forall datums sel, expresses cs datums sel ->
  forall tol9 hm thrs thrs' o o' k k' t t' C U C' U',
    report_confusion e tol9 hm thrs datums = Some o -> report_confusion e tol9 hm thrs' datums = Some o' ->
    nth_error o k = Some (t, (C, U)) -> nth_error o' k' = Some (t', (C', U')) -> StronglySorted Z.le thrs -> (t <= t')%Z ->
    (forall g p, or0 (cell C' g p) <= or0 (cell C g p)) /\ (forall g, or0 (sget U g) <= or0 (sget U' g)).
Proof.
  intros Hd w e He datums sel Hs tol9 hm thrs thrs' o o' k k' t t' C U C' U' Ho Ho' Hk Hk' Hsort Hle.
  apply (thr_confusion cs Hd w e He datums sel Hs tol9 hm thrs thrs' o o' k k' t t' C U C' U' Ho Ho' Hk Hk').
  destruct (read_confusion cs Hd w e He tol9 hm thrs datums sel o k t C U Hs Ho Hk) as (Ht & _).
  intros x Hx. apply (sorted_firstn_le thrs Hsort k t Ht) in Hx. lia.
Qed.
