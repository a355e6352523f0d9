(* The examples reported for detections are the pairs, ground truths and predictions
   counted in the confusion matrix. *)
From Verif Require Import Prelude Counting CacheModel CacheSpec CacheProofs SortProofs FlowModel FlowProofs Pipeline ClsModel ClsLabelProofs ClsMore DetModel DetExModel DetSpec
  DetMatchProofs DetRankProofs DetCountProofs DetLoaderProofs DetStoreProofs DetLocalProofs DetMain DetOrderProofs DetConfProofs DetMatchingProofs.
From Coq Require Import Lia.
From Coq Require String.
Local Open Scope nat_scope.
Local Open Scope list_scope.

(* counts: any tables *)
Lemma cell_examples_count eps t s rows g p :
  length (det_cell_examples eps t s rows g p) = dm (det_confusion eps t s rows) g p.
Proof.
  unfold det_cell_examples, unique_pairs, det_confusion. cbn [dm]. rewrite map_length.
  apply (isort_countb z5_leb (fun k => (snd (fst k) =? g)%Z && (snd k =? p)%Z)).
Qed.
Lemma alone_gt_examples_count eps t s rows g :
  length (det_alone_gt_examples eps t s rows g) = dm_gt (det_confusion eps t s rows) g.
Proof.
  unfold det_alone_gt_examples, unique_alone_gts, det_confusion. cbn [dm_gt]. rewrite map_length.
  apply (isort_countb zzz_leb (fun k => (snd k =? g)%Z)).
Qed.
Lemma alone_pd_examples_count eps t s rows p :
  length (det_alone_pd_examples eps t s rows p) = dm_pd (det_confusion eps t s rows) p.
Proof.
  unfold det_alone_pd_examples, unique_alone_pds, det_confusion. cbn [dm_pd]. rewrite map_length.
  apply (isort_countb zzz_leb (fun k => (snd k =? p)%Z)).
Qed.

Lemma det_examples_count eps t s datums tables g p :
  length (det_eval_cell eps t s datums tables g p) = dm (eval_confusion eps t s datums tables) g p /\
  length (det_eval_alone_gts eps t s datums tables g) = dm_gt (eval_confusion eps t s datums tables) g /\
  length (det_eval_alone_pds eps t s datums tables p) = dm_pd (eval_confusion eps t s datums tables) p.
Proof.
  destruct (eval_confusion_sums eps t s datums tables g p) as (-> & -> & ->).
  unfold det_eval_cell, det_eval_alone_gts, det_eval_alone_pds. rewrite !length_concat, !map_map.
  split; [|split]; apply list_sum_nat_ext; intros tb _; auto using cell_examples_count, alone_gt_examples_count, alone_pd_examples_count.
Qed.

Section Examples.
  Variables (eps unit : Z) (ds : list detection) (L : list String.string) (tables : list (list drow)).
  Hypothesis Hin : det_input unit ds.
  Hypothesis Hst : det_stored eps ds L tables.
  Hypothesis Hfew : few_annotations ds.
  Hypothesis Hdis : Forall distinct_pd_labels ds.
  Variables (sel : detection -> bool) (datums : drow -> bool).
  Hypothesis Hsel : selects_ids ds datums sel.
  Variables (t s : Z).

  Notation tb' := (filter datums).
  Notation rows_iff := (stored_rows eps unit ds L tables Hin Hst).
  Notation M := (code_matching ds tables datums).
  Notation thr tb := (thresholded eps t s (filter datums tb)).
  Notation tok := (table_conf_ok eps unit ds L tables Hin Hst Hfew Hdis sel datums Hsel).

  Lemma row_described tb r : In tb tables -> In r (tb' tb) -> described eps ds L r /\ datums r = true /\ In r tb /\ In r (concat tables).
  Proof.
    intros Htb Hr. apply filter_In in Hr. destruct Hr as [H1 H2]. assert (In r (concat tables)) by (apply in_concat; eauto).
    split; [apply rows_iff; assumption|auto].
  Qed.

  (* the uid columns determine the annotations *)
  Lemma find_some {A} (f : A -> bool) l x : In x l -> f x = true -> exists y, find f l = Some y /\ In y l /\ f y = true.
  Proof.
    intros Hx Fx. destruct (find f l) as [y|] eqn:E; [apply find_some in E; eauto|].
    rewrite (find_none f l E x Hx) in Fx. discriminate.
  Qed.
  Lemma datum_uid_row tb r i d : In tb tables -> In r (tb' tb) -> d_datum r = Z.of_nat i -> nth_error ds i = Some d ->
    det_datum_uid (tb' tb) (Z.of_nat i) = Some (t_uid d).
  Proof.
    intros Htb Hr Ed Hi. unfold det_datum_uid. destruct (Z.leb_spec 0 (Z.of_nat i)); [|lia].
    destruct (find_some (fun x => (d_datum x =? Z.of_nat i)%Z) (tb' tb) r Hr) as (y & -> & Hy & Ey); [apply Z.eqb_eq; exact Ed|].
    cbn. f_equal. apply Z.eqb_eq in Ey. destruct (row_described tb y Htb Hy) as (D & _).
    destruct D as [i' d' g ga gl rest gi A1|i' d' p pa k pl sc pi A1|i' d' g ga j gl gi p pa k pl sc pi A1]; cbn in *; assert (i' = i) by lia; congruence.
  Qed.
  Lemma gt_uid_row tb r i d g ga : In tb tables -> In r (tb' tb) -> d_gt r = gt_id ds i g -> nth_error ds i = Some d ->
    nth_error (t_gts d) g = Some ga -> det_gt_uid (tb' tb) (gt_id ds i g) = Some (Some (a_uid ga)).
  Proof.
    intros Htb Hr Ed Hi Hg. unfold det_gt_uid. assert (N := gt_id_nonneg ds i g). destruct (Z.leb_spec 0 (gt_id ds i g)); [|lia].
    destruct (find_some (fun x => (d_gt x =? gt_id ds i g)%Z) (tb' tb) r Hr) as (y & -> & Hy & Ey); [apply Z.eqb_eq; exact Ed|].
    cbn. f_equal. apply Z.eqb_eq in Ey. destruct (row_described tb y Htb Hy) as (D & _).
    destruct (described_gt _ _ _ _ D) as (i' & d' & g' & ga' & j & gl & gi & A1 & A2 & _ & _ & _ & A6 & _ & _ & A9); [lia|].
    rewrite Ey in A6. destruct (gt_id_inj ds i i' d d' g g' ga ga' Hi A1 Hg A2 A6) as [<- <-]. assert (d' = d) by congruence. subst d'. congruence.
  Qed.
  Lemma pd_uid_row tb r i d p pa : In tb tables -> In r (tb' tb) -> d_pd r = pd_id ds i p -> nth_error ds i = Some d ->
    nth_error (t_pds d) p = Some pa -> det_pd_uid (tb' tb) (pd_id ds i p) = Some (Some (a_uid pa)).
  Proof.
    intros Htb Hr Ed Hi Hp. unfold det_pd_uid. assert (N := pd_id_nonneg ds i p). destruct (Z.leb_spec 0 (pd_id ds i p)); [|lia].
    destruct (find_some (fun x => (d_pd x =? pd_id ds i p)%Z) (tb' tb) r Hr) as (y & -> & Hy & Ey); [apply Z.eqb_eq; exact Ed|].
    cbn. f_equal. apply Z.eqb_eq in Ey. destruct (row_described tb y Htb Hy) as (D & _).
    destruct (described_pd _ _ _ _ D) as (i' & d' & p' & pa' & k & pl & sc & pi & A1 & A2 & _ & _ & _ & _ & A6 & _ & _ & _ & A9); [lia|].
    rewrite Ey in A6. destruct (pd_id_inj ds i i' d d' p p' pa pa' Hi A1 Hp A2 A6) as [<- <-]. assert (d' = d) by congruence. subst d'. congruence.
  Qed.

  (* unmatched rows *)
  Lemma alone_gt_row tb r i d g ga : In tb tables -> In r (tb' tb) -> d_gt r = gt_id ds i g -> nth_error ds i = Some d -> sel d = true ->
    nth_error (t_gts d) g = Some ga ->
    dp_unmatched_gt eps t s (tb' tb) r = negb (gt_covered eps t s d (M i) g).
  Proof.
    intros Htb Hr Eg Hi Hs Hg. unfold dp_unmatched_gt, gt_exists.
    assert (0 <=? d_gt r = true)%Z as -> by (apply Z.leb_le; rewrite Eg; apply gt_id_nonneg). rewrite andb_true_r. f_equal.
    assert (Hrc := Hr). apply row_described in Hrc; [|exact Htb]. destruct Hrc as (_ & _ & Hrt & Hrc).
    apply eq_true_iff_eq. rewrite (isin_gt eps t s _ (tok tb Htb) r Hr).
    rewrite (gt_covered_iff eps unit ds L tables Hin Hst Hfew Hdis sel datums Hsel t s i d g ga Hi Hs Hg). split.
    - intros (x & X1 & X2 & X3 & X4). exists tb, x. split; [exact Htb|]. split; [exact X1|]. split; [exact X2|congruence].
    - intros (tb1 & x & B1 & B2 & B3 & B4). assert (Hx := B2). apply row_described in Hx; [|exact B1]. destruct Hx as (_ & _ & Hxt & Hxc).
      assert (Ed : d_datum x = d_datum r).
      { apply (stored_gts_in_one eps unit ds L tables Hin Hst x r Hxc Hrc); [rewrite B4; apply gt_id_nonneg|congruence]. }
      assert (tb1 = tb) by (apply (same_table eps ds L tables Hst tb1 tb x r); auto). subst tb1.
      exists x. split; [exact B2|]. split; [exact B3|]. split; congruence.
  Qed.
  Lemma alone_pd_row tb r i d p pa : In tb tables -> In r (tb' tb) -> d_pd r = pd_id ds i p -> nth_error ds i = Some d -> sel d = true ->
    nth_error (t_pds d) p = Some pa ->
    dp_unmatched_pd eps t s (tb' tb) r = (eps <? d_score r)%Z && (s <=? d_score r)%Z && negb (pd_covered eps t s d (M i) p).
  Proof.
    intros Htb Hr Ep Hi Hs Hp. unfold dp_unmatched_pd, pd_exists, m_sc.
    assert (0 <=? d_pd r = true)%Z as -> by (apply Z.leb_le; rewrite Ep; apply pd_id_nonneg). rewrite andb_true_r, andb_comm. f_equal. f_equal.
    assert (Hrc := Hr). apply row_described in Hrc; [|exact Htb]. destruct Hrc as (_ & _ & Hrt & Hrc).
    apply eq_true_iff_eq. rewrite (isin_pd eps t s _ (tok tb Htb) r Hr).
    rewrite (pd_covered_iff eps unit ds L tables Hin Hst Hfew Hdis sel datums Hsel t s i d p pa Hi Hs Hp). split.
    - intros (x & X1 & X2 & X3 & X4). exists tb, x. split; [exact Htb|]. split; [exact X1|]. split; [exact X2|congruence].
    - intros (tb1 & x & B1 & B2 & B3 & B4). assert (Hx := B2). apply row_described in Hx; [|exact B1]. destruct Hx as (_ & _ & Hxt & Hxc).
      assert (Ed : d_datum x = d_datum r).
      { apply (stored_pds_in_one eps unit ds L tables Hin Hst x r Hxc Hrc); [rewrite B4; apply pd_id_nonneg|congruence]. }
      assert (tb1 = tb) by (apply (same_table eps ds L tables Hst tb1 tb x r); auto). subst tb1.
      exists x. split; [exact B2|]. split; [exact B3|]. split; congruence.
  Qed.

  (* cells of the matrix *)
  Theorem cell_examples_spec gl gi pl pi e : index_of gl L = Some gi -> index_of pl L = Some pi ->
    In e (det_eval_cell eps t s datums tables (Z.of_nat gi) (Z.of_nat pi)) <->
    exists i d g ga p pa k sc, nth_error ds i = Some d /\ sel d = true /\
      nth_error (t_gts d) g = Some ga /\ has_label gl ga = true /\
      nth_error (t_pds d) p = Some pa /\ nth_error (a_labels pa) k = Some pl /\ nth_error (a_scores pa) k = Some sc /\
      M i p g = true /\ reaches eps t s d p g sc = true /\
      e = (Some (t_uid d), Some (Some (a_uid ga)), Some (Some (a_uid pa))).
  Proof.
    intros Hgi Hpi. unfold det_eval_cell. rewrite in_concat. split.
    - intros (l & Hl & He). apply in_map_iff in Hl. destruct Hl as (tb & <- & Htb). unfold det_cell_examples, unique_pairs in He.
      apply in_map_iff in He. destruct He as (kk & <- & Hk). apply filter_In in Hk. destruct Hk as [Hk Hl].
      rewrite isort_In_iff, dkeys_In in Hk. destruct Hk as (r & Hr & Ht & <-). rewrite matched_thr in Ht.
      destruct (thr_about eps unit ds L tables Hin Hst Hfew Hdis sel datums Hsel t s tb r Htb Hr Ht)
        as (i & d & g & ga & gl' & gi' & p & pa & k & pl' & pi' & sc & A1 & A2 & A3 & A4 & A5 & A6 & A7 & A8 & A9 & A10).
      assert (A10' := A10). destruct A10' as (_ & _ & B1 & B2 & B3 & B4 & B5 & B6).
      unfold row_ids in *. cbn [fst snd] in Hl. rewrite B4, B5, andb_true_iff, !Z.eqb_eq in Hl. destruct Hl as [E1 E2].
      assert (gi' = gi) by lia. assert (pi' = pi) by lia. subst gi' pi'.
      assert (gl' = gl) by (eapply index_of_inj; eassumption). assert (pl' = pl) by (eapply index_of_inj; eassumption). subst gl' pl'.
      exists i, d, g, ga, p, pa, k, sc. split; [exact A1|]. split; [exact A2|]. split; [exact A3|].
      split; [apply has_label_iff; rewrite A4; left; reflexivity|]. split; [exact A5|]. split; [exact A6|]. split; [exact A7|].
      assert (X : M i p g && reaches eps t s d p g sc = true).
      { apply (thr_matching eps unit ds L tables Hin Hst Hfew Hdis sel datums Hsel t s i d p pa g ga gl gi k pl pi sc); auto. eauto. }
      apply andb_true_iff in X. destruct X as [X1 X2]. split; [exact X1|]. split; [exact X2|].
      rewrite B1, B2, B3, (datum_uid_row tb r i d), (gt_uid_row tb r i d g ga), (pd_uid_row tb r i d p pa) by auto. reflexivity.
    - intros (i & d & g & ga & p & pa & k & sc & A1 & A2 & A3 & A4 & A5 & A6 & A7 & A8 & A9 & ->).
      destruct (single_gt_label unit ds Hin d ga (nth_error_In _ _ A1) (nth_error_In _ _ A3)) as (gl0 & Hgl).
      apply has_label_iff in A4. rewrite Hgl in A4. destruct A4 as [->|[]].
      destruct (proj1 (thr_matching eps unit ds L tables Hin Hst Hfew Hdis sel datums Hsel t s i d p pa g ga gl gi k pl pi sc A1 A2 A3 Hgl A5 A6 A7 Hgi Hpi)) as (tb & r & A & T).
      { rewrite A8, A9. reflexivity. }
      destruct A as (Htb & Hr & B1 & B2 & B3 & B4 & B5 & B6).
      eexists. split; [apply in_map_iff; exists tb; split; [reflexivity|exact Htb]|].
      unfold det_cell_examples, unique_pairs. apply in_map_iff. exists (row_ids r). unfold row_ids. split.
      + rewrite B1, B2, B3, (datum_uid_row tb r i d), (gt_uid_row tb r i d g ga), (pd_uid_row tb r i d p pa) by auto. reflexivity.
      + apply filter_In. split.
        * rewrite isort_In_iff, dkeys_In. exists r. rewrite matched_thr. auto.
        * cbn [fst snd]. rewrite B4, B5, !Z.eqb_refl. reflexivity.
  Qed.

  Theorem alone_gt_examples_spec gl gi e : index_of gl L = Some gi ->
    In e (det_eval_alone_gts eps t s datums tables (Z.of_nat gi)) <->
    exists i d g ga, nth_error ds i = Some d /\ sel d = true /\ nth_error (t_gts d) g = Some ga /\ has_label gl ga = true /\
      gt_covered eps t s d (M i) g = false /\ e = (Some (t_uid d), Some (Some (a_uid ga))).
  Proof.
    intros Hgi. unfold det_eval_alone_gts. rewrite in_concat. split.
    - intros (l & Hl & He). apply in_map_iff in Hl. destruct Hl as (tb & <- & Htb). unfold det_alone_gt_examples, unique_alone_gts in He.
      apply in_map_iff in He. destruct He as (kk & <- & Hk). apply filter_In in Hk. destruct Hk as [Hk Hl].
      rewrite isort_In_iff, dkeys_In in Hk. destruct Hk as (r & Hr & Ht & <-). unfold gt_key in *. cbn [fst snd] in *.
      apply Z.eqb_eq in Hl. assert (Ht' := Ht). unfold dp_unmatched_gt, gt_exists in Ht'. rewrite andb_true_iff, Z.leb_le in Ht'. destruct Ht' as [_ V].
      destruct (row_described tb r Htb Hr) as (D & Dr & _ & _).
      destruct (described_gt _ _ _ _ D V) as (i & d & g & ga & j & gl' & gi' & A1 & A2 & A3 & A4 & A5 & A6 & A7 & _).
      assert (gi' = gi) by lia. subst gi'. assert (gl' = gl) by (eapply index_of_inj; eassumption). subst gl'.
      assert (Hs : sel d = true) by (rewrite <- Dr; symmetry; apply (Hsel r i d); assumption).
      exists i, d, g, ga. split; [exact A1|]. split; [exact Hs|]. split; [exact A2|]. split; [apply has_label_iff; eapply nth_error_In; eauto|].
      split; [|rewrite A5, A6, (datum_uid_row tb r i d), (gt_uid_row tb r i d g ga) by auto; reflexivity].
      rewrite (alone_gt_row tb r i d g ga Htb Hr A6 A1 Hs A2) in Ht. apply negb_true_iff. exact Ht.
    - intros (i & d & g & ga & A1 & A2 & A3 & A4 & A5 & ->).
      destruct (single_gt_label unit ds Hin d ga (nth_error_In _ _ A1) (nth_error_In _ _ A3)) as (gl0 & Hgl).
      apply has_label_iff in A4. rewrite Hgl in A4. destruct A4 as [->|[]].
      destruct (gt_recorded eps unit ds L tables Hin Hst i d g ga gl A1 A3 Hgl) as (r & gi' & Hr & Hgi' & R1 & R2 & R3).
      assert (gi' = gi) by congruence. subst gi'. apply in_concat in Hr. destruct Hr as (tb & Htb & Hr).
      assert (Hrt : In r (tb' tb)) by (apply filter_In; split; [exact Hr|]; rewrite (Hsel r i d); assumption).
      eexists. split; [apply in_map_iff; exists tb; split; [reflexivity|exact Htb]|].
      unfold det_alone_gt_examples, unique_alone_gts. apply in_map_iff. exists (gt_key r). unfold gt_key. cbn [fst snd]. split.
      + rewrite R1, R2, (datum_uid_row tb r i d), (gt_uid_row tb r i d g ga) by auto. reflexivity.
      + apply filter_In. cbn [snd]. rewrite R3, Z.eqb_refl. split; [|reflexivity].
        rewrite isort_In_iff, dkeys_In. exists r. split; [exact Hrt|]. unfold gt_key.
        rewrite (alone_gt_row tb r i d g ga Htb Hrt R2 A1 A2 A3), A5. split; [reflexivity|congruence].
  Qed.

  Theorem alone_pd_examples_spec pl pi e : index_of pl L = Some pi ->
    In e (det_eval_alone_pds eps t s datums tables (Z.of_nat pi)) <->
    exists i d p pa k sc, nth_error ds i = Some d /\ sel d = true /\ nth_error (t_pds d) p = Some pa /\
      nth_error (a_labels pa) k = Some pl /\ nth_error (a_scores pa) k = Some sc /\
      (eps < sc)%Z /\ (s <= sc)%Z /\ pd_covered eps t s d (M i) p = false /\ e = (Some (t_uid d), Some (Some (a_uid pa))).
  Proof.
    intros Hpi. unfold det_eval_alone_pds. rewrite in_concat. split.
    - intros (l & Hl & He). apply in_map_iff in Hl. destruct Hl as (tb & <- & Htb). unfold det_alone_pd_examples, unique_alone_pds in He.
      apply in_map_iff in He. destruct He as (kk & <- & Hk). apply filter_In in Hk. destruct Hk as [Hk Hl].
      rewrite isort_In_iff, dkeys_In in Hk. destruct Hk as (r & Hr & Ht & <-). unfold pd_key in *. cbn [fst snd] in *.
      apply Z.eqb_eq in Hl. assert (Ht' := Ht). unfold dp_unmatched_pd, pd_exists in Ht'. rewrite !andb_true_iff, Z.leb_le in Ht'. destruct Ht' as [[_ V] _].
      destruct (row_described tb r Htb Hr) as (D & Dr & _ & _).
      destruct (described_pd _ _ _ _ D V) as (i & d & p & pa & k & pl' & sc & pi' & A1 & A2 & A3 & A4 & A5 & A6 & A7 & A8 & A9 & _).
      assert (pi' = pi) by lia. subst pi'. assert (pl' = pl) by (eapply index_of_inj; eassumption). subst pl'.
      assert (Hs : sel d = true) by (rewrite <- Dr; symmetry; apply (Hsel r i d); assumption).
      rewrite (alone_pd_row tb r i d p pa Htb Hr A7 A1 Hs A2), A9, !andb_true_iff, Z.ltb_lt, Z.leb_le, negb_true_iff in Ht.
      exists i, d, p, pa, k, sc. split; [exact A1|]. split; [exact Hs|]. split; [exact A2|]. split; [exact A3|]. split; [exact A4|].
      split; [tauto|]. split; [tauto|]. split; [tauto|].
      rewrite A6, A7, (datum_uid_row tb r i d), (pd_uid_row tb r i d p pa) by auto. reflexivity.
    - intros (i & d & p & pa & k & sc & A1 & A2 & A3 & A4 & A5 & A6 & A7 & A8 & ->).
      destruct (pd_recorded eps unit ds L tables Hin Hst i d p pa k pl sc A1 A3 A4 A5) as (r & pi' & Hr & Hpi' & R1 & R2 & R3 & R4).
      assert (pi' = pi) by congruence. subst pi'. apply in_concat in Hr. destruct Hr as (tb & Htb & Hr).
      assert (Hrt : In r (tb' tb)) by (apply filter_In; split; [exact Hr|]; rewrite (Hsel r i d); assumption).
      eexists. split; [apply in_map_iff; exists tb; split; [reflexivity|exact Htb]|].
      unfold det_alone_pd_examples, unique_alone_pds. apply in_map_iff. exists (pd_key r). unfold pd_key. cbn [fst snd]. split.
      + rewrite R1, R2, (datum_uid_row tb r i d), (pd_uid_row tb r i d p pa) by auto. reflexivity.
      + apply filter_In. cbn [snd]. rewrite R3, Z.eqb_refl. split; [|reflexivity].
        rewrite isort_In_iff, dkeys_In. exists r. split; [exact Hrt|]. unfold pd_key.
        rewrite (alone_pd_row tb r i d p pa Htb Hrt R2 A1 A2 A3), R4, A8. split; [|congruence].
        rewrite !andb_true_iff, Z.ltb_lt, Z.leb_le. auto.
  Qed.
End Examples.

(* a duplicate-free list of keys lists the items the keys stand for *)
Lemma lists_once_keys {X K U} (P : X -> Prop) (f : X -> K) (name : X -> U) (u : K -> U) (Ks : list K) :
  NoDup Ks -> (forall k, In k Ks <-> exists x, P x /\ k = f x) ->
  (forall x y, P x -> P y -> f x = f y -> x = y) -> (forall x, P x -> u (f x) = name x) ->
  lists_once P name (map u Ks).
Proof.
  intros HN HK HI HU.
  assert (Ex : exists T, map f T = Ks /\ Forall P T).
  { assert (Hall : forall k, In k Ks -> exists x, P x /\ k = f x) by (intros k Hk; apply HK; exact Hk). clear HN HK.
    induction Ks as [|k Ks IH]; [exists []; split; [reflexivity|constructor]|].
    destruct IH as (T & <- & F); [intros k' Hk'; apply Hall; right; exact Hk'|].
    destruct (Hall k) as (x & Px & ->); [left; reflexivity|]. exists (x :: T). split; [reflexivity|]. constructor; assumption. }
  destruct Ex as (T & <- & F). rewrite Forall_forall in F. exists T. split; [apply (NoDup_map_inv f); exact HN|]. split.
  - intros x. split; [apply F|]. intros Px. assert (Hk : In (f x) (map f T)) by (apply HK; eauto).
    apply in_map_iff in Hk. destruct Hk as (y & E & Hy). assert (y = x) by (apply HI; auto). congruence.
  - rewrite map_map. apply map_ext_in. intros x Hx. apply HU. apply F. exact Hx.
Qed.

Section DatumExamples.
  Variables (eps unit : Z) (ds : list detection) (L : list String.string) (tables : list (list drow)).
  Hypothesis Hin : det_input unit ds.
  Hypothesis Hst : det_stored eps ds L tables.
  Hypothesis Hfew : few_annotations ds.
  Hypothesis HfewL : few L.
  Hypothesis Hdis : Forall distinct_pd_labels ds.
  Variables (sel : detection -> bool) (datums : drow -> bool).
  Hypothesis Hsel : selects_ids ds datums sel.
  Variables (t s : Z).

  Notation tb' := (filter datums).
  Notation rows_iff := (stored_rows eps unit ds L tables Hin Hst).
  Notation M := (code_matching ds tables datums).
  Notation thr tb := (thresholded eps t s (filter datums tb)).
  Notation tok := (table_conf_ok eps unit ds L tables Hin Hst Hfew Hdis sel datums Hsel).
  Notation Thr_about := (thr_about eps unit ds L tables Hin Hst Hfew Hdis sel datums Hsel t s).
  Notation Thr_matching := (thr_matching eps unit ds L tables Hin Hst Hfew Hdis sel datums Hsel t s).
  Notation Row_described := (row_described eps unit ds L tables Hin Hst datums).

  Variables (i : nat) (d : detection) (tb : list drow) (r0 : drow).
  Hypothesis Hi : nth_error ds i = Some d.
  Hypothesis Htb : In tb tables.
  Hypothesis Hr0 : In r0 (tb' tb).
  Hypothesis Hd0 : d_datum r0 = Z.of_nat i.

  Lemma datum_selected : sel d = true.
  Proof.
    destruct (Row_described tb r0 Htb Hr0) as (_ & H & _). rewrite <- H. symmetry. apply (Hsel r0 i d); assumption.
  Qed.

  (* rows above the thresholds, of this datum *)
  Lemma thr_row r : In r (tb' tb) -> d_datum r = Z.of_nat i -> thr tb r = true ->
    exists g ga gl gi p pa k pl pi sc, nth_error (t_gts d) g = Some ga /\ a_labels ga = [gl] /\
      nth_error (t_pds d) p = Some pa /\ nth_error (a_labels pa) k = Some pl /\ nth_error (a_scores pa) k = Some sc /\
      index_of gl L = Some gi /\ index_of pl L = Some pi /\ M i p g = true /\ reaches eps t s d p g sc = true /\
      d_gt r = gt_id ds i g /\ d_pd r = pd_id ds i p /\ d_gl r = Z.of_nat gi /\ d_pl r = Z.of_nat pi /\ d_score r = sc /\
      gt_exists r && pd_exists r && label_match r = has_label pl ga.
  Proof.
    intros Hr Ed T. destruct (Thr_about tb r Htb Hr T)
      as (i' & d' & g & ga & gl & gi & p & pa & k & pl & pi & sc & A1 & A2 & A3 & A4 & A5 & A6 & A7 & A8 & A9 & A10).
    assert (A10' := A10). destruct A10' as (_ & _ & B1 & B2 & B3 & B4 & B5 & B6).
    assert (i' = i) by lia. subst i'. assert (d' = d) by congruence. subst d'.
    assert (X : M i p g && reaches eps t s d p g sc = true) by (apply (Thr_matching i d p pa g ga gl gi k pl pi sc); eauto).
    apply andb_true_iff in X. destruct X as [X1 X2].
    exists g, ga, gl, gi, p, pa, k, pl, pi, sc. repeat (split; [assumption|]).
    destruct (Row_described tb r Htb Hr) as (_ & _ & _ & Hc).
    rewrite (label_match_row eps unit ds L tables Hin Hst HfewL r Hc). unfold gt_exists, pd_exists. rewrite B2, B3, B4, B5.
    assert (0 <=? gt_id ds i g = true)%Z as -> by (apply Z.leb_le; apply gt_id_nonneg).
    assert (0 <=? pd_id ds i p = true)%Z as -> by (apply Z.leb_le; apply pd_id_nonneg). cbn [andb].
    apply eq_true_iff_eq. rewrite has_label_iff, A4, Z.eqb_eq. split.
    - intros E. assert (gi = pi) by lia. subst gi. left. eapply index_of_inj; eassumption.
    - intros [->|[]]. congruence.
  Qed.

  Lemma thr_row_exists g ga p pa k pl sc : nth_error (t_gts d) g = Some ga -> nth_error (t_pds d) p = Some pa ->
    nth_error (a_labels pa) k = Some pl -> nth_error (a_scores pa) k = Some sc -> M i p g = true -> reaches eps t s d p g sc = true ->
    exists r gi pi, In r (tb' tb) /\ d_datum r = Z.of_nat i /\ thr tb r = true /\ d_gt r = gt_id ds i g /\ d_pd r = pd_id ds i p /\
      index_of pl L = Some pi /\ d_pl r = Z.of_nat pi /\ (forall gl, a_labels ga = [gl] -> index_of gl L = Some gi) /\ d_gl r = Z.of_nat gi /\
      gt_exists r && pd_exists r && label_match r = has_label pl ga.
  Proof.
    intros Hg Hp Hk Hsc HM HR.
    destruct (single_gt_label unit ds Hin d ga (nth_error_In _ _ Hi) (nth_error_In _ _ Hg)) as (gl & Hgl).
    destruct (gt_recorded eps unit ds L tables Hin Hst i d g ga gl Hi Hg Hgl) as (_ & gi & _ & Hgi & _).
    destruct (pd_recorded eps unit ds L tables Hin Hst i d p pa k pl sc Hi Hp Hk Hsc) as (_ & pi & _ & Hpi & _).
    destruct (proj1 (Thr_matching i d p pa g ga gl gi k pl pi sc Hi datum_selected Hg Hgl Hp Hk Hsc Hgi Hpi)) as (tb1 & r & A & T).
    { rewrite HM, HR. reflexivity. }
    destruct A as (A1 & A2 & A3 & A4 & A5 & A6 & A7 & A8).
    assert (tb1 = tb).
    { destruct (Row_described tb1 r A1 A2) as (_ & _ & X1 & _). destruct (Row_described tb r0 Htb Hr0) as (_ & _ & X2 & _).
      apply (same_table eps ds L tables Hst tb1 tb r r0); auto. congruence. }
    subst tb1. exists r, gi, pi. repeat (split; [assumption|]). split; [intros gl' E; congruence|]. split; [exact A6|].
    destruct (thr_row r A2 A3 T) as (g' & ga' & gl' & gi' & p' & pa' & k' & pl' & pi' & sc' & B1 & B2 & B3 & B4 & B5 & B6 & B7 & _ & _ & B8 & B9 & B10 & B11 & _ & B12).
    rewrite A4 in B8. destruct (gt_id_inj ds i i d d g g' ga ga' Hi Hi Hg B1 B8) as [_ <-]. assert (ga' = ga) by congruence. subst ga'.
    rewrite B12. assert (pi' = pi) by lia. subst pi'. assert (pl' = pl) by (eapply index_of_inj; eassumption). congruence.
  Qed.

  Theorem datum_example_spec : det_example_ok eps t s d (M i) (det_datum_example eps t s (tb' tb) (Z.of_nat i)).
  Proof.
    assert (Hs := datum_selected).
    assert (Idx : forall pa k l sc p, nth_error (t_pds d) p = Some pa -> nth_error (a_labels pa) k = Some l -> nth_error (a_scores pa) k = Some sc ->
        exists pi, index_of l L = Some pi).
    { intros pa k l sc p Hp Hk Hsc. destruct (pd_recorded eps unit ds L tables Hin Hst i d p pa k l sc Hi Hp Hk Hsc) as (_ & pi & _ & Hpi & _). eauto. }
    assert (LabelK : forall p pa k k' l l' pi, nth_error (t_pds d) p = Some pa -> nth_error (a_labels pa) k = Some l -> nth_error (a_labels pa) k' = Some l' ->
        index_of l L = Some pi -> index_of l' L = Some pi -> k = k').
    { intros p pa k k' l l' pi Hp Hk Hk' E E'. assert (l = l') by (eapply index_of_inj; eassumption). subst l'.
      assert (N : NoDup (a_labels pa)).
      { rewrite Forall_forall in Hdis. apply (Hdis d (nth_error_In _ _ Hi)). apply (nth_error_In _ _ Hp). }
      rewrite NoDup_nth_error in N. apply N; [apply nth_error_Some; congruence|congruence]. }
    set (lab := fun p k => match nth_error (t_pds d) p with
                           | Some pa => match nth_error (a_labels pa) k with
                                        | Some l => match index_of l L with Some x => Z.of_nat x | None => (-1)%Z end
                                        | None => (-1)%Z end
                           | None => (-1)%Z end).
    set (glab := fun g => match nth_error (t_gts d) g with
                           | Some ga => match a_labels ga with
                                        | l :: _ => match index_of l L with Some x => Z.of_nat x | None => (-1)%Z end
                                        | [] => (-1)%Z end
                           | None => (-1)%Z end).
    assert (Lab : forall p pa k l pi, nth_error (t_pds d) p = Some pa -> nth_error (a_labels pa) k = Some l -> index_of l L = Some pi -> lab p k = Z.of_nat pi).
    { intros p pa k l pi H1 H2 H3. unfold lab. rewrite H1, H2, H3. reflexivity. }
    assert (GLab : forall g ga l gi, nth_error (t_gts d) g = Some ga -> a_labels ga = [l] -> index_of l L = Some gi -> glab g = Z.of_nat gi).
    { intros g ga l gi H1 H2 H3. unfold glab. rewrite H1, H2, H3. reflexivity. }
    assert (GtRow : forall g ga, nth_error (t_gts d) g = Some ga -> exists r gl gi, In r (tb' tb) /\ a_labels ga = [gl] /\ index_of gl L = Some gi /\
       d_datum r = Z.of_nat i /\ d_gt r = gt_id ds i g /\ d_gl r = Z.of_nat gi).
    { intros g ga Hg. destruct (single_gt_label unit ds Hin d ga (nth_error_In _ _ Hi) (nth_error_In _ _ Hg)) as (gl & Hgl).
      destruct (gt_recorded eps unit ds L tables Hin Hst i d g ga gl Hi Hg Hgl) as (r & gi & Hr & Hgi & R1 & R2 & R3).
      apply in_concat in Hr. destruct Hr as (tb1 & Htb1 & Hr).
      assert (tb1 = tb).
      { destruct (Row_described tb r0 Htb Hr0) as (_ & _ & X2 & _). apply (same_table eps ds L tables Hst tb1 tb r r0); auto. congruence. }
      subst tb1. exists r, gl, gi. split; [apply filter_In; split; [exact Hr|rewrite (Hsel r i d); assumption]|]. auto. }
    assert (PdRow : forall p pa k l sc, nth_error (t_pds d) p = Some pa -> nth_error (a_labels pa) k = Some l -> nth_error (a_scores pa) k = Some sc ->
       exists r pi, In r (tb' tb) /\ index_of l L = Some pi /\ d_datum r = Z.of_nat i /\ d_pd r = pd_id ds i p /\ d_pl r = Z.of_nat pi /\ d_score r = sc).
    { intros p pa k l sc Hp Hk Hsc. destruct (pd_recorded eps unit ds L tables Hin Hst i d p pa k l sc Hi Hp Hk Hsc) as (r & pi & Hr & Hpi & R1 & R2 & R3 & R4).
      apply in_concat in Hr. destruct Hr as (tb1 & Htb1 & Hr).
      assert (tb1 = tb).
      { destruct (Row_described tb r0 Htb Hr0) as (_ & _ & X2 & _). apply (same_table eps ds L tables Hst tb1 tb r r0); auto. congruence. }
      subst tb1. exists r, pi. split; [apply filter_In; split; [exact Hr|rewrite (Hsel r i d); assumption]|]. auto. }
    assert (GU : forall g ga, nth_error (t_gts d) g = Some ga -> det_gt_uid (tb' tb) (gt_id ds i g) = gt_uid_of d g).
    { intros g ga Hg. destruct (GtRow g ga Hg) as (r & gl & gi & R1 & _ & _ & R2 & R3 & _).
      rewrite (gt_uid_row eps unit ds L tables Hin Hst datums tb r i d g ga Htb R1 R3 Hi Hg). unfold gt_uid_of. rewrite Hg. reflexivity. }
    assert (PU : forall p pa k l sc, nth_error (t_pds d) p = Some pa -> nth_error (a_labels pa) k = Some l -> nth_error (a_scores pa) k = Some sc ->
        det_pd_uid (tb' tb) (pd_id ds i p) = pd_uid_of d p).
    { intros p pa k l sc Hp Hk Hsc. destruct (PdRow p pa k l sc Hp Hk Hsc) as (r & pi & R1 & _ & R2 & R3 & _).
      rewrite (pd_uid_row eps unit ds L tables Hin Hst datums tb r i d p pa Htb R1 R3 Hi Hp). unfold pd_uid_of. rewrite Hp. reflexivity. }
    split; [|split]; unfold det_datum_example; cbn [dx_tp dx_fp dx_fn].
    - apply (lists_once_keys _ (fun x => (Z.of_nat i, gt_id ds i (fst x), pd_id ds i (snd x), glab (fst x), glab (fst x)))).
      + apply isort_NoDup, dkeys_NoDup.
      + intros kk. rewrite isort_In_iff, dkeys_In. split.
        * intros (r & Hr & HP & <-). rewrite andb_true_iff, Z.eqb_eq in HP. destruct HP as [HP Ed]. unfold dp_tp in HP. apply andb_true_iff in HP.
          destruct HP as [T HL]. destruct (thr_row r Hr Ed T) as (g & ga & gl & gi & p & pa & k & pl & pi & sc & B1 & B2 & B3 & B4 & B5 & B6 & B7 & B8 & B9 & B10 & B11 & B12 & B13 & B14 & B15).
          rewrite B15 in HL. exists (g, p). cbn [fst snd]. split.
          -- exists ga, pa, k, pl, sc. auto 10.
          -- unfold row_ids. apply has_label_iff in HL. rewrite B2 in HL. destruct HL as [->|[]]. rewrite (GLab g ga pl gi B1 B2 B6). congruence.
        * intros ([g p] & (ga & pa & k & l & sc & A1 & A2 & A3 & A4 & A5 & A6 & A7) & ->). cbn [fst snd] in *.
          destruct (thr_row_exists g ga p pa k l sc A1 A2 A3 A4 A6 A7) as (r & gi & pi & B1 & B2 & B3 & B4 & B5 & B6 & B7 & B8 & B9 & B10).
          exists r. split; [exact B1|]. unfold dp_tp. rewrite B3, B10, A5, B2, Z.eqb_refl. split; [reflexivity|].
          destruct (single_gt_label unit ds Hin d ga (nth_error_In _ _ Hi) (nth_error_In _ _ A1)) as (gl & Hgl).
          apply has_label_iff in A5. rewrite Hgl in A5. destruct A5 as [->|[]]. assert (X := B8 l Hgl).
          unfold row_ids. rewrite (GLab g ga l gi A1 Hgl X). congruence.
      + intros [g p] [g' p'] (ga & pa & k & l & sc & A1 & A2 & _) (ga' & pa' & k' & l' & sc' & B1 & B2 & _) E. cbn [fst snd] in *. injection E as E1 E2 E3.
        destruct (gt_id_inj ds i i d d g g' ga ga' Hi Hi A1 B1 E1) as [_ <-]. destruct (pd_id_inj ds i i d d p p' pa pa' Hi Hi A2 B2 E2) as [_ <-]. reflexivity.
      + intros [g p] (ga & pa & k & l & sc & A1 & A2 & A3 & A4 & _). cbn [fst snd] in *.
        rewrite (GU g ga A1), (PU p pa k l sc A2 A3 A4). reflexivity.
    - apply (lists_once_keys _ (fun x => (Z.of_nat i, pd_id ds i (fst x), lab (fst x) (snd x))) (fun x => pd_uid_of d (fst x)) (fun kk => det_pd_uid (tb' tb) (snd (fst kk)))).
      + apply isort_NoDup, dkeys_NoDup.
      + intros kk. rewrite isort_In_iff, dkeys_In. split.
        * intros (r & Hr & HP & <-). rewrite andb_true_iff, orb_true_iff, Z.eqb_eq in HP. destruct HP as [[HP|HP] Ed].
          -- unfold dp_misclf in HP. apply andb_true_iff in HP. destruct HP as [T HL].
             destruct (thr_row r Hr Ed T) as (g & ga & gl & gi & p & pa & k & pl & pi & sc & B1 & B2 & B3 & B4 & B5 & B6 & B7 & B8 & B9 & B10 & B11 & B12 & B13 & B14 & B15).
             rewrite B15, negb_true_iff in HL. exists (p, k). cbn [fst snd]. split.
             ++ exists pa, pl, sc. split; [exact B3|]. split; [exact B4|]. split; [exact B5|]. left. exists g, ga. auto.
             ++ unfold pd_key. rewrite (Lab p pa k pl pi B3 B4 B7). congruence.
          -- assert (V : (0 <= d_pd r)%Z).
             { unfold dp_unmatched_pd, pd_exists in HP. rewrite !andb_true_iff, Z.leb_le in HP. tauto. }
             destruct (Row_described tb r Htb Hr) as (D & _).
             destruct (described_pd _ _ _ _ D V) as (i' & d' & p & pa & k & pl & sc & pi & A1 & A2 & A3 & A4 & A5 & A6 & A7 & A8 & A9 & _).
             assert (i' = i) by lia. subst i'. assert (d' = d) by congruence. subst d'.
             rewrite (alone_pd_row eps unit ds L tables Hin Hst Hfew Hdis sel datums Hsel t s tb r i d p pa Htb Hr A7 Hi Hs A2), A9, !andb_true_iff, Z.ltb_lt, Z.leb_le, negb_true_iff in HP.
             exists (p, k). cbn [fst snd]. split.
             ++ exists pa, pl, sc. split; [exact A2|]. split; [exact A3|]. split; [exact A4|]. right. tauto.
             ++ unfold pd_key. rewrite (Lab p pa k pl pi A2 A3 A5). congruence.
        * intros ([p k] & (pa & l & sc & A1 & A2 & A3 & A4) & ->). cbn [fst snd] in *. destruct A4 as [(g & ga & G1 & G2 & G3 & G4)|(S1 & S2 & S3)].
          -- destruct (thr_row_exists g ga p pa k l sc G1 A1 A2 A3 G3 G4) as (r & gi & pi & B1 & B2 & B3 & B4 & B5 & B6 & B7 & B8 & B9 & B10).
             exists r. split; [exact B1|]. unfold dp_misclf. rewrite B3, B10, G2, B2, Z.eqb_refl. split; [reflexivity|].
             unfold pd_key. rewrite (Lab p pa k l pi A1 A2 B6). congruence.
          -- destruct (PdRow p pa k l sc A1 A2 A3) as (r & pi & R1 & R2 & R3 & R4 & R5 & R6). exists r. split; [exact R1|].
             rewrite (alone_pd_row eps unit ds L tables Hin Hst Hfew Hdis sel datums Hsel t s tb r i d p pa Htb R1 R4 Hi Hs A1), R6, S3, R3, Z.eqb_refl.
             assert (eps <? sc = true)%Z as -> by (apply Z.ltb_lt; exact S1). assert (s <=? sc = true)%Z as -> by (apply Z.leb_le; exact S2).
             split; [cbn; rewrite orb_true_r; reflexivity|]. unfold pd_key. rewrite (Lab p pa k l pi A1 A2 R2). congruence.
      + intros [p k] [p' k'] (pa & l & sc & A1 & A2 & A3 & _) (pa' & l' & sc' & B1 & B2 & B3 & _) E. cbn [fst snd] in *. injection E as E1 E2.
        destruct (pd_id_inj ds i i d d p p' pa pa' Hi Hi A1 B1 E1) as [_ <-]. assert (pa' = pa) by congruence. subst pa'.
        destruct (Idx pa k l sc p A1 A2 A3) as (x & X). destruct (Idx pa k' l' sc' p A1 B2 B3) as (y & Y).
        rewrite (Lab p pa k l x A1 A2 X), (Lab p pa k' l' y A1 B2 Y) in E2. assert (y = x) by lia. subst y.
        rewrite (LabelK p pa k k' l l' x A1 A2 B2 X Y). reflexivity.
      + intros [p k] (pa & l & sc & A1 & A2 & A3 & _). cbn [fst snd]. apply (PU p pa k l sc A1 A2 A3).
    - apply (lists_once_keys _ (fun g => (Z.of_nat i, gt_id ds i g, glab g)) (gt_uid_of d) (fun kk => det_gt_uid (tb' tb) (snd (fst kk)))).
      + apply isort_NoDup, dkeys_NoDup.
      + intros kk. rewrite isort_In_iff, dkeys_In. split.
        * intros (r & Hr & HP & <-). rewrite andb_true_iff, orb_true_iff, Z.eqb_eq in HP. destruct HP as [[HP|HP] Ed].
          -- unfold dp_misclf in HP. apply andb_true_iff in HP. destruct HP as [T HL].
             destruct (thr_row r Hr Ed T) as (g & ga & gl & gi & p & pa & k & pl & pi & sc & B1 & B2 & B3 & B4 & B5 & B6 & B7 & B8 & B9 & B10 & B11 & B12 & B13 & B14 & B15).
             rewrite B15, negb_true_iff in HL. exists g. split.
             ++ exists ga. split; [exact B1|]. left. exists p, pa, k, pl, sc. auto 8.
             ++ unfold gt_key. rewrite (GLab g ga gl gi B1 B2 B6). congruence.
          -- assert (V : (0 <= d_gt r)%Z).
             { unfold dp_unmatched_gt, gt_exists in HP. rewrite !andb_true_iff, Z.leb_le in HP. tauto. }
             destruct (Row_described tb r Htb Hr) as (D & _).
             destruct (described_gt _ _ _ _ D V) as (i' & d' & g & ga & j & gl & gi & A1 & A2 & A3 & A4 & A5 & A6 & A7 & _).
             assert (i' = i) by lia. subst i'. assert (d' = d) by congruence. subst d'.
             rewrite (alone_gt_row eps unit ds L tables Hin Hst Hfew Hdis sel datums Hsel t s tb r i d g ga Htb Hr A6 Hi Hs A2), negb_true_iff in HP.
             exists g. split; [exists ga; auto|].
             destruct (single_gt_label unit ds Hin d ga (nth_error_In _ _ Hi) (nth_error_In _ _ A2)) as (gl0 & Hgl).
             rewrite Hgl in A3. destruct j as [|[|j]]; try discriminate. injection A3 as <-.
             unfold gt_key. rewrite (GLab g ga gl0 gi A2 Hgl A4). congruence.
        * intros (g & (ga & A1 & A2) & ->). destruct A2 as [(p & pa & k & l & sc & P1 & P2 & P3 & P4 & P5 & P6)|HC].
          -- destruct (thr_row_exists g ga p pa k l sc A1 P1 P2 P3 P5 P6) as (r & gi & pi & B1 & B2 & B3 & B4 & B5 & B6 & B7 & B8 & B9 & B10).
             exists r. split; [exact B1|]. unfold dp_misclf. rewrite B3, B10, P4, B2, Z.eqb_refl. split; [reflexivity|].
             destruct (single_gt_label unit ds Hin d ga (nth_error_In _ _ Hi) (nth_error_In _ _ A1)) as (gl & Hgl).
             unfold gt_key. rewrite (GLab g ga gl gi A1 Hgl (B8 gl Hgl)). congruence.
          -- destruct (GtRow g ga A1) as (r & gl & gi & R1 & R2 & R3 & R4 & R5 & R6). exists r. split; [exact R1|].
             rewrite (alone_gt_row eps unit ds L tables Hin Hst Hfew Hdis sel datums Hsel t s tb r i d g ga Htb R1 R5 Hi Hs A1), HC, R4, Z.eqb_refl.
             split; [cbn; rewrite orb_true_r; reflexivity|]. unfold gt_key. rewrite (GLab g ga gl gi A1 R2 R3). congruence.
      + intros g g' (ga & A1 & _) (ga' & B1 & _) E. injection E as E1 E2.
        destruct (gt_id_inj ds i i d d g g' ga ga' Hi Hi A1 B1 E1) as [_ <-]. reflexivity.
      + intros g (ga & A1 & _). cbn [fst snd]. apply (GU g ga A1).
  Qed.
End DatumExamples.

Section EvalExamples.
  Variables (eps unit : Z) (ds : list detection) (L : list String.string) (tables : list (list drow)).
  Hypothesis Hin : det_input unit ds.
  Hypothesis Hst : det_stored eps ds L tables.
  Hypothesis Hfew : few_annotations ds.
  Hypothesis HfewL : few L.
  Hypothesis Hdis : Forall distinct_pd_labels ds.
  Variables (sel : detection -> bool) (datums : drow -> bool).
  Hypothesis Hsel : selects_ids ds datums sel.
  Notation M := (code_matching ds tables datums).

  Lemma page_datum tb z : In tb tables -> In z (isort Z.leb (nodup Z.eq_dec (map d_datum (filter datums tb)))) ->
    exists r i d, In r (filter datums tb) /\ d_datum r = Z.of_nat i /\ nth_error ds i = Some d /\ z = Z.of_nat i /\ sel d = true.
  Proof.
    intros Htb Hz. rewrite isort_In_iff, nodup_In, in_map_iff in Hz. destruct Hz as (r & <- & Hr).
    assert (Hr' := Hr). apply filter_In in Hr'. destruct Hr' as [H1 H2].
    destruct (stored_datum eps unit ds L tables Hin Hst r) as (i & d & Hi & Ed); [apply in_concat; eauto|].
    exists r, i, d. split; [exact Hr|]. split; [exact Ed|]. split; [exact Hi|]. split; [exact Ed|].
    rewrite <- H2. symmetry. apply (Hsel r i d); assumption.
  Qed.

  Theorem eval_examples_sound ious scores u t s ex :
    In (u, t, s, ex) (det_eval_examples eps ious scores (map (filter datums) tables)) ->
    exists i d, nth_error ds i = Some d /\ sel d = true /\ u = Some (t_uid d) /\ In t ious /\ In s scores /\
      det_example_ok eps t s d (M i) ex.
  Proof.
    unfold det_eval_examples. intros H. apply in_concat in H. destruct H as (l1 & H1 & H). rewrite map_map in H1. apply in_map_iff in H1.
    destruct H1 as (tb & <- & Htb). apply in_concat in H. destruct H as (l2 & H2 & H). apply in_map_iff in H2. destruct H2 as (z & <- & Hz).
    apply in_concat in H. destruct H as (l3 & H3 & H). apply in_map_iff in H3. destruct H3 as (t' & <- & Ht). apply in_map_iff in H.
    destruct H as (s' & E & Hs). injection E as <- <- <- <-.
    destruct (page_datum tb z Htb Hz) as (r & i & d & Hr & Ed & Hi & -> & Hsd). exists i, d. split; [exact Hi|]. split; [exact Hsd|].
    split; [apply (datum_uid_row eps unit ds L tables Hin Hst datums tb r i d Htb Hr Ed Hi)|]. split; [exact Ht|]. split; [exact Hs|].
    apply (datum_example_spec eps unit ds L tables Hin Hst Hfew HfewL Hdis sel datums Hsel t' s' i d tb r Hi Htb Hr Ed).
  Qed.

  (* a datum that left rows *)
  Definition has_rows (d : detection) : Prop := t_gts d <> [] \/ exists pa, In pa (t_pds d) /\ a_labels pa <> [].

  Theorem eval_examples_complete ious scores i d t s : nth_error ds i = Some d -> sel d = true -> has_rows d -> In t ious -> In s scores ->
    exists ex, In (Some (t_uid d), t, s, ex) (det_eval_examples eps ious scores (map (filter datums) tables)) /\
      det_example_ok eps t s d (M i) ex.
  Proof.
    intros Hi Hs Hrows Ht Hsc.
    assert (X : exists r, In r (concat tables) /\ d_datum r = Z.of_nat i).
    { destruct Hrows as [Hg|(pa & Hpa & Hl)].
      - destruct (t_gts d) as [|ga gs] eqn:Eg; [congruence|]. assert (Hg0 : nth_error (t_gts d) 0 = Some ga) by (rewrite Eg; reflexivity).
        destruct (single_gt_label unit ds Hin d ga (nth_error_In _ _ Hi) (nth_error_In _ _ Hg0)) as (gl & Hgl).
        destruct (gt_recorded eps unit ds L tables Hin Hst i d 0 ga gl Hi Hg0 Hgl) as (r & gi & Hr & _ & R1 & _). eauto.
      - apply In_nth_error in Hpa. destruct Hpa as (p & Hp). destruct (a_labels pa) as [|l ls] eqn:El; [congruence|].
        assert (Hk : nth_error (a_labels pa) 0 = Some l) by (rewrite El; reflexivity).
        assert (Hlen := pd_len unit ds Hin d pa (nth_error_In _ _ Hi) (nth_error_In _ _ Hp)).
        destruct (nth_error (a_scores pa) 0) as [sc|] eqn:Es; [|apply nth_error_None in Es; rewrite El in Hlen; cbn in Hlen; lia].
        destruct (pd_recorded eps unit ds L tables Hin Hst i d p pa 0 l sc Hi Hp Hk Es) as (r & pi & Hr & _ & R1 & _). eauto. }
    destruct X as (r & Hr & Ed). apply in_concat in Hr. destruct Hr as (tb & Htb & Hr).
    assert (Hrt : In r (filter datums tb)) by (apply filter_In; split; [exact Hr|]; rewrite (Hsel r i d); assumption).
    exists (det_datum_example eps t s (filter datums tb) (Z.of_nat i)). split.
    - unfold det_eval_examples. apply in_concat. eexists. split; [rewrite map_map; apply in_map_iff; exists tb; split; [reflexivity|exact Htb]|].
      apply in_concat. eexists. split; [apply in_map_iff; exists (Z.of_nat i); split; [reflexivity|]|].
      { rewrite isort_In_iff, nodup_In, in_map_iff. eauto. }
      apply in_concat. eexists. split; [apply in_map_iff; exists t; split; [reflexivity|exact Ht]|].
      apply in_map_iff. exists s. split; [|exact Hsc].
      rewrite (datum_uid_row eps unit ds L tables Hin Hst datums tb r i d Htb Hrt Ed Hi). reflexivity.
    - apply (datum_example_spec eps unit ds L tables Hin Hst Hfew HfewL Hdis sel datums Hsel t s i d tb r Hi Htb Hrt Ed).
  Qed.
End EvalExamples.
