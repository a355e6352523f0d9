(* The detection confusion matrix accounts for every prediction and ground truth. *)
From Verif Require Import Prelude Counting CacheModel CacheSpec SortProofs ClsModel ClsLabelProofs DetModel DetSpec DetMatchProofs DetRankProofs
  DetCountProofs DetLoaderProofs DetStoreProofs DetLocalProofs DetMain.
From Coq Require Import Lia.
From Coq Require String.
Local Open Scope nat_scope.
Local Open Scope list_scope.

(* what the rows of a table satisfy *)
Record conf_ok (rows : list drow) : Prop := {
  co_ids : forall r, In r rows -> id_ok (d_datum r) /\ id_or_absent (d_gt r) /\ id_or_absent (d_pd r);
  co_gts : forall a b, In a rows -> In b rows -> (0 <= d_gt a)%Z -> d_gt a = d_gt b -> d_datum a = d_datum b /\ d_gl a = d_gl b;
  co_pds : forall a b, In a rows -> In b rows -> (0 <= d_pd a)%Z -> d_pd a = d_pd b -> d_datum a = d_datum b;
  co_scores : forall a b, In a rows -> In b rows -> (0 <= d_pd a)%Z -> d_pd a = d_pd b -> d_pl a = d_pl b -> d_score a = d_score b;
  co_ious : forall a b, In a rows -> In b rows -> (0 <= d_gt a)%Z -> (0 <= d_pd a)%Z -> d_gt a = d_gt b -> d_pd a = d_pd b -> d_iou a = d_iou b;
  co_closed : forall a b, In a rows -> In b rows -> (0 <= d_gt a)%Z -> (0 <= d_pd a)%Z -> d_pd a = d_pd b ->
    exists c, In c rows /\ d_datum c = d_datum b /\ d_gt c = d_gt a /\ d_gl c = d_gl a /\ d_pd c = d_pd b /\
      d_pl c = d_pl b /\ d_score c = d_score b /\ d_iou c = d_iou a
}.

Lemma dcount_proj {A K1 K2} (d1 : forall x y : K1, {x = y} + {x <> y}) (d2 : forall x y : K2, {x = y} + {x <> y})
    (k1 : A -> K1) (k2 : A -> K2) (P : A -> bool) l :
  (forall a b, In a l -> In b l -> P a = true -> P b = true -> (k1 a = k1 b <-> k2 a = k2 b)) ->
  dcount d1 k1 P l = dcount d2 k2 P l.
Proof.
  induction l as [|x t IH]; intros H; [reflexivity|].
  assert (IH' := IH (fun a b Ha Hb => H a b (or_intror Ha) (or_intror Hb))).
  change (x :: t) with ([x] ++ t).
  destruct (P x) eqn:Px.
  - destruct (in_dec d1 (k1 x) (dkeys d1 k1 P t)) as [I|N].
    + assert (I2 : In (k2 x) (dkeys d2 k2 P t)).
      { apply dkeys_In in I. destruct I as (a & Ha & Pa & E). apply dkeys_In. exists a. split; [exact Ha|]. split; [exact Pa|].
        apply (H a x); auto; [right; exact Ha|left; reflexivity]. }
      transitivity (dcount d1 k1 P t).
      * apply dcount_same. intros k. split; intros (a & Ha & Pa & E).
        -- destruct Ha as [<-|Ha]; [|eauto]. apply dkeys_In in I. destruct I as (b & Hb & Pb & Eb). exists b. split; [exact Hb|]. split; [exact Pb|congruence].
        -- exists a. split; [right; exact Ha|auto].
      * rewrite IH'. symmetry. apply dcount_same. intros k. split; intros (a & Ha & Pa & E).
        -- destruct Ha as [<-|Ha]; [|eauto]. apply dkeys_In in I2. destruct I2 as (b & Hb & Pb & Eb). exists b. split; [exact Hb|]. split; [exact Pb|congruence].
        -- exists a. split; [right; exact Ha|auto].
    + assert (N1 : forall a b, In a [x] -> In b t -> P a = true -> P b = true -> k1 a <> k1 b).
      { intros a b [<-|[]] Hb _ Pb E. apply N. apply dkeys_In. exists b. auto. }
      assert (N2 : forall a b, In a [x] -> In b t -> P a = true -> P b = true -> k2 a <> k2 b).
      { intros a b Ha Hb Pa Pb E. apply (N1 a b Ha Hb Pa Pb). destruct Ha as [<-|[]]. apply (H x b); auto; [left; reflexivity|right; exact Hb]. }
      rewrite !dcount_app by assumption. rewrite IH'. f_equal.
      rewrite (dcount_one d1 k1 P [x] (k1 x)), (dcount_one d2 k2 P [x] (k2 x)); [reflexivity| |]; intros a [<-|[]] _; reflexivity.
  - transitivity (dcount d1 k1 P t); [|rewrite IH'; symmetry].
    + apply dcount_same. intros k. split; intros (a & Ha & Pa & E); [destruct Ha as [<-|Ha]; [congruence|eauto]|exists a; split; [right; exact Ha|auto]].
    + apply dcount_same. intros k. split; intros (a & Ha & Pa & E); [destruct Ha as [<-|Ha]; [congruence|eauto]|exists a; split; [right; exact Ha|auto]].
Qed.

(* two disjoint sets of keys *)
Lemma dcount_union {A K} (dec : forall x y : K, {x = y} + {x <> y}) (key : A -> K) (P Q S : A -> bool) l :
  (forall a b, In a l -> In b l -> P a = true -> Q b = true -> key a <> key b) ->
  (forall k, (exists a, In a l /\ S a = true /\ key a = k) <->
             (exists a, In a l /\ P a = true /\ key a = k) \/ (exists a, In a l /\ Q a = true /\ key a = k)) ->
  dcount dec key P l + dcount dec key Q l = dcount dec key S l.
Proof.
  intros Hd Hk. unfold dcount. rewrite <- app_length. apply Permutation_length, NoDup_Permutation.
  - apply NoDup_app_disjoint; [apply dkeys_NoDup|apply dkeys_NoDup|]. intros k H1 H2. apply dkeys_In in H1. apply dkeys_In in H2.
    destruct H1 as (a & Ha & Pa & Ea). destruct H2 as (b & Hb & Pb & Eb). apply (Hd a b Ha Hb Pa Pb). congruence.
  - apply dkeys_NoDup.
  - intros k. rewrite in_app_iff, !dkeys_In, Hk. tauto.
Qed.

Lemma sum_eqb_once (ids : list Z) x : NoDup ids -> In x ids -> countb (fun k => (x =? k)%Z) ids = 1.
Proof.
  induction ids as [|i t IH]; intros HN Hx; [destruct Hx|]. inversion HN; subst. unfold countb in *. cbn [filter].
  destruct (Z.eqb_spec x i) as [->|N].
  - cbn. f_equal. assert (E : filter (fun k => (i =? k)%Z) t = []); [|rewrite E; reflexivity].
    apply filter_none. intros y Hy. destruct (Z.eqb_spec i y); [subst; contradiction|reflexivity].
  - destruct Hx as [->|Hx]; [congruence|]. apply IH; assumption.
Qed.

Section Conf.
  Variables (eps t s : Z) (rows : list drow).
  Hypothesis Hok : conf_ok rows.
  Local Notation thr := (thresholded eps t s rows).

  Lemma thr_spec r : In r rows -> thr r = true <->
    In (pair_ids r) (greedy [] [] (map pair_ids rows)) /\ m_iou eps t r = true /\ m_sc eps s r = true.
  Proof.
    intros Hr. unfold thresholded. rewrite !andb_true_iff. rewrite matched_mask_spec; [tauto| |exact Hr].
    intros r' Hr'. destruct (co_ids _ Hok r' Hr'); tauto.
  Qed.
  Lemma thr_valid r : In r rows -> thr r = true -> (0 <= d_gt r)%Z /\ (0 <= d_pd r)%Z.
  Proof.
    intros Hr H. apply thr_spec in H; [|exact Hr]. destruct H as [H _]. apply greedy_In in H. destruct H as (_ & [H1 H2] & _). auto.
  Qed.

  Lemma NoDup_map_inj {A B} (f : A -> B) l x y : NoDup (map f l) -> In x l -> In y l -> f x = f y -> x = y.
  Proof. intros H. apply NoDup_map_inv_inj. exact H. Qed.

  Lemma thr_same_pd a b : In a rows -> In b rows -> thr a = true -> thr b = true -> d_pd a = d_pd b -> d_gt a = d_gt b.
  Proof.
    intros Ha Hb Ta Tb E. apply thr_spec in Ta; [|exact Ha]. apply thr_spec in Tb; [|exact Hb].
    destruct (greedy_NoDup [] [] (map pair_ids rows)) as [_ HN].
    assert (X : pair_ids a = pair_ids b) by (eapply (NoDup_map_inj snd); [exact HN|tauto|tauto|exact E]).
    unfold pair_ids in X. congruence.
  Qed.
  Lemma thr_same_gt a b : In a rows -> In b rows -> thr a = true -> thr b = true -> d_gt a = d_gt b -> d_pd a = d_pd b.
  Proof.
    intros Ha Hb Ta Tb E. apply thr_spec in Ta; [|exact Ha]. apply thr_spec in Tb; [|exact Hb].
    destruct (greedy_NoDup [] [] (map pair_ids rows)) as [HN _].
    assert (X : pair_ids a = pair_ids b) by (eapply (NoDup_map_inj fst); [exact HN|tauto|tauto|exact E]).
    unfold pair_ids in X. congruence.
  Qed.

  Lemma isin_pd r : In r rows ->
    isin (map (fun x => (d_datum x, d_pd x)) (filter thr rows)) (d_datum r, d_pd r) = true <->
    exists x, In x rows /\ thr x = true /\ d_datum x = d_datum r /\ d_pd x = d_pd r.
  Proof.
    intros Hr. rewrite isin_spec.
    - rewrite in_map_iff. split.
      + intros (x & E & Hx). apply filter_In in Hx. inversion E. exists x. tauto.
      + intros (x & Hx & Tx & E1 & E2). exists x. split; [congruence|]. apply filter_In. auto.
    - intros c d H. apply in_map_iff in H. destruct H as (x & E & Hx). apply filter_In in Hx. inversion E; subst.
      destruct Hx as [Hx Tx]. destruct (co_ids _ Hok x Hx) as (H1 & H2 & H3). destruct (thr_valid x Hx Tx). split; [exact H1|].
      unfold id_ok, id_or_absent in *. lia.
    - destruct (co_ids _ Hok r Hr) as (H1 & _). cbn. unfold id_ok, id_or_absent in *. lia.
    - destruct (co_ids _ Hok r Hr) as (_ & _ & H1). exact H1.
  Qed.
  Lemma isin_gt r : In r rows ->
    isin (map (fun x => (d_datum x, d_gt x)) (filter thr rows)) (d_datum r, d_gt r) = true <->
    exists x, In x rows /\ thr x = true /\ d_datum x = d_datum r /\ d_gt x = d_gt r.
  Proof.
    intros Hr. rewrite isin_spec.
    - rewrite in_map_iff. split.
      + intros (x & E & Hx). apply filter_In in Hx. inversion E. exists x. tauto.
      + intros (x & Hx & Tx & E1 & E2). exists x. split; [congruence|]. apply filter_In. auto.
    - intros c d H. apply in_map_iff in H. destruct H as (x & E & Hx). apply filter_In in Hx. inversion E; subst.
      destruct Hx as [Hx Tx]. destruct (co_ids _ Hok x Hx) as (H1 & H2 & H3). destruct (thr_valid x Hx Tx). split; [exact H1|].
      unfold id_ok, id_or_absent in *. lia.
    - destruct (co_ids _ Hok r Hr) as (H1 & _). cbn. unfold id_ok, id_or_absent in *. lia.
    - destruct (co_ids _ Hok r Hr) as (_ & H1 & _). exact H1.
  Qed.

  Lemma matched_thr r : dp_tp eps t s rows r || dp_misclf eps t s rows r = thr r.
  Proof. unfold dp_tp, dp_misclf. destruct (thr r), (gt_exists r && pd_exists r && label_match r); reflexivity. Qed.

  Lemma cell_count g p : dm (det_confusion eps t s rows) g p
    = dcount z5_dec row_ids (fun r => thr r && (d_gl r =? g)%Z && (d_pl r =? p)%Z) rows.
  Proof.
    unfold det_confusion. cbn [dm]. rewrite (dkeys_countb z5_dec row_ids _ (fun k => (snd (fst k) =? g)%Z && (snd k =? p)%Z)).
    apply dcount_ext. intros r _. rewrite matched_thr. unfold row_ids. cbn [fst snd]. rewrite andb_assoc. reflexivity.
  Qed.

  (* sum of cells over a list of labels *)
  Lemma sum_cells (ids : list Z) (P : drow -> bool) (key : Z * Z * Z * Z * Z -> Z) (f : drow -> Z) :
    NoDup ids -> (forall r, key (row_ids r) = f r) ->
    (forall r, In r rows -> P r = true -> In (f r) ids) ->
    list_sum_nat (map (fun g => dcount z5_dec row_ids (fun r => P r && (f r =? g)%Z) rows) ids)
    = dcount z5_dec row_ids P rows.
  Proof.
    intros HN Hk Hin.
    rewrite (list_sum_nat_ext _ (fun g => countb (fun k => (key k =? g)%Z) (dkeys z5_dec row_ids P rows))).
    2:{ intros g _. rewrite (dkeys_countb z5_dec row_ids P (fun k => (key k =? g)%Z)). apply dcount_ext. intros r _. rewrite Hk. reflexivity. }
    rewrite (list_sum_map_countb (fun g k => (key k =? g)%Z) ids). unfold dcount.
    assert (Hall : forall k, In k (dkeys z5_dec row_ids P rows) -> countb (fun g => (key k =? g)%Z) ids = 1).
    { intros k Hk'. apply sum_eqb_once; [exact HN|]. apply dkeys_In in Hk'. destruct Hk' as (r & Hr & Pr & <-). rewrite Hk. auto. }
    induction (dkeys z5_dec row_ids P rows) as [|k ks IH]; [reflexivity|]. cbn [map length].
    assert (E : forall a l, list_sum_nat (a :: l) = a + list_sum_nat l) by reflexivity.
    rewrite E, IH by (intros; apply Hall; right; assumption). rewrite Hall by (left; reflexivity). reflexivity.
  Qed.

  Lemma column_sum (ids : list Z) l : NoDup ids -> (forall r, In r rows -> (0 <= d_gt r)%Z -> In (d_gl r) ids) ->
    list_sum_nat (map (fun g => dm (det_confusion eps t s rows) g l) ids) + dm_pd (det_confusion eps t s rows) l
    = dcount zzz_dec pd_key (fun r => (0 <=? d_pd r)%Z && m_sc eps s r && (d_pl r =? l)%Z) rows.
  Proof.
    intros HN Hids.
    rewrite (list_sum_nat_ext _ (fun g => dcount z5_dec row_ids (fun r => (thr r && (d_pl r =? l)%Z) && (d_gl r =? g)%Z) rows)).
    2:{ intros g _. rewrite cell_count. apply dcount_ext. intros r _. destruct (thr r), (d_gl r =? g)%Z, (d_pl r =? l)%Z; reflexivity. }
    rewrite (sum_cells ids (fun r => thr r && (d_pl r =? l)%Z) (fun k => snd (fst k)) d_gl HN (fun r => eq_refl)).
    2:{ intros r Hr H. apply andb_true_iff in H. destruct H as [H _]. apply Hids; [exact Hr|]. apply (thr_valid r Hr H). }
    rewrite (dcount_proj z5_dec zzz_dec row_ids pd_key).
    2:{ intros a b Ha Hb Pa Pb. apply andb_true_iff in Pa, Pb. destruct Pa as [Ta La], Pb as [Tb Lb].
        unfold row_ids, pd_key. split; [intros E; inversion E; congruence|]. intros E. inversion E as [[E1 E2 E3]].
        assert (Eg := thr_same_pd a b Ha Hb Ta Tb E2). destruct (thr_valid a Ha Ta) as [H1 _].
        destruct (co_gts _ Hok a b Ha Hb H1 Eg). congruence. }
    unfold det_confusion. cbn [dm_pd]. rewrite (dkeys_countb zzz_dec pd_key _ (fun k => (snd k =? l)%Z)).
    apply dcount_union.
    - intros a b Ha Hb Pa Pb E. apply andb_true_iff in Pa, Pb. destruct Pa as [Ta La], Pb as [Ub Lb].
      unfold dp_unmatched_pd in Ub. rewrite !andb_true_iff in Ub. destruct Ub as [[Ub _] _]. apply negb_true_iff in Ub.
      unfold pd_key in E. inversion E as [[E1 E2 E3]].
      assert (X : isin (map (fun x => (d_datum x, d_pd x)) (filter thr rows)) (d_datum b, d_pd b) = true).
      { apply isin_pd; [exact Hb|]. exists a. auto. }
      congruence.
    - intros k. split.
      + intros (r & Hr & Pr & <-). rewrite !andb_true_iff in Pr. destruct Pr as [[P1 P2] P3].
        destruct (isin (map (fun x => (d_datum x, d_pd x)) (filter thr rows)) (d_datum r, d_pd r)) eqn:Ei.
        * left. apply isin_pd in Ei; [|exact Hr]. destruct Ei as (x & Hx & Tx & E1 & E2).
          destruct (thr_valid x Hx Tx) as [G1 G2].
          destruct (co_closed _ Hok x r Hx Hr G1 G2 E2) as (c & Hc & C1 & C2 & C3 & C4 & C5 & C6 & C7).
          exists c. split; [exact Hc|]. split.
          -- apply andb_true_iff. split; [|rewrite C5; exact P3]. apply thr_spec; [exact Hc|]. apply thr_spec in Tx; [|exact Hx].
             destruct Tx as (T1 & T2 & T3). split; [|split].
             ++ assert (X : pair_ids c = pair_ids x) by (unfold pair_ids; congruence). rewrite X. exact T1.
             ++ unfold m_iou in *. rewrite C7. exact T2.
             ++ unfold m_sc in *. rewrite C6. exact P2.
          -- unfold pd_key. congruence.
        * right. exists r. split; [exact Hr|]. split; [|reflexivity]. unfold dp_unmatched_pd, pd_exists. cbn [snd pd_key].
          rewrite Ei. cbn [negb andb]. rewrite P1, P2. exact P3.
      + intros [(r & Hr & Pr & <-)|(r & Hr & Pr & <-)]; apply andb_true_iff in Pr; destruct Pr as [P1 P2]; exists r; split; auto; split; auto.
        * assert (V := thr_valid r Hr P1). apply thr_spec in P1; [|exact Hr]. destruct P1 as (_ & _ & P1). rewrite P1, P2.
          rewrite andb_true_r. rewrite andb_true_r. lia.
        * unfold dp_unmatched_pd, pd_exists in P1. rewrite !andb_true_iff in P1. destruct P1 as [[_ P1] P3]. rewrite P1, P3. exact P2.
  Qed.

  Lemma row_sum (ids : list Z) g : NoDup ids -> (forall r, In r rows -> (0 <= d_pd r)%Z -> In (d_pl r) ids) ->
    (forall a b, In a rows -> In b rows -> (0 <= d_pd a)%Z -> d_pd a = d_pd b -> d_pl a = d_pl b) ->
    list_sum_nat (map (fun p => dm (det_confusion eps t s rows) g p) ids) + dm_gt (det_confusion eps t s rows) g
    = dcount zzz_dec gt_key (fun r => (0 <=? d_gt r)%Z && (d_gl r =? g)%Z) rows.
  Proof.
    intros HN Hids H1.
    rewrite (list_sum_nat_ext _ (fun p => dcount z5_dec row_ids (fun r => (thr r && (d_gl r =? g)%Z) && (d_pl r =? p)%Z) rows)).
    2:{ intros p _. apply cell_count. }
    rewrite (sum_cells ids (fun r => thr r && (d_gl r =? g)%Z) (fun k => snd k) d_pl HN (fun r => eq_refl)).
    2:{ intros r Hr H. apply andb_true_iff in H. destruct H as [H _]. apply Hids; [exact Hr|]. apply (thr_valid r Hr H). }
    rewrite (dcount_proj z5_dec zzz_dec row_ids gt_key).
    2:{ intros a b Ha Hb Pa Pb. apply andb_true_iff in Pa, Pb. destruct Pa as [Ta La], Pb as [Tb Lb].
        unfold row_ids, gt_key. split; [intros E; inversion E; congruence|]. intros E. inversion E as [[E1 E2 E3]].
        assert (Ep := thr_same_gt a b Ha Hb Ta Tb E2). destruct (thr_valid a Ha Ta) as [_ H2].
        assert (El := H1 a b Ha Hb H2 Ep). congruence. }
    unfold det_confusion. cbn [dm_gt]. rewrite (dkeys_countb zzz_dec gt_key _ (fun k => (snd k =? g)%Z)).
    apply dcount_union.
    - intros a b Ha Hb Pa Pb E. apply andb_true_iff in Pa, Pb. destruct Pa as [Ta La], Pb as [Ub Lb].
      unfold dp_unmatched_gt in Ub. rewrite !andb_true_iff in Ub. destruct Ub as [Ub _]. apply negb_true_iff in Ub.
      unfold gt_key in E. inversion E as [[E1 E2 E3]].
      assert (X : isin (map (fun x => (d_datum x, d_gt x)) (filter thr rows)) (d_datum b, d_gt b) = true).
      { apply isin_gt; [exact Hb|]. exists a. auto. }
      congruence.
    - intros k. split.
      + intros (r & Hr & Pr & <-). rewrite !andb_true_iff in Pr. destruct Pr as [P1 P3].
        destruct (isin (map (fun x => (d_datum x, d_gt x)) (filter thr rows)) (d_datum r, d_gt r)) eqn:Ei.
        * left. apply isin_gt in Ei; [|exact Hr]. destruct Ei as (x & Hx & Tx & E1 & E2).
          destruct (thr_valid x Hx Tx) as [G1 G2]. destruct (co_gts _ Hok x r Hx Hr G1 E2) as [_ E3].
          exists x. split; [exact Hx|]. split; [rewrite Tx, E3; exact P3|unfold gt_key; congruence].
        * right. exists r. split; [exact Hr|]. split; [|reflexivity]. unfold dp_unmatched_gt, gt_exists. cbn [snd gt_key].
          rewrite Ei. cbn [negb andb]. rewrite P1. exact P3.
      + intros [(r & Hr & Pr & <-)|(r & Hr & Pr & <-)]; apply andb_true_iff in Pr; destruct Pr as [P1 P2]; exists r; split; auto; split; auto.
        * assert (V := thr_valid r Hr P1). rewrite P2, andb_true_r. lia.
        * unfold dp_unmatched_gt, gt_exists in P1. rewrite !andb_true_iff in P1. destruct P1 as [_ P1]. rewrite P1. exact P2.
  Qed.
End Conf.

(* ------------------------------------------------------------------ *)
(** * All tables *)

Lemma eval_confusion_sums eps t s datums tables :
  forall g p, dm (eval_confusion eps t s datums tables) g p = list_sum_nat (map (fun tb => dm (det_confusion eps t s (filter datums tb)) g p) tables)
  /\ dm_gt (eval_confusion eps t s datums tables) g = list_sum_nat (map (fun tb => dm_gt (det_confusion eps t s (filter datums tb)) g) tables)
  /\ dm_pd (eval_confusion eps t s datums tables) p = list_sum_nat (map (fun tb => dm_pd (det_confusion eps t s (filter datums tb)) p) tables).
Proof.
  intros g p. unfold eval_confusion.
  assert (G : forall tbs acc,
    let E := fold_left (fun acc tb => dconf_add acc (det_confusion eps t s (filter datums tb))) tbs acc in
    dm E g p = dm acc g p + list_sum_nat (map (fun tb => dm (det_confusion eps t s (filter datums tb)) g p) tbs)
    /\ dm_gt E g = dm_gt acc g + list_sum_nat (map (fun tb => dm_gt (det_confusion eps t s (filter datums tb)) g) tbs)
    /\ dm_pd E p = dm_pd acc p + list_sum_nat (map (fun tb => dm_pd (det_confusion eps t s (filter datums tb)) p) tbs)).
  { induction tbs as [|tb u IH]; intros acc; cbn zeta.
    - cbn. rewrite !Nat.add_0_r. auto.
    - cbn [fold_left map]. destruct (IH (dconf_add acc (det_confusion eps t s (filter datums tb)))) as (I1 & I2 & I3).
      rewrite I1, I2, I3. unfold list_sum_nat. cbn [fold_right dconf_add dm dm_gt dm_pd]. split; [|split]; lia. }
  apply (G tables dconf_zero).
Qed.

Section Stored.
  Variables (eps unit : Z) (ds : list detection) (L : list String.string) (tables : list (list drow)).
  Hypothesis Hin : det_input unit ds.
  Hypothesis Hst : det_stored eps ds L tables.
  Hypothesis Hfew : few_annotations ds.
  Hypothesis Hdis : Forall distinct_pd_labels ds.
  Variables (sel : detection -> bool) (datums : drow -> bool).
  Hypothesis Hsel : selects_ids ds datums sel.

  Lemma table_conf_ok tb : In tb tables -> conf_ok (filter datums tb).
  Proof.
    intros Htb. assert (I : forall r, In r (filter datums tb) -> In r (concat tables)).
    { intros r Hr. apply filter_In in Hr. apply in_concat. exists tb. tauto. }
    split.
    - intros r Hr. apply (stored_ids eps unit ds L tables Hin Hst Hfew r (I r Hr)).
    - intros a b Ha Hb. apply (stored_gts eps unit ds L tables Hin Hst a b (I a Ha) (I b Hb)).
    - intros a b Ha Hb. apply (stored_pds_in_one eps unit ds L tables Hin Hst a b (I a Ha) (I b Hb)).
    - intros a b Ha Hb. apply (stored_scores eps unit ds L tables Hin Hst Hdis a b (I a Ha) (I b Hb)).
    - intros a b Ha Hb. apply (stored_pair_iou eps unit ds L tables Hin Hst a b (I a Ha) (I b Hb)).
    - intros a b Ha Hb H1 H2 E.
      destruct (stored_closure eps unit ds L tables Hin Hst a b (I a Ha) (I b Hb) H1 H2 E) as (c & Hc & C1 & C).
      exists c. split; [|split; [exact C1|exact C]]. apply filter_In in Hb. destruct Hb as [Hb Sb]. apply filter_In. split.
      + apply (pd_rows_table eps unit ds L tables Hin Hst tb b c Htb Hb Hc); [lia|tauto].
      + rewrite <- Sb. destruct (stored_datum eps unit ds L tables Hin Hst c Hc) as (i & d & Hi & Ei).
        rewrite (Hsel c i d Ei Hi), (Hsel b i d); congruence.
  Qed.

  Lemma aligned_filter : aligned d_datum (map (filter datums) tables).
  Proof.
    intros i j ti tj a b Hi Hj Ha Hb E. rewrite nth_error_map in Hi, Hj.
    destruct (nth_error tables i) as [ti'|] eqn:Ei; [|discriminate]. destruct (nth_error tables j) as [tj'|] eqn:Ej; [|discriminate].
    cbn in Hi, Hj. inversion Hi; subst ti. inversion Hj; subst tj. apply filter_In in Ha, Hb.
    apply (stored_aligned eps ds L tables Hst i j ti' tj' a b Ei Ej); tauto.
  Qed.

  Lemma dcount_tables (key : drow -> Z * Z * Z) (P : drow -> bool) : (forall r, fst (fst (key r)) = d_datum r) ->
    list_sum_nat (map (fun tb => dcount zzz_dec key P (filter datums tb)) tables) = dcount zzz_dec key P (filter datums (concat tables)).
  Proof.
    intros Hk. rewrite filter_concat, <- (map_map (filter datums)). symmetry. apply dcount_concat.
    intros i j li lj a b Hi Hj N Ha Hb _ _ E. apply N. apply (aligned_filter i j li lj a b Hi Hj Ha Hb).
    rewrite <- (Hk a), <- (Hk b), E. reflexivity.
  Qed.

  Definition label_ids : list Z := map Z.of_nat (seq 0 (length L)).
  Lemma label_ids_NoDup : NoDup label_ids.
  Proof. apply FinFun.Injective_map_NoDup; [intros a b; apply Nat2Z.inj|apply seq_NoDup]. Qed.
  Lemma label_ids_In i v : index_of v L = Some i -> In (Z.of_nat i) label_ids.
  Proof.
    intros H. apply in_map. apply in_seq. apply index_of_nth in H. split; [lia|]. cbn. apply nth_error_Some. congruence.
  Qed.

  Variables (t s : Z) (v : String.string) (vi : nat).
  Hypothesis Hv : index_of v L = Some vi.

  Lemma confusion_column :
    list_sum_nat (map (fun g => dm (eval_confusion eps t s datums tables) g (Z.of_nat vi)) label_ids)
    + dm_pd (eval_confusion eps t s datums tables) (Z.of_nat vi)
    = pds_with sel (fun sc => (eps <? sc)%Z && (s <=? sc)%Z) ds v.
  Proof.
    rewrite <- (stored_pd_count eps unit ds L tables Hin Hst sel _ datums v vi Hsel Hv Hdis).
    rewrite <- (dcount_tables pd_key) by reflexivity.
    rewrite (list_sum_nat_ext _ (fun g => list_sum_nat (map (fun tb => dm (det_confusion eps t s (filter datums tb)) g (Z.of_nat vi)) tables)))
      by (intros g _; apply (eval_confusion_sums eps t s datums tables g (Z.of_nat vi))).
    rewrite (proj2 (proj2 (eval_confusion_sums eps t s datums tables 0%Z (Z.of_nat vi)))).
    rewrite list_sum_swap. rewrite <- list_sum_nat_add. apply list_sum_nat_ext. intros tb Htb.
    rewrite (column_sum eps t s (filter datums tb) (table_conf_ok tb Htb) label_ids (Z.of_nat vi) label_ids_NoDup).
    - reflexivity.
    - intros r Hr H0. apply filter_In in Hr. destruct Hr as [Hr _].
      assert (Hd : In r (concat tables)) by (apply in_concat; eauto). apply (stored_rows eps unit ds L tables Hin Hst) in Hd.
      destruct (described_gt _ _ _ _ Hd H0) as (i & d & g & ga & j & gl & gi & _ & _ & _ & Hx & _ & _ & E & _).
      rewrite E. apply (label_ids_In gi gl Hx).
  Qed.

  Lemma confusion_row : Forall single_pd_labels ds ->
    list_sum_nat (map (fun p => dm (eval_confusion eps t s datums tables) (Z.of_nat vi) p) label_ids)
    + dm_gt (eval_confusion eps t s datums tables) (Z.of_nat vi)
    = gts_with sel ds v.
  Proof.
    intros H1. rewrite <- (stored_gt_count eps unit ds L tables Hin Hst sel datums v vi Hsel Hv).
    rewrite <- (dcount_tables gt_key) by reflexivity.
    rewrite (list_sum_nat_ext _ (fun p => list_sum_nat (map (fun tb => dm (det_confusion eps t s (filter datums tb)) (Z.of_nat vi) p) tables)))
      by (intros p _; apply (eval_confusion_sums eps t s datums tables (Z.of_nat vi) p)).
    rewrite (proj1 (proj2 (eval_confusion_sums eps t s datums tables (Z.of_nat vi) 0%Z))).
    rewrite list_sum_swap. rewrite <- list_sum_nat_add. apply list_sum_nat_ext. intros tb Htb.
    apply (row_sum eps t s (filter datums tb) (table_conf_ok tb Htb) label_ids (Z.of_nat vi) label_ids_NoDup).
    - intros r Hr H0. apply filter_In in Hr. destruct Hr as [Hr _].
      assert (Hd : In r (concat tables)) by (apply in_concat; eauto). apply (stored_rows eps unit ds L tables Hin Hst) in Hd.
      destruct (described_pd _ _ _ _ Hd H0) as (i & d & p & pa & n & pl & s' & pi & _ & _ & _ & _ & Hx & _ & _ & E & _).
      rewrite E. apply (label_ids_In pi pl Hx).
    - intros a b Ha Hb H0 E. apply filter_In in Ha, Hb. destruct Ha as [Ha _], Hb as [Hb _].
      assert (Hda : In a (concat tables)) by (apply in_concat; eauto). assert (Hdb : In b (concat tables)) by (apply in_concat; eauto).
      apply (stored_rows eps unit ds L tables Hin Hst) in Hda. apply (stored_rows eps unit ds L tables Hin Hst) in Hdb.
      destruct (described_pd _ _ _ _ Hda H0) as (i & d & p & pa & n & pl & s1 & pi & Hi & Hp & Hn & _ & Hx & _ & E2 & E3 & _).
      assert (H0' : (0 <= d_pd b)%Z) by lia.
      destruct (described_pd _ _ _ _ Hdb H0') as (i' & d' & p' & pa' & n' & pl' & s2 & pi' & Hi' & Hp' & Hn' & _ & Hx' & _ & F2 & F3 & _).
      assert (E0 : pd_id ds i' p' = pd_id ds i p) by congruence.
      destruct (pd_id_inj ds i' i d' d p' p pa' pa Hi' Hi Hp' Hp E0) as [-> ->].
      assert (d' = d) by congruence. subst d'. assert (pa' = pa) by congruence. subst pa'.
      rewrite Forall_forall in H1. specialize (H1 d (nth_error_In _ _ Hi) pa (nth_error_In _ _ Hp)).
      destruct (a_labels pa) as [|x [|y u]]; try discriminate. destruct n as [|n]; [|destruct n; discriminate].
      destruct n' as [|n']; [|destruct n'; discriminate]. cbn in Hn, Hn'. congruence.
  Qed.
End Stored.
