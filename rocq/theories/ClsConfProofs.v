(* Confusion matrices, and counts without hardmax. *)
From Verif Require Import Prelude CacheSpec Counting ClsModel ClsSpec ClsLabelProofs ClsProofs.
From Coq Require Import String QArith.
Local Open Scope nat_scope.
Local Open Scope list_scope.

Lemma decides_positives tol thr c l :
  opt_is (decides (fun s => (tol <? Z.abs s)%Z) thr c) l = smem l (positives true (pass_counts tol thr) c).
Proof.
  unfold decides, positives, pass_counts. destruct (top c) as [[x s]|]; [|reflexivity].
  destruct ((thr <=? s)%Z && (tol <? Z.abs s)%Z); cbn; [|reflexivity].
  rewrite orb_false_r. apply String.eqb_sym.
Qed.

Section Masks.
  Variable cs : list classification.
  Hypothesis Hacc : Forall accepted cs.
  Local Notation L := (labels_of cs).
  Variable hm : bool.
  Variable pass : Z -> bool.
  Variable m : crow -> bool.
  Hypothesis Hm : forall r, m r = pass (r_score r) && (if hm then r_winner r else true).

  (* a label is positive iff some row with that label passes *)
  Lemma positive_row d c l : nth_error cs d = Some c ->
    (exists r, In r (canon_rows L d c) /\ m r = true /\ r_pd_label r = l) <-> In l (positives hm pass c).
  Proof.
    intros Hc. unfold positives. destruct hm eqn:Eh.
    - destruct (top_some cs Hacc d c Hc) as (tl & ts & Ht). rewrite Ht. split.
      + intros (r & Hr & H & Hl). rewrite Hm, andb_true_iff in H. destruct H as (Hp & Hw).
        destruct (winner_row cs Hacc d c r tl ts Hc Hr Ht Hw) as [H1 H2]. rewrite H2 in Hp. rewrite Hp.
        left. congruence.
      + destruct (pass ts) eqn:Ep; [|intros []]. intros [<-|[]].
        destruct (winner_exists cs Hacc d c tl ts Hc Ht) as (r & Hr & Hw & Hl & Hs).
        exists r. rewrite Hm, Hs, Ep, Hw. auto.
    - rewrite in_map_iff. split.
      + intros (r & Hr & H & Hl). rewrite Hm, andb_true_r in H. exists (l, r_score r).
        split; [reflexivity|]. apply filter_In. apply canon_In in Hr.
        destruct Hr as (_ & _ & _ & _ & _ & Hin & _). rewrite Hl in Hin. auto.
      + intros ([a s] & E & Hin). cbn in E. subst a. apply filter_In in Hin. destruct Hin as [Hin Hp].
        destruct (canon_In_conv L d c _ _ Hin) as (r & Hr & H1 & H2). exists r. rewrite Hm, H2.
        cbn in Hp. rewrite Hp. auto.
  Qed.

  Lemma positive_any d c : nth_error cs d = Some c ->
    existsb m (canon_rows L d c) = negb (match positives hm pass c with [] => true | _ => false end).
  Proof.
    intros Hc. destruct (positives hm pass c) as [|l ls] eqn:E; cbn.
    - apply not_true_is_false. intros H. apply existsb_exists in H. destruct H as (r & Hr & H).
      assert (In (r_pd_label r) (positives hm pass c)) by (apply (positive_row d c); eauto).
      rewrite E in H0. destruct H0.
    - assert (In l (positives hm pass c)) by (rewrite E; left; reflexivity).
      apply (positive_row d c) in H; [|exact Hc]. destruct H as (r & Hr & H & _).
      apply existsb_exists. eauto.
  Qed.

  Lemma pd_eqb d c r l : nth_error cs d = Some c -> In r (canon_rows L d c) -> In l L ->
    (r_pd r =? idx L l)%Z = String.eqb (r_pd_label r) l.
  Proof.
    intros Hc Hr Hl. apply canon_In in Hr. destruct Hr as (_ & _ & _ & _ & -> & Hin & _). apply idx_eqb; [|exact Hl].
    apply (labels_of_pd cs c _ (nth_error_In _ _ Hc) Hin).
  Qed.
  Lemma gt_eqb d c r l : nth_error cs d = Some c -> In r (canon_rows L d c) -> In l L ->
    (r_gt r =? idx L l)%Z = String.eqb (c_groundtruth c) l.
  Proof.
    intros Hc Hr Hl. apply canon_In in Hr. destruct Hr as (_ & _ & _ & -> & _). apply idx_eqb; [|exact Hl].
    apply labels_of_gt. eapply nth_error_In; eauto.
  Qed.

  Definition cm_total (datums : crow -> bool) (tables : list (list crow)) (g p : Z) : nat :=
    list_sum_nat (map (fun t => cm (confusion_of m (filter datums t)) g p) tables).
  Definition unmatched_total (datums : crow -> bool) (tables : list (list crow)) (g : Z) : nat :=
    list_sum_nat (map (fun t => cm_unmatched (confusion_of m (filter datums t)) g) tables).

  Lemma tp_or_misclf r : pc_tp m r || pc_misclf m r = m r.
  Proof. unfold pc_tp, pc_misclf. destruct (isclose_label (r_gt r) (r_pd r)), (m r); reflexivity. Qed.

  Lemma cm_dcount rows g p :
    cm (confusion_of m rows) g p
    = dcount zzz_dec key3 (fun r => m r && ((r_gt r =? g)%Z && (r_pd r =? p)%Z)) rows.
  Proof.
    cbn [cm confusion_of]. rewrite dkeys_countb. cbn [fst snd].
    apply dcount_ext. intros r _. rewrite tp_or_misclf. reflexivity.
  Qed.

  Theorem cm_meaning tables datums sel g p :
    stored cs tables -> selects cs tables datums sel -> In g L -> In p L ->
    cm_total datums tables (idx L g) (idx L p)
    = countb (fun c => sel c && (String.eqb (c_groundtruth c) g && smem p (positives hm pass c))) cs.
  Proof.
    intros Hst Hsel Hg Hp. unfold cm_total.
    rewrite (list_sum_nat_ext _ (fun t => dcount zzz_dec key3
       (fun r => m r && ((r_gt r =? idx L g)%Z && (r_pd r =? idx L p)%Z)) (filter datums t))) by (intros; apply cm_dcount).
    rewrite (sum_dcount cs Hacc zzz_dec _ tables datums sel _
       (fun c => if String.eqb (c_groundtruth c) g && smem p (positives hm pass c) then 1 else 0) Hst Hsel).
    - apply list_sum_sel.
    - unfold key3. intros a b E. congruence.
    - intros d c Hc. rewrite (dcount_one zzz_dec key3 _ _ (Z.of_nat d, idx L g, idx L p)).
      + apply if_bool_eq. apply existsb_iff. rewrite andb_true_iff, smem_In, String.eqb_eq.
        rewrite <- (positive_row d c p Hc). split.
        * intros (r & Hr & H). rewrite !andb_true_iff in H. destruct H as (H1 & H2 & H3).
          rewrite (gt_eqb d c r g Hc Hr Hg), String.eqb_eq in H2.
          rewrite (pd_eqb d c r p Hc Hr Hp), String.eqb_eq in H3. eauto.
        * intros (H2 & r & Hr & H1 & H3). exists r. split; [exact Hr|].
          rewrite (gt_eqb d c r g Hc Hr Hg), (pd_eqb d c r p Hc Hr Hp), H1, H2, H3, !String.eqb_refl. reflexivity.
      + intros r Hr H. rewrite !andb_true_iff in H. unfold key3. apply canon_In in Hr.
        destruct Hr as (_ & -> & _). f_equal; [f_equal|]; lia.
  Qed.

  (* "unmatched" of a row can be decided inside its datum *)
  Lemma unmatched_local tables datums sel t r d c :
    stored cs tables -> selects cs tables datums sel -> In t tables -> In r (filter datums t) ->
    nth_error cs d = Some c -> In r (canon_rows L d c) ->
    pc_unmatched m (filter datums t) r = negb (existsb m (canon_rows L d c)).
  Proof.
    intros Hst Hsel Ht Hr Hc Hrc. unfold pc_unmatched. f_equal. apply eq_true_iff_eq. rewrite !existsb_exists.
    apply filter_In in Hr. destruct Hr as [Hrt Hrd].
    assert (Hrall : In r (List.concat tables)) by (apply in_concat; eauto).
    pose proof (canon_In _ _ _ _ Hrc) as (_ & Hd & _ & Hg & _). split.
    - intros (r' & Hr' & H). apply andb_true_iff in H. destruct H as (H1 & H2).
      apply filter_In in Hr'. destruct Hr' as [Hr't Hr'd].
      assert (In r' (List.concat tables)) by (apply in_concat; eauto).
      destruct (stored_row cs Hacc tables r' Hst H) as (d' & c' & Hc' & Hrc' & _).
      pose proof (canon_In _ _ _ _ Hrc') as (_ & Hd' & _).
      unfold same_gt in H2. apply andb_true_iff in H2. destruct H2 as [H2 _].
      assert (d' = d) by lia. subst d'. rewrite Hc in Hc'. injection Hc' as <-. exists r'. auto.
    - intros (r' & Hr' & H1). pose proof (stored_row_conv cs Hacc tables d c r' Hst Hc Hr') as Hall.
      pose proof (canon_In _ _ _ _ Hr') as (_ & Hd' & _ & Hg' & _).
      apply in_concat in Hall. destruct Hall as (t' & Ht' & Hr't').
      exists r'. split.
      + apply filter_In. split.
        * apply In_nth_error in Ht. apply In_nth_error in Ht'. destruct Ht as (i & Hi), Ht' as (j & Hj).
          assert (i = j) by (apply (proj2 Hst i j t t' r r'); auto; congruence). subst j.
          rewrite Hi in Hj. injection Hj as <-. exact Hr't'.
        * rewrite <- Hrd. rewrite (Hsel r d c Hrall Hd Hc). apply (Hsel r' d c); auto.
          apply in_concat; eauto.
      + rewrite H1. unfold same_gt. rewrite Hd, Hg, Hd', Hg', !Z.eqb_refl. reflexivity.
  Qed.

  Theorem unmatched_meaning tables datums sel g :
    stored cs tables -> selects cs tables datums sel -> In g L ->
    unmatched_total datums tables (idx L g)
    = countb (fun c => sel c && (String.eqb (c_groundtruth c) g
                && match positives hm pass c with [] => true | _ => false end)) cs.
  Proof.
    intros Hst Hsel Hg. unfold unmatched_total.
    set (U := fun r => negb (existsb (fun r' => m r' && (r_datum r' =? r_datum r)%Z) (List.concat tables))).
    assert (HU : forall d c r, nth_error cs d = Some c -> In r (canon_rows L d c) ->
                   U r = negb (existsb m (canon_rows L d c))).
    { intros d c r Hc Hr. unfold U. f_equal. apply eq_true_iff_eq. rewrite !existsb_exists.
      pose proof (canon_In _ _ _ _ Hr) as (_ & Hd & _). split.
      - intros (r' & Hr' & H). apply andb_true_iff in H. destruct H as (H1 & H2).
        destruct (stored_row cs Hacc tables r' Hst Hr') as (d' & c' & Hc' & Hrc' & _).
        pose proof (canon_In _ _ _ _ Hrc') as (_ & Hd' & _).
        assert (d' = d) by lia. subst d'. rewrite Hc in Hc'. injection Hc' as <-. exists r'. auto.
      - intros (r' & Hr' & H). exists r'. split; [eapply stored_row_conv; eauto|].
        pose proof (canon_In _ _ _ _ Hr') as (_ & Hd' & _). rewrite H, Hd, Hd', Z.eqb_refl. reflexivity. }
    rewrite (list_sum_nat_ext _ (fun t => dcount zz_dec key2
       (fun r => U r && (r_gt r =? idx L g)%Z) (filter datums t))).
    2: { intros t Ht. cbn [cm_unmatched confusion_of]. rewrite dkeys_countb. cbn [snd].
         apply dcount_ext. intros r Hr. f_equal.
         assert (Hrall : In r (List.concat tables)) by (apply filter_In in Hr; apply in_concat; exists t; tauto).
         destruct (stored_row cs Hacc tables r Hst Hrall) as (d & c & Hc & Hrc & _).
         rewrite (unmatched_local tables datums sel t r d c); auto. symmetry. apply HU; auto. }
    rewrite (sum_dcount cs Hacc zz_dec _ tables datums sel _
       (fun c => if String.eqb (c_groundtruth c) g && match positives hm pass c with [] => true | _ => false end then 1 else 0) Hst Hsel).
    - apply list_sum_sel.
    - unfold key2. intros a b E. congruence.
    - intros d c Hc. unfold key2. rewrite (dcount_one zz_dec _ _ _ (Z.of_nat d, idx L g)).
      + apply if_bool_eq. apply existsb_iff. rewrite andb_true_iff, String.eqb_eq.
        pose proof (positive_any d c Hc) as Hany. split.
        * intros (r & Hr & H). rewrite !andb_true_iff in H. destruct H as (H1 & H2).
          rewrite (gt_eqb d c r g Hc Hr Hg), String.eqb_eq in H2.
          rewrite (HU d c r Hc Hr), Hany, negb_involutive in H1. auto.
        * intros (H2 & H1). destruct (canon_split L d c (acc_of cs Hacc d c Hc)) as (pre & w & post & E & _).
          assert (Hw : In w (canon_rows L d c)) by (rewrite E; apply in_app_iff; right; left; reflexivity).
          exists w. split; [exact Hw|].
          rewrite (gt_eqb d c w g Hc Hw Hg), H2, String.eqb_refl, (HU d c w Hc Hw), Hany, negb_involutive, H1. reflexivity.
      + intros r Hr H. rewrite !andb_true_iff in H. apply canon_In in Hr.
        destruct Hr as (_ & -> & _). f_equal; lia.
  Qed.
End Masks.

(* the masks of a list of thresholds *)
Lemma score_masks_nth hm thrs : forall acc k thr r,
  nth_error thrs k = Some thr ->
  exists m, nth_error (score_masks hm acc thrs) k = Some m
    /\ m r = acc r && forallb (fun t => (t <=? r_score r)%Z) (firstn (S k) thrs)
             && (if hm then r_winner r else true).
Proof.
  induction thrs as [|t ts IH]; intros acc k thr r H; [destruct k; discriminate|].
  destruct k as [|k].
  - exists (step_mask hm acc t). cbn. split; [reflexivity|]. unfold step_mask. rewrite andb_true_r. reflexivity.
  - cbn [nth_error] in H. cbn [score_masks].
    destruct (IH (step_mask hm acc t) k thr r H) as (m & Hm & Er). exists m. cbv zeta. cbn [nth_error].
    split; [exact Hm|]. rewrite Er. unfold step_mask. cbn [firstn forallb].
    destruct (acc r), (t <=? r_score r)%Z, (if hm then r_winner r else true); cbn; rewrite ?andb_true_r, ?andb_false_r; reflexivity.
Qed.

Lemma masks_nth tol9 hm thrs k thr :
  nth_error thrs k = Some thr ->
  exists m, nth_error (masks tol9 hm thrs) k = Some m
    /\ forall r, m r = pass_cm tol9 (firstn (S k) thrs) (r_score r) && (if hm then r_winner r else true).
Proof.
  intros H. unfold masks.
  destruct (nth_error (score_masks hm (fun r => (tol9 <? r_score r)%Z) thrs) k) as [m|] eqn:E.
  - exists m. split; [reflexivity|]. intros r.
    destruct (score_masks_nth hm thrs (fun r => (tol9 <? r_score r)%Z) k thr r H) as (m' & E' & Hm).
    rewrite E in E'. injection E' as <-. exact Hm.
  - exfalso. destruct thrs as [|t ts]; [destruct k; discriminate|].
    destruct (score_masks_nth hm (t :: ts) (fun r => (tol9 <? r_score r)%Z) k thr
                (MkRow "" 0 "" 0 "" 0 0 false false) H) as (m' & E' & _). congruence.
Qed.

Lemma masks_length tol9 hm thrs : List.length (masks tol9 hm thrs) = List.length thrs.
Proof.
  unfold masks. generalize (fun r : crow => (tol9 <? r_score r)%Z). induction thrs as [|t ts IH]; intros a; [reflexivity|].
  cbn. rewrite IH. reflexivity.
Qed.

Lemma conf_fold m datums tables : forall acc g p,
  cm (fold_left (fun acc t => conf_add acc (confusion_of m (filter datums t))) tables acc) g p
  = cm acc g p + cm_total m datums tables g p
  /\ cm_unmatched (fold_left (fun acc t => conf_add acc (confusion_of m (filter datums t))) tables acc) g
  = cm_unmatched acc g + unmatched_total m datums tables g.
Proof.
  induction tables as [|t ts IH]; intros acc g p.
  - cbn. lia.
  - cbn [fold_left]. destruct (IH (conf_add acc (confusion_of m (filter datums t))) g p) as [H1 H2].
    rewrite H1, H2. unfold cm_total, unmatched_total. cbn [map]. unfold list_sum_nat. cbn [fold_right].
    cbn [cm cm_unmatched conf_add]. lia.
Qed.

Lemma evaluate_confusion_nth tol9 hm thrs datums tables k thr :
  nth_error thrs k = Some thr ->
  exists m M, nth_error (masks tol9 hm thrs) k = Some m
    /\ (forall r, m r = pass_cm tol9 (firstn (S k) thrs) (r_score r) && (if hm then r_winner r else true))
    /\ nth_error (evaluate_confusion tol9 hm thrs datums tables) k = Some M
    /\ (forall g p, cm M g p = cm_total m datums tables g p)
    /\ (forall g, cm_unmatched M g = unmatched_total m datums tables g).
Proof.
  intros H. destruct (masks_nth tol9 hm thrs k thr H) as (m & Hm & Er).
  eexists m, _. split; [exact Hm|]. split; [exact Er|]. unfold evaluate_confusion.
  rewrite nth_error_map, Hm. cbn. split; [reflexivity|].
  split; intros; [destruct (conf_fold m datums tables conf_zero g p) as [E _]|destruct (conf_fold m datums tables conf_zero g 0%Z) as [_ E]];
    rewrite E; reflexivity.
Qed.

(* ------------------------------------------------------------------ *)
(** * Counts without hardmax *)

Section Soft.
  Variable cs : list classification.
  Hypothesis Hacc : Forall accepted cs.
  Hypothesis Hfew : few_labels cs.
  Variables tol thr : Z.
  Local Notation L := (labels_of cs).
  Let pass := pass_counts tol thr.

  Lemma soft_score r : m_score tol false thr r = pass (r_score r).
  Proof. unfold m_score, pass, pass_counts. rewrite andb_true_r. apply andb_comm. Qed.

  Lemma soft_row d c l : nth_error cs d = Some c ->
    (exists r, In r (canon_rows L d c) /\ m_score tol false thr r = true /\ r_pd_label r = l)
    <-> In l (positives false pass c).
  Proof.
    intros Hc. apply (positive_row cs Hacc false pass (m_score tol false thr)); auto.
    intros r. rewrite soft_score, andb_true_r. reflexivity.
  Qed.

  (* with distinct candidates there is at most one row per label *)
  Lemma countb_label d c (P : crow -> bool) l : nth_error cs d = Some c -> distinct_candidates c -> In l L ->
    countb (fun r => P r && (r_pd r =? idx L l)%Z) (canon_rows L d c)
    = if existsb (fun r => P r && (r_pd r =? idx L l)%Z) (canon_rows L d c) then 1 else 0.
  Proof.
    intros Hc Hd Hl. rewrite <- (dcount_inj zz_dec (fun r => (r_datum r, r_pd r))).
    - rewrite dkey_pd_const with (cs := cs) by exact Hc. reflexivity.
    - pose proof (acc_of cs Hacc d c Hc) as Ha.
      assert (Hnd : NoDup (canon_rows L d c)).
      { unfold canon_rows, mapi. apply (NoDup_map_inv r_pd_label). rewrite map_mapi_from.
        rewrite (mapi_from_const _ fst) by reflexivity. unfold candidates. rewrite combine_fst by apply Ha. exact Hd. }
      assert (forall rows, NoDup rows -> (forall r, In r rows -> In r (canon_rows L d c)) ->
               NoDup (map (fun r => (r_datum r, r_pd r)) rows)) as H.
      { intros rows Hn Hin. induction Hn as [|r rows Hr Hn IH]; cbn; constructor.
        - rewrite in_map_iff. intros (r' & E & Hr'). apply Hr.
          assert (r_pd_label r' = r_pd_label r).
          { pose proof (Hin r (or_introl eq_refl)) as I1. pose proof (Hin r' (or_intror Hr')) as I2.
            pose proof (canon_In _ _ _ _ I1) as (_ & _ & _ & _ & P1 & C1 & _).
            pose proof (canon_In _ _ _ _ I2) as (_ & _ & _ & _ & P2 & C2 & _).
            apply String.eqb_eq. rewrite <- (idx_eqb L).
            - injection E as _ E. rewrite <- P1, <- P2. lia.
            - apply (labels_of_pd cs c _ (nth_error_In _ _ Hc) C2).
            - apply (labels_of_pd cs c _ (nth_error_In _ _ Hc) C1). }
          assert (r' = r) by (apply (rows_label_inj cs d c); auto; apply Hin; cbn; auto). congruence.
        - apply IH. intros; apply Hin; right; auto. }
      apply H; [apply NoDup_filter; exact Hnd|]. intros r Hr. apply filter_In in Hr. tauto.
  Qed.

  Theorem counts_soft tables datums sel l :
    Forall distinct_candidates cs ->
    stored cs tables -> selects cs tables datums sel -> In l L ->
    total tol false thr datums tables (idx L l)
    = MkCounts (countb (fun c => sel c && (String.eqb (c_groundtruth c) l && smem l (positives false pass c))) cs)
               (countb (fun c => sel c && (negb (String.eqb (c_groundtruth c) l) && smem l (positives false pass c))) cs)
               (countb (fun c => sel c && (String.eqb (c_groundtruth c) l
                          && ((smem l (c_predictions c) && negb (smem l (positives false pass c))) || other_positive pass l c))) cs)
               (countb (fun c => sel c && (smem l (c_predictions c)
                          && (negb (String.eqb (c_groundtruth c) l) && negb (smem l (positives false pass c))))) cs).
  Proof.
    intros Hd Hst Hsel Hl. unfold total. rewrite Forall_forall in Hd. f_equal.
    - rewrite (sum_countb cs Hacc tables datums sel _ (fun c => if String.eqb (c_groundtruth c) l && smem l (positives false pass c) then 1 else 0) Hst Hsel).
      + apply list_sum_sel.
      + intros d c Hc. pose proof (nth_error_In _ _ Hc) as Hin. rewrite countb_label by auto.
        apply if_bool_eq. apply existsb_iff. rewrite andb_true_iff, smem_In, String.eqb_eq, <- (soft_row d c l Hc). split.
        * intros (r & Hr & H). unfold m_tp in H. rewrite !andb_true_iff in H. destruct H as ((H1 & H2) & H3).
          destruct (row_match cs Hfew d c r Hc Hr) as (Em & _). rewrite Em, String.eqb_eq in H1.
          rewrite (pd_eqb cs d c r l Hc Hr Hl), String.eqb_eq in H3. split; [congruence|]. eauto.
        * intros (Hg & r & Hr & Hs & Hrl). exists r. split; [exact Hr|]. unfold m_tp.
          destruct (row_match cs Hfew d c r Hc Hr) as (Em & _).
          rewrite Em, Hs, (pd_eqb cs d c r l Hc Hr Hl), Hrl, Hg, !String.eqb_refl. reflexivity.
    - rewrite (sum_countb cs Hacc tables datums sel _ (fun c => if negb (String.eqb (c_groundtruth c) l) && smem l (positives false pass c) then 1 else 0) Hst Hsel).
      + apply list_sum_sel.
      + intros d c Hc. pose proof (nth_error_In _ _ Hc) as Hin. rewrite countb_label by auto.
        apply if_bool_eq. apply existsb_iff. rewrite andb_true_iff, negb_true_iff, smem_In, String.eqb_neq, <- (soft_row d c l Hc). split.
        * intros (r & Hr & H). unfold m_fp, m_fp_raw in H. rewrite !andb_true_iff, negb_true_iff in H. destruct H as (((H1 & H2) & _) & H3).
          destruct (row_match cs Hfew d c r Hc Hr) as (Em & _). rewrite Em, String.eqb_neq in H1.
          rewrite (pd_eqb cs d c r l Hc Hr Hl), String.eqb_eq in H3. split; [congruence|]. eauto.
        * intros (Hg & r & Hr & Hs & Hrl). exists r. split; [exact Hr|]. unfold m_fp, m_fp_raw.
          destruct (row_match cs Hfew d c r Hc Hr) as (Em & _).
          rewrite Em, Hs, (pd_eqb cs d c r l Hc Hr Hl), Hrl, !String.eqb_refl, (proj1 (row_valid cs Hfew d c r Hc Hr)).
          rewrite (proj2 (String.eqb_neq _ _) Hg). reflexivity.
    - rewrite (sum_dcount cs Hacc zz_dec _ tables datums sel _ (fun c => if String.eqb (c_groundtruth c) l && ((smem l (c_predictions c) && negb (smem l (positives false pass c))) || other_positive pass l c) then 1 else 0) Hst Hsel).
      + apply list_sum_sel.
      + intros a b E. congruence.
      + intros d c Hc. pose proof (nth_error_In _ _ Hc) as Hin. rewrite dkey_gt_const with (cs := cs) by exact Hc.
        apply if_bool_eq. apply existsb_iff. rewrite andb_true_iff, String.eqb_eq, orb_true_iff, andb_true_iff, negb_true_iff. split.
        * intros (r & Hr & H). apply andb_true_iff in H. destruct H as (Hf & Hg).
          rewrite (gt_eqb cs d c r l Hc Hr Hl), String.eqb_eq in Hg. split; [exact Hg|].
          destruct (row_match cs Hfew d c r Hc Hr) as (Em & _).
          unfold m_fn, m_fp_raw in Hf. rewrite andb_true_iff, orb_true_iff, !andb_true_iff, !negb_true_iff in Hf.
          destruct Hf as ([(Hm & Hs)|(Hm & Hs)] & _).
          -- left. rewrite Em, String.eqb_eq in Hm. split.
             { apply smem_In. rewrite <- Hg, Hm. pose proof (canon_In _ _ _ _ Hr) as (_ & _ & _ & _ & _ & Hca & _).
               unfold candidates in Hca. apply in_combine_l in Hca. exact Hca. }
             apply not_true_iff_false. rewrite smem_In, <- (soft_row d c l Hc).
             intros (r' & Hr' & Hs' & Hl').
             assert (r = r') by (apply (rows_label_inj cs d c); auto; [eapply acc_of; eauto|congruence]). congruence.
          -- right. unfold other_positive. apply existsb_exists. exists (r_pd_label r). split.
             ++ apply (soft_row d c _ Hc). eauto.
             ++ rewrite Em, String.eqb_neq in Hm. apply negb_true_iff, String.eqb_neq. congruence.
        * intros (Hg & H).
          assert (exists r, In r (canon_rows L d c) /\ ((m_match r && negb (m_score tol false thr r)) || m_fp_raw tol false thr r) = true) as (r & Hr & Hf).
          { destruct H as [(Hcov & H)|H].
            - apply smem_In in Hcov. rewrite <- Hg in Hcov.
              destruct (covered_row cs d c (acc_of cs Hacc d c Hc) Hcov) as (r & Hr & Hrl). exists r. split; [exact Hr|].
              destruct (row_match cs Hfew d c r Hc Hr) as (Em & _). rewrite Em, Hrl, String.eqb_refl.
              destruct (m_score tol false thr r) eqn:Es; [|reflexivity].
              exfalso. apply not_true_iff_false in H. apply H. apply smem_In, (soft_row d c l Hc). exists r. repeat split; auto; congruence.
            - unfold other_positive in H. apply existsb_exists in H. destruct H as (x & Hx & Hn).
              apply (soft_row d c x Hc) in Hx. destruct Hx as (r & Hr & Hs & Hrl). exists r. split; [exact Hr|].
              destruct (row_match cs Hfew d c r Hc Hr) as (Em & _). unfold m_fp_raw. rewrite Em, Hs, Hrl.
              rewrite Hg. rewrite String.eqb_sym, Hn. cbn. rewrite andb_false_r. reflexivity. }
          exists r. split; [exact Hr|]. unfold m_fn. rewrite Hf, (proj2 (row_valid cs Hfew d c r Hc Hr)).
          rewrite (gt_eqb cs d c r l Hc Hr Hl), Hg, String.eqb_refl. reflexivity.
    - rewrite (sum_dcount cs Hacc zz_dec _ tables datums sel _ (fun c => if smem l (c_predictions c)
                          && (negb (String.eqb (c_groundtruth c) l) && negb (smem l (positives false pass c))) then 1 else 0) Hst Hsel).
      + apply list_sum_sel.
      + intros a b E. congruence.
      + intros d c Hc. pose proof (nth_error_In _ _ Hc) as Hin. rewrite dkey_pd_const with (cs := cs) by exact Hc.
        apply if_bool_eq. apply existsb_iff.
        rewrite !andb_true_iff, !negb_true_iff, smem_In, String.eqb_neq. split.
        * intros (r & Hr & H). apply andb_true_iff in H. destruct H as (Hf & Hg).
          rewrite (pd_eqb cs d c r l Hc Hr Hl), String.eqb_eq in Hg.
          unfold m_tn in Hf. rewrite andb_true_iff, !negb_true_iff in Hf. destruct Hf as (Hm & Hs).
          destruct (row_match cs Hfew d c r Hc Hr) as (Em & _). rewrite Em, String.eqb_neq in Hm.
          split; [|split; [congruence|]].
          -- pose proof (canon_In _ _ _ _ Hr) as (_ & _ & _ & _ & _ & Hca & _). rewrite Hg in Hca.
             unfold candidates in Hca. apply in_combine_l in Hca. exact Hca.
          -- apply not_true_iff_false. rewrite smem_In, <- (soft_row d c l Hc).
             intros (r' & Hr' & Hs' & Hl').
             assert (r = r') by (apply (rows_label_inj cs d c); auto; [eapply acc_of; eauto|congruence]). congruence.
        * intros (Hp & Hg & Hn). apply not_true_iff_false in Hn. rewrite smem_In, <- (soft_row d c l Hc) in Hn.
          pose proof (acc_of cs Hacc d c Hc) as [_ Hlen].
          rewrite <- (combine_fst (c_predictions c) (c_scores c) Hlen) in Hp.
          apply in_map_iff in Hp. destruct Hp as ([a s] & E & Hp). cbn in E. subst a.
          destruct (canon_In_conv L d c _ _ Hp) as (r & Hr & Hrl & Hrs).
          exists r. split; [exact Hr|]. rewrite (pd_eqb cs d c r l Hc Hr Hl), Hrl, String.eqb_refl, andb_true_r.
          unfold m_tn. destruct (row_match cs Hfew d c r Hc Hr) as (Em & _). rewrite Em, Hrl.
          rewrite (proj2 (String.eqb_neq _ _) Hg). cbn [negb andb].
          destruct (m_score tol false thr r) eqn:Es; [|reflexivity]. exfalso. apply Hn. eauto.
  Qed.
End Soft.
