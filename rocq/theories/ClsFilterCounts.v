(* Counts, confusion matrix and accuracy of filtered classification evaluators. *)
From Verif Require Import Prelude Counting CacheModel CacheSpec CacheProofs ClsModel ClsSpec ClsLabelProofs ClsProofs ClsConfProofs ClsLemmas ClsMore
  RocModel FlowModel FlowProofs ClsFilterModel ClsFilterSpec ClsFilterProofs.
From Coq Require Import QArith.
From Coq Require String.
Local Open Scope nat_scope.
Local Open Scope list_scope.

Lemma smem_filter (f : String.string -> bool) x l : smem x (filter f l) = f x && smem x l.
Proof.
  apply eq_true_iff_eq. rewrite andb_true_iff, !smem_In, filter_In. tauto.
Qed.
Lemma viewed_predictions u c : accepted c -> c_predictions (viewed u c) = filter (u c) (c_predictions c).
Proof.
  intros [_ Hlen]. unfold viewed, candidates. cbn [c_predictions].
  rewrite <- (combine_fst (c_predictions c) (c_scores c) Hlen) at 2.
  generalize (combine (c_predictions c) (c_scores c)). clear. induction l as [|[a s] t IH]; [reflexivity|]. cbn [map filter fst].
  destruct (u c a); cbn; rewrite IH; reflexivity.
Qed.
Lemma top_from_In l : forall b, In (top_from b l) (b :: l).
Proof.
  induction l as [|x t IH]; intros b; [left; reflexivity|]. cbn [top_from]. destruct (IH (if (snd b <? snd x)%Z then x else b)) as [E|H].
  - rewrite <- E. destruct (snd b <? snd x)%Z; [right; left|left]; reflexivity.
  - right. right. exact H.
Qed.
Lemma top_In c p : top c = Some p -> In p (candidates c).
Proof. unfold top. destruct (candidates c) as [|x t]; [discriminate|]. intros E. injection E as <-. apply top_from_In. Qed.
Lemma positives_sub hm pass c x : In x (positives hm pass c) -> In x (c_predictions c).
Proof.
  unfold positives. destruct hm.
  - destruct (top c) as [[l s]|] eqn:E; [|intros []]. destruct (pass s); [|intros []]. intros [<-|[]].
    apply top_In in E. unfold candidates in E. apply in_combine_l in E. exact E.
  - intros H. apply in_map_iff in H. destruct H as ([a s] & <- & H). apply filter_In in H. destruct H as [H _].
    unfold candidates in H. apply in_combine_l in H. exact H.
Qed.
Lemma existsb_ext_In' {A} (f g : A -> bool) l : (forall x, In x l -> f x = g x) -> existsb f l = existsb g l.
Proof.
  induction l as [|x t IH]; [reflexivity|]. intros H. cbn. rewrite (H x (or_introl eq_refl)), IH; [reflexivity|]. intros y Hy. apply H. right. exact Hy.
Qed.
Lemma existsb_one (F : String.string -> bool) l ls :
  existsb (fun x => F x && String.eqb x l) ls = F l && smem l ls.
Proof.
  apply eq_true_iff_eq. rewrite andb_true_iff, smem_In, existsb_exists. split.
  - intros (x & Hx & H). apply andb_true_iff in H. destruct H as [H1 H2]. apply String.eqb_eq in H2. subst. auto.
  - intros [H1 H2]. exists l. rewrite H1, String.eqb_refl. auto.
Qed.
Lemma countb_one (F : String.string -> bool) l ls : NoDup ls ->
  countb (fun x => F x && String.eqb x l) ls = if F l && smem l ls then 1 else 0.
Proof.
  induction 1 as [|x t Hx Hn IH]; [rewrite andb_false_r; reflexivity|]. unfold countb in *. cbn [filter smem existsb].
  fold (smem l t). rewrite (String.eqb_sym x l). destruct (String.eqb_spec l x) as [->|N].
  - assert (E : smem x t = false) by (apply not_true_is_false; rewrite smem_In; exact Hx).
    rewrite E, andb_false_r in IH. cbn [orb]. rewrite !andb_true_r. destruct (F x); cbn [length]; rewrite IH; reflexivity.
  - rewrite andb_false_r. cbn [orb]. exact IH.
Qed.

Section View.
  Variable cs : list classification.
  Hypothesis Hacc : Forall accepted cs.
  Hypothesis Hdist : Forall distinct_candidates cs.
  Variable w : cview.
  Variable e : ceval.
  Hypothesis G : cgood cs w e.
  Variable datums : crow -> bool.
  Variable sel : cview.
  Hypothesis Hsel : expresses cs datums sel.
  Local Notation L := (labels_of cs).
  Local Notation W := (mapi (canon_rows L) cs).
  Local Notation u := (cselect w sel).
  Local Notation tables := (ce_tables e).

  Lemma dist_of d c : nth_error cs d = Some c -> distinct_candidates c.
  Proof. intros H. apply nth_error_In in H. rewrite Forall_forall in Hdist. auto. Qed.

  Lemma view_row d c r : nth_error cs d = Some c -> In r (canon_rows L d c) ->
    kept_row cs w r && datums r = u c (r_pd_label r).
  Proof.
    intros Hc Hr. unfold cselect. rewrite (kept_row_canon cs w d c r Hc Hr), (expresses_canon cs Hacc datums sel d c r Hsel Hc Hr). reflexivity.
  Qed.

  Lemma table_row r : In r (concat tables) <-> exists d c, nth_error cs d = Some c /\ In r (canon_rows L d c) /\ w c (r_pd_label r) = true.
  Proof.
    split.
    - intros H. apply (Permutation_in _ (cg_rows _ _ _ G)) in H. apply filter_In in H. destruct H as [H Hk].
      apply (writes_row cs Hacc) in H. destruct H as (d & c & Hc & Hr). rewrite (kept_row_canon cs w d c r Hc Hr) in Hk. eauto.
    - intros (d & c & Hc & Hr & Hw). apply (Permutation_in _ (Permutation_sym (cg_rows _ _ _ G))). apply filter_In.
      split; [apply (writes_row cs Hacc); eauto|]. rewrite (kept_row_canon cs w d c r Hc Hr). exact Hw.
  Qed.

  Lemma view_countb P (v : classification -> nat) :
    (forall d c, nth_error cs d = Some c -> countb (fun r => u c (r_pd_label r) && P r) (canon_rows L d c) = v c) ->
    list_sum_nat (map (fun t => countb P (filter datums t)) tables) = list_sum_nat (map v cs).
  Proof.
    intros Hv.
    rewrite (list_sum_nat_ext _ (countb (fun r => datums r && P r))) by (intros; apply countb_filter).
    rewrite <- countb_concat. rewrite (countb_perm _ _ _ (cg_rows _ _ _ G)), countb_filter. unfold writes_of.
    rewrite (W_writes cs Hacc), countb_concat. unfold mapi. rewrite map_mapi_from. apply list_sum_mapi_ext. intros d c Hc. cbn [Nat.add].
    rewrite <- (Hv d c Hc). apply countb_ext. intros r Hr. rewrite <- (view_row d c r Hc Hr), andb_assoc. reflexivity.
  Qed.

  Lemma view_dcount {K} (dec : forall x y : K, {x = y} + {x <> y}) (key : crow -> K) P (v : classification -> nat) :
    (forall a b, key a = key b -> r_datum a = r_datum b) ->
    (forall d c, nth_error cs d = Some c -> dcount dec key (fun r => u c (r_pd_label r) && P r) (canon_rows L d c) = v c) ->
    list_sum_nat (map (fun t => dcount dec key P (filter datums t)) tables) = list_sum_nat (map v cs).
  Proof.
    intros Hk Hv.
    rewrite (list_sum_nat_ext _ (dcount dec key (fun r => datums r && P r))) by (intros; apply dcount_filter).
    rewrite <- dcount_concat.
    2: { intros i j ti tj a b Hi Hj N Ha Hb _ _ E. apply Hk in E.
         exact (aligned_neq _ _ _ _ _ _ _ _ (cg_aligned _ _ _ G) Hi Hj N Ha Hb E). }
    rewrite (dcount_perm _ _ _ _ _ (cg_rows _ _ _ G)), dcount_filter. unfold writes_of. rewrite (W_writes cs Hacc).
    rewrite dcount_concat.
    2: { intros i j ti tj a b Hi Hj N Ha Hb _ _ E. apply Hk in E.
         exact (aligned_neq _ _ _ _ _ _ _ _ (W_aligned cs) Hi Hj N Ha Hb E). }
    unfold mapi. rewrite map_mapi_from. apply list_sum_mapi_ext. intros d c Hc. cbn [Nat.add].
    rewrite <- (Hv d c Hc). apply dcount_ext. intros r Hr. rewrite <- (view_row d c r Hc Hr), andb_assoc. reflexivity.
  Qed.

  Section Mask.
    Variable hm : bool.
    Variable pass : Z -> bool.
    Variable m : crow -> bool.
    Hypothesis Hm : forall r, m r = pass (r_score r) && (if hm then r_winner r else true).

    Lemma mask_row d c r : nth_error cs d = Some c -> In r (canon_rows L d c) -> m r = smem (r_pd_label r) (positives hm pass c).
    Proof.
      intros Hc Hr. apply eq_true_iff_eq. rewrite smem_In, <- (positive_row cs Hacc hm pass m Hm d c _ Hc). split; [eauto|].
      intros (r' & Hr' & H & E). rewrite (rows_label_inj cs d c r r'); auto. { eapply dist_of; eauto. } eapply acc_of; eauto.
    Qed.
  End Mask.

  Lemma countb_rows (F : String.string -> bool) P d c : nth_error cs d = Some c ->
    (forall r, In r (canon_rows L d c) -> P r = F (r_pd_label r)) ->
    countb P (canon_rows L d c) = countb F (c_predictions c).
  Proof.
    intros Hc HP. rewrite <- (row_labels cs d c (acc_of cs Hacc d c Hc)), countb_map. apply countb_ext. exact HP.
  Qed.
  Lemma existsb_rows_eq (F : String.string -> bool) P d c : nth_error cs d = Some c ->
    (forall r, In r (canon_rows L d c) -> P r = F (r_pd_label r)) ->
    existsb P (canon_rows L d c) = existsb F (c_predictions c).
  Proof.
    intros Hc HP. rewrite <- (existsb_rows cs F d c (acc_of cs Hacc d c Hc)). apply existsb_ext_In'. exact HP.
  Qed.

  Section CountsAt.
    Hypothesis Hfew : few_labels cs.
    Variables tol thr : Z.
    Variable hm : bool.
    Local Notation pass := (pass_counts tol thr).
    Local Notation pos c := (positives hm pass c).

    Lemma score_row d c r : nth_error cs d = Some c -> In r (canon_rows L d c) ->
      m_score tol hm thr r = smem (r_pd_label r) (pos c).
    Proof. apply mask_row. intros x. unfold m_score, pass_counts. rewrite (andb_comm (thr <=? r_score x)%Z). reflexivity. Qed.

    Lemma list_sum_if (f : classification -> bool) : list_sum_nat (map (fun c => if f c then 1 else 0) cs) = countb f cs.
    Proof. apply list_sum_nat_if. Qed.

    Theorem counts_view l : In l L ->
      total tol hm thr datums tables (idx L l)
      = MkCounts (countb (v_tp u hm pass l) cs) (countb (v_fp u hm pass l) cs)
                 (countb (v_fn u hm pass l) cs) (countb (v_tn u hm pass l) cs).
    Proof.
      intros Hl. unfold total. f_equal.
      - rewrite (view_countb _ (fun c => if v_tp u hm pass l c then 1 else 0)); [apply list_sum_if|].
        intros d c Hc. pose proof (dist_of d c Hc) as Hd.
        rewrite (countb_rows (fun x => u c x && (String.eqb (c_groundtruth c) x && smem x (pos c)) && String.eqb x l) _ d c Hc).
        + rewrite (countb_one (fun x => u c x && (String.eqb (c_groundtruth c) x && smem x (pos c)))) by exact Hd.
          apply if_bool_eq. unfold v_tp, vpositives. rewrite smem_filter, !andb_true_iff, !smem_In. split; [tauto|].
          intros (H1 & H2 & H3). repeat split; auto. eapply positives_sub; eauto.
        + intros r Hr. unfold m_tp. destruct (row_match cs Hfew d c r Hc Hr) as (-> & _).
          rewrite (score_row d c r Hc Hr), (row_pd_eqb cs Hfew d c r l Hc Hr Hl). rewrite !andb_assoc. reflexivity.
      - rewrite (view_countb _ (fun c => if v_fp u hm pass l c then 1 else 0)); [apply list_sum_if|].
        intros d c Hc. pose proof (dist_of d c Hc) as Hd.
        rewrite (countb_rows (fun x => u c x && (negb (String.eqb (c_groundtruth c) x) && smem x (pos c)) && String.eqb x l) _ d c Hc).
        + rewrite (countb_one (fun x => u c x && (negb (String.eqb (c_groundtruth c) x) && smem x (pos c)))) by exact Hd.
          apply if_bool_eq. unfold v_fp, vpositives. rewrite smem_filter, !andb_true_iff, !smem_In. split; [tauto|].
          intros (H1 & H2 & H3). repeat split; auto. eapply positives_sub; eauto.
        + intros r Hr. unfold m_fp, m_fp_raw. destruct (row_match cs Hfew d c r Hc Hr) as (-> & _).
          rewrite (score_row d c r Hc Hr), (row_pd_eqb cs Hfew d c r l Hc Hr Hl), (proj1 (row_valid cs Hfew d c r Hc Hr)).
          rewrite andb_true_r, !andb_assoc. reflexivity.
      - rewrite (view_dcount _ _ _ (fun c => if v_fn u hm pass l c then 1 else 0)); [apply list_sum_if|intros a b E; congruence|].
        intros d c Hc. pose proof (dist_of d c Hc) as Hd. pose proof (acc_of cs Hacc d c Hc) as Ha.
        erewrite (dcount_ext _ _ _ (fun r => (fun r => u c (r_pd_label r) && m_fn tol hm thr r) r && (r_gt r =? idx L l)%Z));
          [|intros r Hr; cbv beta; rewrite andb_assoc; reflexivity].
        rewrite (dkey_gt_const cs) by exact Hc.
        apply if_bool_eq.
        rewrite (existsb_rows_eq (fun x => u c x && ((String.eqb (c_groundtruth c) x && negb (smem x (pos c))) ||
             (negb (String.eqb (c_groundtruth c) x) && smem x (pos c))) && String.eqb (c_groundtruth c) l) _ d c Hc).
        + rewrite existsb_exists. unfold v_fn, vpositives.
          rewrite (viewed_predictions u c Ha), !smem_filter. split.
          * intros (x & Hx & H). rewrite !andb_true_iff in H. destruct H as ((Hu & H) & Hg). rewrite Hg. cbn [andb].
            apply String.eqb_eq in Hg. rewrite Hg in H. apply orb_true_iff in H. apply orb_true_iff. destruct H as [H|H].
            -- left. apply andb_true_iff in H. destruct H as [E H]. apply String.eqb_eq in E. subst x.
               rewrite Hu, (proj2 (smem_In _ _) Hx). cbn [andb]. exact H.
            -- right. apply andb_true_iff in H. destruct H as [E H]. apply existsb_exists. exists x. split.
               ++ apply filter_In. split; [apply smem_In; exact H|exact Hu].
               ++ rewrite String.eqb_sym. exact E.
          * intros H. apply andb_true_iff in H. destruct H as [Hg H]. rewrite Hg. apply String.eqb_eq in Hg. rewrite Hg.
            apply orb_true_iff in H. destruct H as [H|H].
            -- rewrite !andb_true_iff in H. destruct H as ((Hu & Hx) & Hn). exists l. split; [apply smem_In; exact Hx|].
               rewrite Hu, String.eqb_refl. rewrite Hu in Hn. cbn [andb] in Hn. rewrite Hn. reflexivity.
            -- apply existsb_exists in H. destruct H as (x & Hx & E). apply filter_In in Hx. destruct Hx as [Hx Hu].
               exists x. split; [eapply positives_sub; eauto|]. rewrite Hu, String.eqb_sym, E, (proj2 (smem_In _ _) Hx).
               cbn [andb]. rewrite orb_true_r. reflexivity.
        + intros r Hr. unfold m_fn, m_fp_raw. destruct (row_match cs Hfew d c r Hc Hr) as (-> & _).
          rewrite (score_row d c r Hc Hr), (row_gt_eqb cs Hfew d c r l Hc Hr Hl), (proj2 (row_valid cs Hfew d c r Hc Hr)).
          rewrite andb_true_r. reflexivity.
      - rewrite (view_dcount _ _ _ (fun c => if v_tn u hm pass l c then 1 else 0)); [apply list_sum_if|intros a b E; congruence|].
        intros d c Hc. pose proof (dist_of d c Hc) as Hd. pose proof (acc_of cs Hacc d c Hc) as Ha.
        erewrite (dcount_ext _ _ _ (fun r => (fun r => u c (r_pd_label r) && m_tn tol hm thr r) r && (r_pd r =? idx L l)%Z));
          [|intros r Hr; cbv beta; rewrite andb_assoc; reflexivity].
        rewrite (dkey_pd_const cs) by exact Hc.
        apply if_bool_eq.
        rewrite (existsb_rows_eq (fun x => u c x && (negb (String.eqb (c_groundtruth c) x) && negb (smem x (pos c))) && String.eqb x l) _ d c Hc).
        + rewrite (existsb_one (fun x => u c x && (negb (String.eqb (c_groundtruth c) x) && negb (smem x (pos c))))).
          unfold v_tn, vpositives. rewrite (viewed_predictions u c Ha), !smem_filter. destruct (u c l), (smem l (c_predictions c)), (String.eqb (c_groundtruth c) l), (smem l (pos c)); cbn [andb negb]; tauto.
        + intros r Hr. unfold m_tn. destruct (row_match cs Hfew d c r Hc Hr) as (-> & _).
          rewrite (score_row d c r Hc Hr), (row_pd_eqb cs Hfew d c r l Hc Hr Hl). reflexivity.
    Qed.
  End CountsAt.

  (* ---------------- confusion matrix ---------------- *)
  Definition no_vpositive (hm : bool) (pass : Z -> bool) (c : classification) : bool :=
    match vpositives u hm pass c with [] => true | _ => false end.

  Section Conf.
    Variable hm : bool.
    Variable pass : Z -> bool.
    Variable m : crow -> bool.
    Hypothesis Hm : forall r, m r = pass (r_score r) && (if hm then r_winner r else true).

    Theorem cm_view g p : In g L -> In p L ->
      cm_total m datums tables (idx L g) (idx L p)
      = countb (fun c => String.eqb (c_groundtruth c) g && smem p (vpositives u hm pass c)) cs.
    Proof.
      intros Hg Hp. unfold cm_total.
      rewrite (list_sum_nat_ext _ (fun t => dcount zzz_dec key3 (fun r => m r && ((r_gt r =? idx L g)%Z && (r_pd r =? idx L p)%Z)) (filter datums t)))
        by (intros; apply cm_dcount).
      rewrite (view_dcount zzz_dec key3 _ (fun c => if String.eqb (c_groundtruth c) g && smem p (vpositives u hm pass c) then 1 else 0)).
      - apply list_sum_nat_if.
      - unfold key3. intros a b E. congruence.
      - intros d c Hc. rewrite (dcount_one zzz_dec key3 _ _ (Z.of_nat d, idx L g, idx L p)).
        + apply if_bool_eq.
          rewrite (existsb_rows_eq (fun x => (u c x && (smem x (positives hm pass c) && String.eqb (c_groundtruth c) g)) && String.eqb x p) _ d c Hc).
          * rewrite (existsb_one (fun x => u c x && (smem x (positives hm pass c) && String.eqb (c_groundtruth c) g))).
            unfold vpositives. rewrite smem_filter, !andb_true_iff, !smem_In. split; [tauto|].
            intros (H1 & H2 & H3). split; [auto|]. eapply positives_sub; eauto.
          * intros r Hr. rewrite (mask_row hm pass m Hm d c r Hc Hr), (gt_eqb cs d c r g Hc Hr Hg), (pd_eqb cs d c r p Hc Hr Hp), !andb_assoc.
            reflexivity.
        + intros r Hr H. rewrite !andb_true_iff in H. unfold key3. apply canon_In in Hr.
          destruct Hr as (_ & -> & _). f_equal; [f_equal|]; lia.
    Qed.

    Theorem unmatched_view g : In g L ->
      unmatched_total m datums tables (idx L g)
      = countb (fun c => visible u c && (String.eqb (c_groundtruth c) g && no_vpositive hm pass c)) cs.
    Proof.
      intros Hg. unfold unmatched_total.
      set (U := fun r => negb (existsb (fun x => datums x && (m x && same_gt r x)) (concat tables))).
      assert (HU : forall d c r, nth_error cs d = Some c -> In r (canon_rows L d c) -> U r = no_vpositive hm pass c).
      { intros d c r Hc Hr. unfold U.
        rewrite (existsb_datum cs Hacc w (concat tables) _ d c); [|intros x|exact Hc|].
        - rewrite (existsb_rows_eq (fun x => u c x && smem x (positives hm pass c)) _ d c Hc).
          + unfold no_vpositive. destruct (existsb _ (c_predictions c)) eqn:E.
            * apply existsb_exists in E. destruct E as (x & Hx & E). apply andb_true_iff in E. destruct E as [E1 E2].
              assert (In x (vpositives u hm pass c)) by (unfold vpositives; apply filter_In; split; [apply smem_In; exact E2|exact E1]).
              destruct (vpositives u hm pass c); [destruct H|reflexivity].
            * destruct (vpositives u hm pass c) as [|x t] eqn:Ev; [reflexivity|]. exfalso.
              assert (Hx : In x (vpositives u hm pass c)) by (rewrite Ev; left; reflexivity).
              unfold vpositives in Hx. apply filter_In in Hx. destruct Hx as [Hx Hu]. apply not_true_iff_false in E. apply E.
              apply existsb_exists. exists x. split; [eapply positives_sub; eauto|]. rewrite Hu. apply smem_In. exact Hx.
          + intros x Hx. rewrite (mask_row hm pass m Hm d c x Hc Hx), (expresses_canon cs Hacc datums sel d c x Hsel Hc Hx).
            pose proof (canon_In _ _ _ _ Hr) as (_ & E1 & _ & E2 & _). pose proof (canon_In _ _ _ _ Hx) as (_ & F1 & _ & F2 & _).
            unfold same_gt. rewrite E1, E2, F1, F2, !Z.eqb_refl. cbn [andb]. rewrite andb_true_r, andb_assoc. reflexivity.
        - rewrite (table_row x). split.
          + intros (d' & c' & Hc' & Hx & Hw). split; [apply (writes_row cs Hacc); eauto|]. rewrite (kept_row_canon cs w d' c' x Hc' Hx). exact Hw.
          + intros [Hx Hk]. apply (writes_row cs Hacc) in Hx. destruct Hx as (d' & c' & Hc' & Hx). rewrite (kept_row_canon cs w d' c' x Hc' Hx) in Hk. eauto.
        - intros x H. rewrite !andb_true_iff in H. destruct H as (_ & _ & H). unfold same_gt in H. apply andb_true_iff in H.
          apply canon_In in Hr. destruct Hr as (_ & E1 & _). lia. }
      rewrite (list_sum_nat_ext _ (fun t => dcount zz_dec key2 (fun r => U r && (r_gt r =? idx L g)%Z) (filter datums t))).
      2: { intros t Ht. cbn [cm_unmatched confusion_of]. rewrite dkeys_countb. cbn [snd].
           apply dcount_ext. intros r Hr. f_equal. apply filter_In in Hr. destruct Hr as [Hr _]. unfold pc_unmatched, U. f_equal.
           rewrite <- (existsb_local tables t (fun r x => datums x && (m x && same_gt r x)) r (cg_aligned _ _ _ G) Ht Hr).
           - clear. induction t as [|x t IH]; [reflexivity|]. cbn [filter existsb]. destruct (datums x); cbn [existsb]; rewrite IH; reflexivity.
           - intros x H. rewrite !andb_true_iff in H. destruct H as (_ & _ & H). unfold same_gt in H. apply andb_true_iff in H. lia. }
      rewrite (view_dcount zz_dec key2 _ (fun c => if visible u c && (String.eqb (c_groundtruth c) g && no_vpositive hm pass c) then 1 else 0)).
      - apply list_sum_nat_if.
      - unfold key2. intros a b E. congruence.
      - intros d c Hc. rewrite (dcount_one zz_dec key2 _ _ (Z.of_nat d, idx L g)).
        + apply if_bool_eq.
          rewrite (existsb_rows_eq (fun x => u c x && (no_vpositive hm pass c && String.eqb (c_groundtruth c) g)) _ d c Hc).
          * unfold visible. rewrite !andb_true_iff, !existsb_exists. split.
            -- intros (x & Hx & H). rewrite !andb_true_iff in H. destruct H as (H1 & H2 & H3). split; [eauto|]. auto.
            -- intros ((x & Hx & H1) & H2 & H3). exists x. rewrite H1, H2, H3. auto.
          * intros r Hr. rewrite (HU d c r Hc Hr), (gt_eqb cs d c r g Hc Hr Hg). reflexivity.
        + intros r Hr H. rewrite !andb_true_iff in H. unfold key2. apply canon_In in Hr.
          destruct Hr as (_ & -> & _). f_equal; lia.
    Qed.
  End Conf.

  (* ---------------- the numbers of datums and rows ---------------- *)
  Lemma datums_view : extract_counts datums tables = countb (visible u) cs.
  Proof.
    unfold extract_counts.
    rewrite (list_sum_nat_ext _ (fun t => dcount Z.eq_dec r_datum (fun _ => true) (filter datums t))).
    2: { intros t _. generalize (filter datums t). intros x. unfold dcount, dkeys. rewrite (filter_all (fun _ => true)) by reflexivity. reflexivity. }
    rewrite (view_dcount Z.eq_dec r_datum _ (fun c => if visible u c then 1 else 0)).
    - apply list_sum_nat_if.
    - auto.
    - intros d c Hc. rewrite (dcount_one _ _ _ _ (Z.of_nat d)).
      + apply if_bool_eq. rewrite (existsb_rows_eq (u c) _ d c Hc); [reflexivity|]. intros r _. apply andb_true_r.
      + intros r Hr _. apply canon_In in Hr. tauto.
  Qed.

  (* ---------------- accuracy ---------------- *)
  Section Accuracy.
    Hypothesis Hfew : few_labels cs.
    Variables tol thr : Z.
    Variable hm : bool.
    Local Notation pass := (pass_counts tol thr).

    Lemma tp_sum_view :
      list_sum_nat (map (fun i => n_tp (total tol hm thr datums tables (Z.of_nat i))) (seq 0 (length L)))
      = countb (fun c => smem (c_groundtruth c) (vpositives u hm pass c)) cs.
    Proof.
      rewrite (list_sum_nat_ext _ (fun i => countb (fun c => match nth_error L i with Some l => v_tp u hm pass l c | None => false end) cs)).
      2: { intros i Hi. apply in_seq in Hi. destruct (nth_error L i) as [l|] eqn:E; [|apply nth_error_None in E; lia].
           destruct (nth_label cs i l E) as (_ & Hl & ->). rewrite counts_view by auto. reflexivity. }
      apply countb_partition. intros c Hc.
      transitivity (list_sum_nat (map (fun i => if smem (c_groundtruth c) (vpositives u hm pass c) && match nth_error L i with Some x => String.eqb x (c_groundtruth c) | None => false end then 1 else 0) (seq 0 (length L)))).
      { apply list_sum_nat_ext. intros i _. destruct (nth_error L i) as [l|]; [|rewrite andb_false_r; reflexivity].
        unfold v_tp. rewrite (String.eqb_sym l). destruct (String.eqb_spec (c_groundtruth c) l) as [->|N];
        [rewrite andb_true_r; reflexivity|rewrite andb_false_r; reflexivity]. }
      destruct (smem (c_groundtruth c) (vpositives u hm pass c)) eqn:Es.
      - cbn [andb]. rewrite (one_position L (c_groundtruth c)); auto using labels_of_NoDup.
        assert (smem (c_groundtruth c) L = true) as -> by (apply smem_In, labels_of_gt; exact Hc). reflexivity.
      - cbn [andb]. clear. induction (seq 0 (length L)); cbn; auto.
    Qed.
  End Accuracy.
End View.
