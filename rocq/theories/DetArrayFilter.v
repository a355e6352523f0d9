(* The arrays of compute_precision_recall for evaluators derived by filters. *)
From Verif Require Import Prelude Counting CacheModel CacheSpec ClsModel ClsLabelProofs FlowModel
  DetModel DetSpec DetRankProofs DetCountProofs DetStoreProofs DetMain DetFlowModel DetFlowProofs DetOrderProofs DetReportModel DetApProofs DetApEnd DetScoreModel DetEnd DetMore
  DetFilterModel DetFilterSpec DetFilterProofs DetFilterEntries DetFilterMain
  FloatModel FloatProofs FloatCurveProofs DetArrayModel DetArraySpec DetArrayProofs DetArrayMain.
From Coq Require Import QArith Qminmax Lia.
From Coq Require String.
Local Open Scope nat_scope.
Local Open Scope list_scope.

Section Shown.
  Variables (eps unit : Z) (ds : list detection) (L : list String.string) (w : dview) (e : deval).
  Hypothesis Hu : (0 <= unit)%Z.
  Hypothesis Hin : det_input unit ds.
  Hypothesis Hfew : few_det_labels ds.
  Hypothesis Hsh : shows eps unit ds L w e.
  Variables (datums : drow -> bool) (sel : detection -> bool).
  Hypothesis Hsel : det_selects ds datums sel.
  Local Notation n := (List.length (de_labels e)).
  Local Notation R := (List.concat (de_ranked e)).
  Local Notation ids := (sel_rows ds sel).
  Let Hg : good eps unit ds L w e := shows_good eps unit ds L w e Hin Hsh.
  Let Hsmall : small_labels L := shows_small eps unit ds L Hin w e Hfew Hsh.
  Let Hw : world eps ds L w (List.concat (de_detailed e)) := g_world _ _ _ _ _ _ Hg.

  Lemma label_fits v vi : index_of v L = Some vi -> inside n (Z.of_nat vi).
  Proof.
    intros H. apply (g_labels _ _ _ _ _ _ Hg) in H.
    destruct (shows_origin eps unit ds L w e Hsh) as (e0 & He0 & El & _). unfold label_no in H. rewrite El in H |- *.
    destruct (end_facts eps unit ds Hin e0 He0) as (L0 & _ & _ & _ & B & _ & HL & _). apply B in H. apply index_of_nth in H.
    rewrite HL. assert (vi < List.length L0) by (apply nth_error_Some; congruence). unfold inside. lia.
  Qed.
  Lemma shown_gt_inside r : In r (List.concat (de_detailed e)) -> (0 <= d_gt r)%Z -> inside n (d_gl r).
  Proof.
    intros Hr H0. destruct (row_gt eps ds L w (de_detailed e) Hw r Hr H0) as (i & d & g & _ & (d' & ga & v & gi & _ & _ & _ & Hx & _ & _ & _ & _ & _ & ->) & _).
    apply (label_fits v gi Hx).
  Qed.
  Lemma shown_iou r : In r (List.concat (de_detailed e)) -> (0 <= d_iou r)%Z.
  Proof.
    intros Hr. destruct (w_rows _ _ _ _ _ Hw r Hr) as [(i & d & g & p & v & s & Hi & _ & _ & _ & -> & _)|[(i & d & g & _ & _ & _ & -> & _)|(i & d & p & v & s & _ & _ & _ & -> & _)]]; try lia.
    refine (proj1 (proj2 (proj2 (proj1 (Forall_forall _ _) Hin d _)) p g)). apply (nth_error_In _ _ Hi).
  Qed.
  Lemma shown_ranked_row r : In r R -> inside n (d_pl r) /\ (0 <= d_prev r)%Z /\ datums r = ids r.
  Proof.
    intros Hr. destruct (ranked_In _ _ _ _ (g_ranked _ _ _ _ _ _ Hg) Hr) as (tb & r0 & Htb & Hr0 & Hs & Hrt).
    assert (Hc : forall x, In x tb -> In x (List.concat (de_detailed e))) by (intros x Hx; apply in_concat; exists tb; auto).
    destruct (rank_prev unit tb r Hu) as (A & B); [intros x Hx; apply shown_iou, Hc, Hx|exact Hrt|].
    destruct (strip_fields r r0 Hs) as (Ed & _ & _ & Ep & El & _).
    split; [|split; [exact A|]].
    - destruct (row_pd eps ds L w (de_detailed e) Hw r0 (Hc r0 Hr0)) as (i & d & p & v & s & _ & (d' & pa & m & pi & _ & _ & _ & _ & Hx & _ & _ & _ & _ & _ & E & _) & _); [lia|].
      rewrite <- El, E. apply (label_fits v pi Hx).
    - destruct (row_datum eps ds L w (de_detailed e) Hw r0 (Hc r0 Hr0)) as (i & d & Hi & E1 & U).
      unfold strip, set_prev in Hs. injection Hs as E3 E4. intros. rewrite (sel_rows_selects ds sel r i d) by congruence. apply (Hsel r i d); congruence.
  Qed.
  Lemma shown_detailed_ids r : In r (List.concat (de_detailed e)) -> datums r = ids r.
  Proof.
    intros Hr. destruct (row_datum eps ds L w (de_detailed e) Hw r Hr) as (i & d & Hi & E & U).
    rewrite (sel_rows_selects ds sel r i d E Hi). apply (Hsel r i d); assumption.
  Qed.

  Lemma shown_point t p : In p (fst (running eps t run0 (filter datums R))) ->
    snd p = 0 \/ snd p <= rep_gts e datums (d_pl (fst (fst p))).
  Proof.
    intros Hp. destruct (Z.le_gt_cases t 0) as [Ht|Ht].
    - left. refine (running_no_hits eps t _ run0 (fun _ => eq_refl) _ p Hp). intros r Hr. apply filter_In in Hr. destruct Hr as [Hr _].
      destruct (shown_ranked_row r Hr) as (_ & H & _). unfold tp_outer, iou_mask. replace (d_prev r <? t)%Z with false by (symmetry; apply Z.ltb_ge; lia).
      rewrite !andb_false_r. reflexivity.
    - right. rewrite (filter_ext_in datums ids) in Hp by (intros r Hr; apply shown_ranked_row, Hr).
      set (l := d_pl (fst (fst p))).
      assert (Rok : ranked_ok R) by apply (w_ranked_ok eps unit ds L w e Hu Hin Hg Hsmall).
      assert (X := tp_le_gts eps unit t eps ids (de_detailed e) R l Ht Rok (sel_rows_by ds sel) (g_aligned _ _ _ _ _ _ Hg) (w_gts_one eps unit ds L w e Hg) (g_ranked _ _ _ _ _ _ Hg)).
      unfold rep_gts. rewrite (gt_count_ext datums ids _ shown_detailed_ids).
      etransitivity; [apply (point_tp eps t l _ p Hp eq_refl)|]. etransitivity; [|exact X].
      rewrite (counts_simple eps t eps) by (apply (tp_keys_NoDup eps); [apply ranked_ok_filter; [apply sel_rows_by|exact Rok]|exact Ht]). cbn [dc_tp].
      unfold trues. rewrite countb_id_map. unfold countb. rewrite filter_filter. apply Nat.eq_le_incl. f_equal. apply filter_ext.
      intros r. unfold tp_inner, tp_outer. destruct (eps <? d_score r)%Z eqn:E; cbn [andb]; rewrite ?andb_false_r, ?andb_false_l; [|reflexivity].
      replace (eps <=? d_score r)%Z with true by lia. rewrite andb_true_r. apply andb_comm.
  Qed.

  Section Order.
    Variable order : list (cell * Q) -> list (cell * Q).
    Hypothesis Ho : descending order.
    Variables ious scores : list Z.
    Hypothesis Hi : ious <> [].
    Hypothesis Hs : scores <> [].

    Lemma shown_arrays : exists G C P, np_precision_recall eps exact_index order ious scores e datums = AOk (G, C, P) /\
      array_of n G (fun l x => x = rep_gts e datums (Z.of_nat l)) /\
      Forall2 (fun t row => Forall2 (fun s c => array_of n (fst c) (fun l x => x = rep_tp eps e datums t s (Z.of_nat l)) /\
                                                array_of n (snd c) (fun l x => x = rep_fp eps e datums t s (Z.of_nat l))) scores row) ious C /\
      Forall2 (fun t p => array_of n p (fun l row => array_of 101 row (fun b x =>
        (fst x == rep_curve eps e datums t (Z.of_nat l) b)%Q /\ snd x = rep_bin_score eps e datums t (Z.of_nat l) b))) ious P.
    Proof.
      destruct (arrays_ok eps exact_index order ious scores e datums Ho Hi Hs) as (G & C & P & E & A1 & A2 & A3).
      - intros r Hr _ H0. apply shown_gt_inside; assumption.
      - intros r Hr _. apply shown_ranked_row. exact Hr.
      - intros t p _ Hp. unfold exact_index. destruct (shown_point t p Hp) as [->|H].
        + rewrite Nat.mul_0_r. destruct (rep_gts e datums (d_pl (fst (fst p)))) as [|k]; [cbn; lia|rewrite Nat.div_0_l; lia].
        + destruct (rep_gts e datums (d_pl (fst (fst p)))) as [|k]; [cbn; lia|]. apply Nat.div_le_upper_bound; lia.
      - exists G, C, P. split; [exact E|]. split; [exact A1|]. split; [exact A2|].
        eapply Forall2_weaken; [|exact A3]. intros t p (B1 & B2). split; [exact B1|]. intros l row Hrow. destruct (B2 l row Hrow) as (D1 & D2). split; [exact D1|].
        intros b x Hx. destruct (D2 b x Hx) as (F1 & F2). rewrite (reading_exact eps (rep_gts e datums) t datums (de_ranked e) (Z.of_nat l) b) in F1, F2. split; assumption.
    Qed.
  End Order.
End Shown.
