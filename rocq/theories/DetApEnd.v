(* Average precision in terms of the inputs. *)
From Verif Require Import Prelude Counting CacheModel CacheSpec SortProofs ClsModel ClsLabelProofs DetModel DetSpec DetRankProofs DetCountProofs
  DetLoaderProofs DetStoreProofs DetLocalProofs DetApProofs DetMain.
From Coq Require Import Lia QArith.
From Coq Require String.
Local Open Scope nat_scope.
Local Open Scope list_scope.

Section ApEnd.
  Variables (eps unit : Z) (ds : list detection) (L : list String.string) (tables : list (list drow)) (R : list drow).
  Hypothesis Hu : (0 <= unit)%Z.
  Hypothesis Heps : (0 <= eps)%Z.
  Hypothesis Hin : det_input unit ds.
  Hypothesis Hst : det_stored eps ds L tables.
  Hypothesis HR : ranked_of unit tables R.
  Hypothesis Hfew : few L.
  Hypothesis Hdis : Forall distinct_pd_labels ds.
  Variables (sel : detection -> bool) (datums : drow -> bool).
  Hypothesis Hsel : selects_ids ds datums sel.
  Variables (v : String.string) (vi : nat).
  Hypothesis Hv : index_of v L = Some vi.
  Local Notation F := (filter datums R).
  Local Notation RL := (filter (fun r => (d_pl r =? Z.of_nat vi)%Z) F).
  Local Notation mainok := (main_filter_ok eps unit ds L tables R Hu Hin Hst HR Hfew sel datums Hsel).

  Definition item_of (r : drow) : nat * nat * Z :=
    (Z.to_nat (d_datum r), Z.to_nat (d_pd r) - pds_before ds (Z.to_nat (d_datum r)), d_score r).

  Lemma item_of_ids r i p : d_datum r = Z.of_nat i -> d_pd r = pd_id ds i p -> item_of r = (i, p, d_score r).
  Proof. intros E1 E2. unfold item_of. rewrite E1, E2, Nat2Z.id. unfold pd_id. rewrite Nat2Z.id. f_equal. f_equal. lia. Qed.

  Lemma rl_row r : In r RL -> exists i d p pa n, nth_error ds i = Some d /\ sel d = true /\ nth_error (t_pds d) p = Some pa /\
    nth_error (a_labels pa) n = Some v /\ nth_error (a_scores pa) n = Some (d_score r) /\ takes_part eps d p pa v = true /\
    d_datum r = Z.of_nat i /\ d_pd r = pd_id ds i p /\ d_pl r = Z.of_nat vi /\ item_of r = (i, p, d_score r).
  Proof.
    intros Hr. apply filter_In in Hr. destruct Hr as [Hr Hl]. apply filter_In in Hr. destruct Hr as [Hr Hdt]. apply Z.eqb_eq in Hl.
    destruct (main_source unit tables R HR r Hr) as (r0 & Hr0 & E). apply strip_fields in E. destruct E as (Ed & _ & _ & Ep & El & Esc & _).
    destruct (proj1 (ranked_key_iff eps unit ds L tables R Hin Hst HR (pd_key r)) (ex_intro _ r (conj Hr eq_refl))) as (r1 & Hr1 & Ek & He).
    unfold pd_key in Ek. injection Ek as F1 F2 F3.
    assert (Hd := Hr0). apply (stored_rows eps unit ds L tables Hin Hst) in Hd.
    destruct (described_pd _ _ _ _ Hd) as (i & d & p & pa & n & pl & s' & pi & Hi & Hp & Hn & Hs & Hx & E1 & E2 & E3 & E4 & _);
      [destruct He; lia|].
    assert (pi = vi) by lia. subst pi. assert (pl = v) by (eapply index_of_inj; eauto). subst pl.
    exists i, d, p, pa, n. split; [exact Hi|]. split; [rewrite <- (Hsel r i d) by congruence; exact Hdt|].
    split; [exact Hp|]. split; [exact Hn|]. split; [congruence|]. split.
    - apply (takes_part_iff eps unit ds L tables Hin Hst Hfew v vi Hv i d p pa n s' Hi Hp Hn Hs). exists r1.
      split; [exact Hr1|]. split; [unfold pd_key; congruence|exact He].
    - split; [congruence|]. split; [congruence|]. split; [exact Hl|]. apply item_of_ids; congruence.
  Qed.

  Lemma rl_exists i d p pa n sc : nth_error ds i = Some d -> sel d = true -> nth_error (t_pds d) p = Some pa ->
    nth_error (a_labels pa) n = Some v -> nth_error (a_scores pa) n = Some sc -> takes_part eps d p pa v = true ->
    exists r, In r RL /\ item_of r = (i, p, sc) /\ d_datum r = Z.of_nat i /\ d_pd r = pd_id ds i p.
  Proof.
    intros Hi Hs Hp Hn Hs' Ho3.
    apply (takes_part_iff eps unit ds L tables Hin Hst Hfew v vi Hv i d p pa n sc Hi Hp Hn Hs') in Ho3.
    apply (ranked_key_iff eps unit ds L tables R Hin Hst HR) in Ho3. destruct Ho3 as (r & Hr & Ek). exists r.
    unfold pd_key in Ek. injection Ek as F1 F2 F3.
    destruct (main_source unit tables R HR r Hr) as (r0 & Hr0 & E). apply strip_fields in E. destruct E as (Ed & _ & _ & Ep & El & Esc & _).
    destruct (pd_recorded eps unit ds L tables Hin Hst i d p pa n v sc Hi Hp Hn Hs') as (r1 & pi & Hr1 & Hpi & X1 & X2 & X3 & X4).
    assert (pi = vi) by congruence. subst pi.
    assert (Es : d_score r0 = d_score r1).
    { apply (stored_scores eps unit ds L tables Hin Hst Hdis r0 r1); auto; [rewrite Ep, F2; unfold pd_id; lia|congruence|congruence]. }
    split; [|split; [rewrite (item_of_ids r i p F1 F2); congruence|auto]].
    apply filter_In. split; [|lia]. apply filter_In. split; [exact Hr|rewrite (Hsel r i d) by congruence; exact Hs].
  Qed.

  Lemma rl_ranking : ap_ranking eps sel ds v (map item_of RL).
  Proof.
    constructor.
    - rewrite map_map.
      assert (HK : NoDup (map pd_key RL)) by (apply NoDup_map_filter; apply (ro_keys _ mainok)).
      assert (Hall : forall r, In r RL -> In r RL) by auto. revert HK Hall. generalize RL at 1 2 4 as l.
      induction l as [|r l IH]; intros HK Hall; cbn [map]; [constructor|]. cbn [map] in HK. inversion HK as [|? ? Hn HK']; subst. constructor.
      + intros Hc. apply in_map_iff in Hc. destruct Hc as (r' & E & Hr'). apply Hn. apply in_map_iff. exists r'. split; [|exact Hr'].
        destruct (rl_row r (Hall r (or_introl eq_refl))) as (i & d & p & pa & n & Hi & _ & Hp & _ & _ & _ & E1 & E2 & E3 & E4).
        destruct (rl_row r' (Hall r' (or_intror Hr'))) as (i' & d' & p' & pa' & n' & Hi' & _ & Hp' & _ & _ & _ & F1 & F2 & F3 & F4).
        rewrite E4, F4 in E. cbn in E. inversion E. subst. unfold pd_key. congruence.
      + apply IH; [exact HK'|]. intros r' Hr'. apply Hall. right. exact Hr'.
    - intros i p sc. rewrite in_map_iff. split.
      + intros (r & E & Hr). destruct (rl_row r Hr) as (i' & d & p' & pa & n & Hi & Hs & Hp & Hn & Hsc & Ht & E1 & E2 & E3 & E4).
        rewrite E4 in E. inversion E. subst. exists d, pa, n. auto 10.
      + intros (d & pa & n & Hi & Hs & Hp & Hn & Hsc & Ht). destruct (rl_exists i d p pa n sc Hi Hs Hp Hn Hsc Ht) as (r & Hr & E & _). exists r. auto.
    - apply StronglySorted_map_inv. cbn. assert (Hs := ro_sorted _ mainok). apply sorted_by_score in Hs.
      unfold by_score in Hs. revert Hs. generalize F as l. induction l as [|r l IH]; intros Hs; cbn [filter]; [constructor|].
      inversion Hs as [|? ? Hs' Hf]; subst. destruct (d_pl r =? Z.of_nat vi)%Z; [|auto]. constructor; [auto|].
      rewrite Forall_forall in *. intros x Hx. apply filter_In in Hx. apply Hf. tauto.
  Qed.

  (* ---------------------------------------------------------------- hits *)
  Hypothesis Hnt : Forall (no_ties eps) ds.

  Lemma rl_claims t r i g : In r RL ->
    claims eps t ds v (item_of r) i g <->
    (0 <= d_gt r)%Z /\ d_gl r = Z.of_nat vi /\ d_datum r = Z.of_nat i /\ d_gt r = gt_id ds i g /\ (t <= d_iou r)%Z /\
    (exists d, nth_error ds i = Some d /\ g < length (t_gts d)).
  Proof.
    intros Hr. destruct (rl_row r Hr) as (i0 & d & p & pa & n & Hi & Hs & Hp & Hn & Hsc & Htp & E1 & E2 & E3 & E4). rewrite E4.
    apply filter_In in Hr. destruct Hr as [Hr _]. apply filter_In in Hr. destruct Hr as [Hr _].
    assert (HM : label_match r = (d_gl r =? d_pl r)%Z) by (apply (R_match R (main_ranked_ok eps unit ds L tables R Hu Hin Hst HR Hfew) r Hr)).
    unfold claims. cbn [fst snd]. split.
    - intros (Ei & d' & ga & Hi' & Hg & Hl & H3 & H4 & H5). subst i. assert (d' = d) by congruence. subst d'.
      assert (Hmeet : meets eps d p v = true).
      { apply meets_spec. exists g, ga. split; [exact Hg|]. split; [|exact H3]. unfold has_label in Hl. apply existsb_exists in Hl.
        destruct Hl as (l' & Hl' & X). apply String.eqb_eq in X. subst l'. exact Hl'. }
      assert (Hm : label_match r = true).
      { destruct (ranked_In unit tables R r HR Hr) as (t0 & _ & Ht0 & _ & _ & Hr').
        destruct (rank_table_In unit t0 r Hr') as (r0 & Hr0 & E & Hr0t). apply rank_pairs_In in Hr0. destruct Hr0 as (_ & He0 & _).
        apply strip_fields in E. destruct E as (Ed & Eg & Egl & Ep & Epl & Esc & Eio).
        assert (X : label_match r0 = true); [|unfold label_match in *; rewrite Egl, Epl in X; exact X].
        destruct He0 as [He1 [He2|He2]]; [exact He2|]. exfalso.
        apply (match_rows eps unit ds L tables Hin Hst Hfew i0 d p pa n v vi (d_score r) Hi Hp Hn Hsc Hv) in Hmeet. destruct Hmeet as (r2 & Hr2 & Q1 & Q2 & Q3).
        rewrite (He2 r2) in Q3; [discriminate| |congruence]. apply (pd_rows_table eps unit ds L tables Hin Hst t0 r0 r2 Ht0 Hr0t Hr2 He1). congruence. }
      destruct (ranked_row_aims eps unit ds L tables R Hin Hst HR Hfew r Hr Hm) as (i' & d' & g' & ga' & p' & pa' & n' & sc' & Hi2 & Hg' & Hp' & G1 & G2 & G3 & G4 & G5 & Hie & l & li & Hli & Hgl & Hpl & Hla & Hn' & Hsn' & Hbest).
      assert (E0 : pd_id ds i' p' = pd_id ds i0 p) by congruence.
      destruct (pd_id_inj ds i' i0 d' d p' p pa' pa Hi2 Hi Hp' Hp E0) as [-> ->].
      assert (d' = d) by congruence. subst d'. assert (pa' = pa) by congruence. subst pa'.
      assert (li = vi) by lia. subst li. assert (l = v) by (eapply index_of_inj; eauto). subst l.
      assert (Hl' : has_label v ga' = true) by (apply existsb_exists; exists v; split; [exact Hla|apply String.eqb_refl]).
      assert (g' = g).
      { rewrite Forall_forall in Hnt. apply (Hnt d (nth_error_In _ _ Hi) p g' g ga' ga v Hg' Hg Hl' Hl Hie).
        assert (X1 := Hbest g ga Hg Hl H3). rewrite aims_spec in H5. assert (X2 := H5 g' ga' Hg' Hl'). lia. }
      subst g'. rewrite G2. split; [unfold gt_id; lia|]. split; [exact Hgl|]. split; [exact E1|]. split; [reflexivity|].
      split; [lia|]. exists d. split; [exact Hi|apply nth_error_Some; congruence].
    - intros (H0 & Hgl & Hd & Hgt & Ht & d' & Hi' & Hgl'). assert (i = i0) by lia. subst i0. assert (d' = d) by congruence. subst d'.
      split; [reflexivity|].
      assert (Hm : label_match r = true) by (rewrite HM; lia).
      destruct (ranked_row_aims eps unit ds L tables R Hin Hst HR Hfew r Hr Hm) as (i' & d' & g' & ga' & p' & pa' & n' & sc' & Hi2 & Hg' & Hp' & G1 & G2 & G3 & G4 & G5 & Hie & l & li & Hli & Hgl2 & Hpl & Hla & Hn' & Hsn' & Hbest).
      assert (E0 : pd_id ds i' p' = pd_id ds i p) by congruence.
      destruct (pd_id_inj ds i' i d' d p' p pa' pa Hi2 Hi Hp' Hp E0) as [-> ->].
      assert (d' = d) by congruence. subst d'.
      assert (li = vi) by lia. subst li. assert (l = v) by (eapply index_of_inj; eauto). subst l.
      assert (g' = g) by (unfold gt_id in *; lia). subst g'.
      exists d, ga'. split; [exact Hi|]. split; [exact Hg'|].
      split; [apply existsb_exists; exists v; split; [exact Hla|apply String.eqb_refl]|]. split; [exact Hie|]. split; [lia|].
      apply aims_spec. intros g2 ga2 Hg2 Hl2. destruct (Z.le_gt_cases eps (t_iou d p g2)) as [X|X]; [|lia]. apply (Hbest g2 ga2 Hg2 Hl2 X).
  Qed.

  Lemma filter_app_split {A} (f : A -> bool) l m1 x m2 : filter f l = m1 ++ x :: m2 ->
    exists l1 l2, l = l1 ++ x :: l2 /\ filter f l1 = m1 /\ filter f l2 = m2 /\ f x = true.
  Proof.
    intros H. destruct (filter_split f l m1 x m2 H) as (l1 & l2 & A1 & A2 & A3 & A4). exists l1, l2. auto.
  Qed.

  Lemma rl_hits t : (0 < t)%Z -> ap_hits eps t ds v (map item_of RL) (map (tp_outer eps t) RL).
  Proof.
    intros Ht. split; [rewrite !map_length; reflexivity|]. intros P1 x P2 E.
    assert (Hs := E). apply (f_equal (fun l => nth_error l (length P1))) in Hs. rewrite nth_error_app2, Nat.sub_diag in Hs by lia.
    cbn [nth_error] in Hs. rewrite nth_error_map in Hs. destruct (nth_error RL (length P1)) as [r|] eqn:Er; [|discriminate].
    cbn in Hs. inversion Hs; subst x. clear Hs. rewrite nth_error_map, Er. cbn [option_map].
    assert (HrL := nth_error_In _ _ Er). destruct (nth_error_split _ _ Er) as (m1 & m2 & Em & Elen).
    assert (EP1 : P1 = map item_of m1).
    { assert (X : firstn (length P1) (map item_of RL) = P1) by (rewrite E, firstn_app, Nat.sub_diag, firstn_all; cbn; apply app_nil_r).
      rewrite <- X, firstn_map, Em, firstn_app, <- Elen, Nat.sub_diag, firstn_all. cbn. rewrite app_nil_r. reflexivity. }
    destruct (filter_app_split _ _ _ _ _ Em) as (l1 & l2 & EF & E1 & _ & Epl). apply Z.eqb_eq in Epl.
    assert (HrF : In r F) by (rewrite EF; apply in_app_iff; right; left; reflexivity).
    assert (HN : NoDup F) by (apply (R_NoDup F mainok)).
    assert (Hbm : best_match F (gt_key r) t = Some r <-> (d_gl r = d_pl r /\ (t <= d_iou r)%Z /\ forall y, In y l1 -> gt_mask (gt_key r) y = true -> (d_iou y < t)%Z)).
    { rewrite best_match_eq. split.
      - intros H. apply find_split in H. destruct H as (k1 & k2 & EK & Hm & Hno).
        assert (k1 = l1).
        { clear - EF EK HN. rewrite EF in EK, HN. clear EF. revert k1 EK HN. induction l1 as [|a l1 IH]; intros [|b k1] EK HN; cbn in *.
          - reflexivity.
          - inversion EK; subst. inversion HN as [|? ? X _]; subst. exfalso. apply X. apply in_app_iff. right. left. reflexivity.
          - inversion EK; subst. inversion HN as [|? ? X _]; subst. exfalso. apply X. apply in_app_iff. right. left. reflexivity.
          - inversion EK; subst. inversion HN; subst. f_equal. apply IH; auto. }
        subst k1. apply andb_true_iff in Hm. destruct Hm as [Hm1 Hm2]. apply gt_mask_spec in Hm1. split; [tauto|]. split; [lia|].
        intros y Hy Hyk. specialize (Hno y Hy). cbn in Hno. rewrite Hyk in Hno. cbn in Hno. lia.
      - intros (A & B & C). rewrite EF, find_app. rewrite find_none_iff.
        + cbn [find]. replace (gt_mask (gt_key r) r) with true by (symmetry; apply gt_mask_spec; auto).
          replace (t <=? d_iou r)%Z with true by lia. reflexivity.
        + intros y Hy. destruct (gt_mask (gt_key r) y) eqn:Ey; [|reflexivity]. specialize (C y Hy Ey). cbn. lia. }
    assert (Hout : tp_outer eps t r = true <-> (eps < d_score r)%Z /\ (0 <= d_gt r)%Z /\ best_match F (gt_key r) t = Some r).
    { unfold tp_outer. rewrite <- andb_assoc, andb_true_iff, (hit_iff F mainok t r Ht HrF). rewrite Z.ltb_lt. reflexivity. }
    destruct (rl_row r HrL) as (i & d & p & pa & n & Hi & Hsd & Hp & Hn & Hsc & Htp & D1 & D2 & D3 & D4).
    assert (Hin1 : forall y, In y m1 -> In y RL) by (intros y Hy; rewrite Em; apply in_app_iff; left; exact Hy).
    transitivity (tp_outer eps t r = true); [split; [intros X; inversion X; reflexivity|intros ->; reflexivity]|].
    rewrite Hout. rewrite Hbm. rewrite D4. cbn [snd]. split.
    - intros (A & B & C1 & C2 & C3). split; [exact A|].
      assert (Hm : label_match r = true) by (rewrite (R_match F mainok r HrF); lia).
      assert (HrR : In r R) by (apply filter_In in HrF; tauto).
      destruct (ranked_row_aims eps unit ds L tables R Hin Hst HR Hfew r HrR Hm) as (i' & d' & g' & ga' & p' & pa' & n' & sc' & Hi2 & Hg' & Hp' & G1 & G2 & G3 & _).
      assert (i' = i) by lia. subst i'. assert (d' = d) by congruence. subst d'.
      exists i, g'. rewrite <- D4. split.
      + apply rl_claims; [exact HrL|]. split; [exact B|]. split; [lia|]. split; [exact D1|]. split; [exact G2|]. split; [exact C2|].
        exists d. split; [exact Hi|apply nth_error_Some; congruence].
      + intros y Hy. rewrite EP1 in Hy. apply in_map_iff in Hy. destruct Hy as (r' & <- & Hr'). intros Hc.
        apply rl_claims in Hc; [|apply Hin1; exact Hr']. destruct Hc as (K1 & K2 & K3 & K4 & K5 & _).
        assert (Hr'1 : In r' l1) by (rewrite <- E1 in Hr'; apply filter_In in Hr'; tauto).
        assert (Hpl' : d_pl r' = Z.of_nat vi) by (specialize (Hin1 r' Hr'); apply filter_In in Hin1; destruct Hin1 as [_ X]; apply Z.eqb_eq in X; exact X).
        assert (X := C3 r' Hr'1). rewrite gt_mask_spec in X. assert (d_iou r' < t)%Z; [|lia]. apply X. unfold gt_key. split; [|congruence].
        f_equal; [f_equal; congruence|lia].
    - intros (A & i1 & g1 & Hc & Hno). rewrite <- D4 in Hc. apply rl_claims in Hc; [|exact HrL].
      destruct Hc as (K1 & K2 & K3 & K4 & K5 & K6). split; [exact A|]. split; [exact K1|]. split; [congruence|]. split; [exact K5|].
      intros y Hy Hm. apply gt_mask_spec in Hm. destruct Hm as [Hk Hgl]. unfold gt_key in Hk. injection Hk as Y1 Y2 Y3.
      destruct (Z.lt_ge_cases (d_iou y) t) as [X|X]; [exact X|]. exfalso.
      assert (Hym : In y m1) by (rewrite <- E1; apply filter_In; split; [exact Hy|lia]).
      apply (Hno (item_of y)); [rewrite EP1; apply in_map; exact Hym|]. apply rl_claims; [apply Hin1; exact Hym|].
      split; [lia|]. split; [congruence|]. split; [congruence|]. split; [congruence|]. split; [lia|exact K6].
  Qed.

  Lemma hits_bound t : (0 < t)%Z -> trues (map (tp_outer eps t) RL) <= gts_with sel ds v.
  Proof.
    intros Ht. assert (X := main_tp_le eps unit ds L tables R Hu Hin Hst HR Hfew sel datums Hsel v vi Hv t eps Ht).
    etransitivity; [|exact X]. rewrite (counts_simple eps t eps) by (apply (tp_keys_NoDup eps F mainok t eps Ht)). cbn [dc_tp].
    unfold trues. rewrite countb_id_map. unfold countb. rewrite filter_filter. apply Nat.eq_le_incl. f_equal. apply filter_ext.
    intros r. unfold tp_inner, tp_outer. destruct (eps <? d_score r)%Z eqn:E; cbn [andb]; rewrite ?andb_false_r, ?andb_false_l; [|reflexivity].
    replace (eps <=? d_score r)%Z with true by lia. rewrite andb_true_r. apply andb_comm.
  Qed.
End ApEnd.
