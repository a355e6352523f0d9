(* The metric lists with the recall bins that binary64 numbers give. *)
From Verif Require Import Prelude Counting CacheModel CacheSpec CacheProofs Pipeline ClsModel ClsLabelProofs FlowModel DetLoaderProofs
  DetModel DetSpec DetRankProofs DetCountProofs DetStoreProofs DetMain DetFlowModel DetFlowProofs DetOrderProofs DetReportModel DetApProofs DetApEnd DetScoreModel DetEnd DetMore
  DetFilterModel DetFilterSpec DetFilterProofs DetFilterEntries DetFilterPruned DetFilterMain DetFilterMore
  FloatModel FloatProofs FloatCurveProofs RndProofs DetArrayModel DetArraySpec DetArrayProofs DetArrayMain DetArrayFilter
  DetUnpackModel DetUnpackSpec DetUnpackProofs DetLoadSpec DetLoadProofs.
From Coq Require Import QArith Qminmax Qround Lia Permutation Lqa.
From Coq Require String.
Local Open Scope nat_scope.
Local Open Scope list_scope.

(* the index of a recall is one of the 101 bins, for counts of any size *)
Lemma fbin_le tp n : tp <= n -> fbin tp n <= 100.
Proof.
  intros H. unfold fbin, frecall. destruct n as [|n].
  - rewrite rnd_zero by lra. cbn. lia.
  - assert (A : (rnd (qnat tp / qnat (S n)) <= 1)%Q).
    { apply rnd_le; [apply fl_1|]. apply Qle_shift_div_r; unfold qnat.
      - change 0%Q with (inject_Z 0). rewrite <- Zlt_Qlt. lia.
      - rewrite Qmult_1_l. rewrite <- Zle_Qle. lia. }
    assert (B : (rnd (rnd (qnat tp / qnat (S n)) * 100) <= 100)%Q).
    { apply rnd_le; [apply (fl_int 100); lia|]. lra. }
    apply Qfloor_resp_le in B. change (Qfloor 100) with 100%Z in B. lia.
Qed.
Lemma exact_le tp n : tp <= n -> exact_index tp n <= 100.
Proof. intros H. unfold exact_index. destruct n as [|n]; [cbn; lia|]. apply Nat.div_le_upper_bound; lia. Qed.

Section Shown.
  Variables (eps unit : Z) (ds : list detection) (L : list String.string) (w : dview) (e : deval).
  Hypothesis Hin : det_input unit ds.
  Hypothesis Hsh : shows eps unit ds L w e.
  Hypothesis Hu : (0 <= unit)%Z.
  Hypothesis Hfew : few_det_labels ds.
  Variables (datums : drow -> bool) (sel : detection -> bool).
  Hypothesis Hsel : det_selects ds datums sel.
  Variable order : list (cell * Q) -> list (cell * Q).
  Hypothesis Ho : descending order.
  Variables ious scores : list Z.
  Hypothesis Hi : ious <> [].
  Hypothesis Hs : scores <> [].

  Lemma float_bound t p : In p (fst (running eps t run0 (filter datums (List.concat (de_ranked e))))) ->
    fbin (snd p) (rep_gts e datums (d_pl (fst (fst p)))) <= 100.
  Proof.
    intros Hp. apply fbin_le. destruct (shown_point eps unit ds L w e Hu Hin Hfew Hsh datums sel Hsel t p Hp) as [->|H]; lia.
  Qed.
  Lemma float_metrics_for (labels : ldict) : labels <> [] ->
    (forall kl, In kl labels -> inside (List.length labels) (fst kl)) ->
    (forall r, In r (List.concat (de_detailed e)) -> (0 <= d_gt r)%Z -> inside (List.length labels) (d_gl r)) ->
    (forall r, In r (List.concat (de_ranked e)) -> inside (List.length labels) (d_pl r)) ->
    forall e', de_detailed e' = de_detailed e -> de_ranked e' = de_ranked e -> de_labels e' = labels ->
    exists m, np_metrics eps fbin order ious scores e' datums = AOk m /\ float_metrics_ok eps e' datums ious scores m.
  Proof.
    intros Hl Hk Hg Hp e' E1 E2 E3. apply metrics_from_gen; [rewrite E3; exact Hk|rewrite E3; exact Hl|exact Hi|].
    destruct (arrays_ok eps fbin order ious scores e' datums Ho Hi Hs) as (G & C & P & E & A1 & A2 & A3).
    - rewrite E1, E3. intros r Hr _ H0. apply Hg; assumption.
    - rewrite E2, E3. intros r Hr _. apply Hp, Hr.
    - intros t p _ H. unfold rep_gts. rewrite E1. rewrite E2 in H. apply (float_bound t), H.
    - exists G, C, P. split; [exact E|]. split; [exact A1|]. split; [exact A2|].
      eapply Forall2_weaken; [|exact A3]. intros t p (B1 & B2). split; [exact B1|]. intros l row Hrow. destruct (B2 l row Hrow) as (D1 & D2). split; [exact D1|].
      intros b x Hx. destruct (D2 b x Hx) as (F1 & F2). rewrite (reading_float eps (rep_gts e' datums) t datums (de_ranked e') (Z.of_nat l) b) in F1, F2. split; assumption.
  Qed.
  Theorem shown_float_metrics : exists m, np_metrics eps fbin order ious scores e datums = AOk m /\ float_metrics_ok eps e datums ious scores m.
  Proof.
    apply (float_metrics_for (de_labels e)); try reflexivity.
    - eapply shown_labels_nonempty; eassumption.
    - eapply shown_keys; eassumption.
    - intros r. eapply shown_gt_inside; eassumption.
    - intros r Hr. refine (proj1 (shown_ranked_row eps unit ds L w e Hu Hin Hsh datums sel Hsel r Hr)).
  Qed.

  Local Notation D := (det_extract_labels (de_detailed e)).
  Local Notation loaded := (MkDE (de_detailed e) (de_ranked e) D).
  Theorem loaded_float k : lowest_left e ds w k ->
    exists m, np_metrics eps fbin order ious scores loaded datums = AOk m /\ float_metrics_ok eps loaded datums ious scores m.
  Proof.
    intros Hk. assert (Hlow := lowest_fits eps unit ds L w e Hin Hsh k Hk).
    assert (Hkey : forall x, In x (map fst D) -> inside (List.length D) x).
    { intros x Hx. split; [|apply Hlow, Hx]. apply (extract_keys eps unit ds L w e Hin Hsh) in Hx. destruct Hx as (v & vi & -> & _). lia. }
    assert (Hrow := row_ids eps unit ds L w e Hin Hsh). assert (Hg := shows_good eps unit ds L w e Hin Hsh).
    apply (float_metrics_for D); try reflexivity.
    - eapply extract_nonempty; eassumption.
    - intros kl Hkl. apply Hkey. apply in_map, Hkl.
    - intros r Hr H0. apply Hkey. apply (proj2 (det_extract_gen L (de_detailed e) Hrow)).
      split; [left; apply in_map; exact Hr|]. assert (X := shown_gt_inside eps unit ds L w e Hin Hsh r Hr H0). unfold inside in X. lia.
    - intros r Hr. apply Hkey. apply (proj2 (det_extract_gen L (de_detailed e) Hrow)).
      destruct (shown_ranked_row eps unit ds L w e Hu Hin Hsh datums sel Hsel r Hr) as (X & _).
      destruct (ranked_In _ _ _ _ (g_ranked _ _ _ _ _ _ Hg) Hr) as (tb & r0 & Htb & Hr0 & Hst & _). destruct (strip_fields r r0 Hst) as (_ & _ & _ & _ & El & _).
      split; [|unfold inside in X; lia]. right. apply in_map_iff. exists r0. split; [exact El|]. apply in_concat. exists tb. auto.
  Qed.
End Shown.

Section File.
  Variables (eps unit : Z) (ds : list detection) (L : list String.string) (w : dview) (e : deval).
  Hypothesis Hin : det_input unit ds.
  Hypothesis Hsh : shows eps unit ds L w e.
  Variables (bs rpf : nat) (rb : list drow -> list (list drow)) (dat : drow -> bool) (gts pds : option (drow -> bool)).
  Variables (sel : detection -> bool) (sg : detection -> nat -> bool) (sp : detection -> nat -> String.string -> bool).
  Variables (b : dfb) (labels : ldict) (l1 l2 : dir drow).
  Hypothesis Hrb : batching_ok rb.
  Hypothesis Hsel : det_selects ds dat sel.
  Hypothesis Hsg : gt_filter ds L gts sg.
  Hypothesis Hsp : pd_filter ds L pds sp.
  Hypothesis Hb : det_filter_build unit bs rpf rb e dat gts pds = (b, Done labels).
  Hypothesis H1 : Permutation l1 (f_dir (dfb_detailed b)).
  Hypothesis H2 : Permutation l2 (f_dir (dfb_ranked b)).
  Local Notation u := (restrict w sel sg sp).
  Local Notation full := (det_load l1 l2 (Some labels)).

  Theorem file_float order ious scores datums sel' : (0 <= unit)%Z -> few_det_labels ds -> det_selects ds datums sel' -> descending order -> ious <> [] -> scores <> [] ->
    ((exists m, np_metrics eps fbin order ious scores (det_load l1 l2 None) datums = AOk m) <-> (exists k, lowest_left e ds u k)) /\
    (forall m, np_metrics eps fbin order ious scores (det_load l1 l2 None) datums = AOk m -> float_metrics_ok eps (det_load l1 l2 None) datums ious scores m).
  Proof.
    intros Hu Hfew Hsel' Ho Hi Hs.
    assert (F : forall k, lowest_left e ds u k -> exists m, np_metrics eps fbin order ious scores (det_load l1 l2 None) datums = AOk m /\ float_metrics_ok eps (det_load l1 l2 None) datums ious scores m).
    { intros k Hk. assert (Hf : shows eps unit ds L u full) by (eapply full_shows; eauto).
      apply (loaded_float eps unit ds L u full Hin Hf Hu Hfew datums sel' Hsel' order Ho ious scores Hi Hs k).
      intros v vi Hv. apply Hk. refine (proj1 (full_numbers _ _ _ _ _ _ _ _ _ _ _ _ Hrb Hb H1 H2 v vi) Hv). }
    assert (N : forall m, np_metrics eps fbin order ious scores (det_load l1 l2 None) datums = AOk m -> exists k, lowest_left e ds u k) by (intros m Hm; eapply file_needs; eauto).
    split; [split|].
    - intros (m & H). apply (N m H).
    - intros (k & Hk). destruct (F k Hk) as (m & Hm & _). eauto.
    - intros m Hm. destruct (N m Hm) as (k & Hk). destruct (F k Hk) as (m' & Hm' & O). rewrite Hm in Hm'. injection Hm' as <-. exact O.
  Qed.
End File.
