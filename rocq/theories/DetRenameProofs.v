(* C138: reports of detections whose labels are renamed. *)
From Verif Require Import Prelude Counting CacheModel CacheSpec SortProofs ClsModel ClsSpec ClsLabelProofs FlowModel DetModel DetExModel DetSpec DetMain DetFlowModel DetApProofs DetReportModel DetEnd DetMore DetFilterModel
  DetFilterSpec DetFilterEntries DetFilterMain DetReorderSpec DetReorderProofs ClsRenameSpec ClsRenameProofs DetRenameSpec.
From Coq Require Import String QArith Lia.
Local Notation length := List.length (only parsing).
Local Notation concat := List.concat (only parsing).
Local Open Scope nat_scope.
Local Open Scope list_scope.

Lemma few_le (l m : list string) : length l = length m -> few l -> few m.
Proof. unfold few. intros ->. auto. Qed.
Lemma nodup_map_length f (l : list string) : names_apart f l -> length (nodup string_dec (map f l)) = length (nodup string_dec l).
Proof.
  intros H. rewrite <- (map_length f (nodup string_dec l)). apply Permutation_length. apply NoDup_Permutation.
  - apply NoDup_nodup.
  - apply NoDup_map_on; [|apply NoDup_nodup]. intros a b Ha Hb. apply nodup_In in Ha, Hb. apply H; assumption.
  - intros x. rewrite nodup_In, !in_map_iff. split; intros (y & E & Hy); exists y; (split; [exact E|]); [apply nodup_In; exact Hy|apply nodup_In in Hy; exact Hy].
Qed.

Section Data.
  Variables (unit : Z) (h k f : string -> string) (ds : list detection).
  Notation ds' := (map (drename h k f) ds).
  Notation L := (det_labels ds).
  Hypothesis Hf : names_apart f L.

  Lemma ann_label_in d a l : In d ds -> In a (t_gts d ++ t_pds d) -> In l (a_labels a) -> In l L.
  Proof.
    intros Hd Ha Hl. unfold det_labels. apply in_concat. eexists. split; [apply in_map; exact Hd|]. apply in_concat. exists (a_labels a). split; [apply in_map; exact Ha|exact Hl].
  Qed.
  Lemma gt_in d a l : In d ds -> In a (t_gts d) -> In l (a_labels a) -> In l L.
  Proof. intros Hd Ha. apply (ann_label_in d a l Hd). apply in_app_iff. left. exact Ha. Qed.
  Lemma pd_in d a l : In d ds -> In a (t_pds d) -> In l (a_labels a) -> In l L.
  Proof. intros Hd Ha. apply (ann_label_in d a l Hd). apply in_app_iff. right. exact Ha. Qed.
  Lemma det_labels_rename : det_labels ds' = map f L.
  Proof.
    unfold det_labels. rewrite map_map, concat_map, map_map. f_equal. apply map_ext. intros d. cbn [drename t_gts t_pds].
    rewrite <- map_app, map_map, concat_map, map_map. reflexivity.
  Qed.
  Lemma input_rename : det_input unit ds -> det_input unit ds'.
  Proof.
    unfold det_input. intros Hin. rewrite Forall_forall in Hin |- *. intros d' Hd. apply in_map_iff in Hd. destruct Hd as (d & <- & Hd). destruct (Hin d Hd) as (A & B & C).
    split; [|split; [|exact C]].
    - unfold det_ok in *. cbn [drename t_gts t_pds]. rewrite !andb_true_iff in *. destruct A as ((A1 & A2) & A3). split; [split|];
        match goal with H : forallb ?p ?l = true |- forallb ?p (map _ ?l) = true => rewrite forallb_forall in H |- *; intros a Ha; apply in_map_iff in Ha; destruct Ha as (b & <- & Hb); specialize (H b Hb) end.
      + unfold ann_ok, arename in *. cbn. rewrite map_length. exact A1.
      + unfold ann_ok, arename in *. cbn. rewrite map_length. exact A2.
      + cbn. rewrite map_length. exact A3.
    - intros a Ha. cbn in Ha. apply in_map_iff in Ha. destruct Ha as (b & <- & Hb). exact (B b Hb).
  Qed.
  Lemma few_rename : few_det_labels ds -> few_det_labels ds'.
  Proof. unfold few_det_labels. rewrite det_labels_rename. apply few_le. symmetry. apply nodup_map_length. exact Hf. Qed.
  Lemma distinct_rename : Forall distinct_pd_labels ds -> Forall distinct_pd_labels ds'.
  Proof.
    intros Hd. rewrite Forall_forall in Hd |- *. intros d' H. apply in_map_iff in H. destruct H as (d & <- & H). intros a Ha. cbn in Ha. apply in_map_iff in Ha.
    destruct Ha as (b & <- & Hb). cbn. apply NoDup_map_on; [|exact (Hd d H b Hb)]. intros x y Hx Hy. apply Hf; eapply pd_in; eassumption.
  Qed.

  (* a ground truth with one label *)
  Lemma one_label d g ga' v : In d ds -> nth_error (t_gts (drename h k f d)) g = Some ga' -> In v L -> a_labels ga' = [f v] ->
    exists ga, nth_error (t_gts d) g = Some ga /\ a_labels ga = [v].
  Proof.
    intros Hd Hg Hv E. cbn [drename t_gts] in Hg. rewrite nth_error_map in Hg. destruct (nth_error (t_gts d) g) as [ga|] eqn:Eg; [|discriminate]. injection Hg as <-.
    exists ga. split; [reflexivity|]. cbn [arename a_labels] in E. assert (Hi : forall l, In l (a_labels ga) -> In l L) by (intros l; apply (gt_in d ga l Hd (nth_error_In _ _ Eg))).
    destruct (a_labels ga) as [|x [|y r]]; try discriminate. injection E as E. f_equal. apply Hf; [apply Hi; left; reflexivity|exact Hv|exact E].
  Qed.
  Lemma one_label_to d g ga v : nth_error (t_gts d) g = Some ga -> a_labels ga = [v] ->
    exists ga', nth_error (t_gts (drename h k f d)) g = Some ga' /\ a_labels ga' = [f v].
  Proof. intros Hg E. exists (arename k f ga). split; [cbn; rewrite nth_error_map, Hg; reflexivity|]. cbn. rewrite E. reflexivity. Qed.

  Section View.
    Variables u u' : dview.
    Hypothesis Hv : renamed_dview h k f ds u u'.
    Variable eps : Z.

    Lemma entry_rename v x : In v L -> entry eps ds u v x -> entry eps ds' u' (f v) x.
    Proof.
      intros HvL (d & pa & n & Hd & Hp & Hn & Hs & Hpv & Hc). assert (Hid := nth_error_In _ _ Hd). destruct (Hv d Hid) as (HG & HP).
      assert (HG' : forall g ga, nth_error (t_gts d) g = Some ga -> v_gt u' (drename h k f d) g = v_gt u d g).
      { intros g ga Hg. apply HG. apply nth_error_Some. congruence. }
      exists (drename h k f d), (arename k f pa), n.
      split; [rewrite nth_error_map, Hd; reflexivity|]. split; [cbn; rewrite nth_error_map, Hp; reflexivity|]. split; [cbn; rewrite nth_error_map, Hn; reflexivity|].
      split; [exact Hs|]. split; [rewrite (HP _ pa v Hp (nth_error_In _ _ Hn)); exact Hpv|].
      destruct (x_c x) as [g|].
      - destruct Hc as ((ga & Hga & Hl) & Vg & Ho & Ez & Hm & Hfst). split; [exact (one_label_to d g ga v Hga Hl)|]. split; [rewrite (HG' g ga Hga); exact Vg|]. split; [exact Ho|]. split; [exact Ez|].
        split; intros g' ga' Hg' Hl' Vg'; destruct (one_label d g' ga' v Hid Hg' HvL Hl') as (ga0 & Hg0 & Hl0); rewrite (HG' g' ga0 Hg0) in Vg';
          [apply (Hm g' ga0 Hg0 Hl0 Vg')|apply (Hfst g' ga0 Hg0 Hl0 Vg')].
      - destruct Hc as (Hno & Hz). split.
        + intros v' g ga' Hv' Vv' Hg Hl Vg. cbn in Hv'. apply in_map_iff in Hv'. destruct Hv' as (v0 & <- & Hv0).
          rewrite (HP _ pa v0 Hp Hv0) in Vv'. destruct (one_label d g ga' v0 Hid Hg (pd_in d pa v0 Hid (nth_error_In _ _ Hp) Hv0) Hl) as (ga0 & Hg0 & Hl0).
          rewrite (HG' g ga0 Hg0) in Vg. exact (Hno v0 g ga0 Hv0 Vv' Hg0 Hl0 Vg).
        + cbn [drename t_gts t_iou]. rewrite map_length. destruct Hz as [(g & Hg & Vg & Ho & Ez & Hm)|(Ez & Hm)]; [left|right].
          * exists g. split; [exact Hg|]. split; [rewrite (HG g Hg); exact Vg|]. split; [exact Ho|]. split; [exact Ez|]. intros g' Hg' Vg'. rewrite (HG g' Hg') in Vg'. apply Hm; assumption.
          * split; [exact Ez|]. intros g' Hg' Vg'. rewrite (HG g' Hg') in Vg'. apply Hm; assumption.
    Qed.
    Lemma entry_rename_back v x : In v L -> entry eps ds' u' (f v) x -> entry eps ds u v x.
    Proof.
      intros HvL (d' & pa' & n & Hd & Hp & Hn & Hs & Hpv & Hc).
      rewrite nth_error_map in Hd. destruct (nth_error ds (x_i x)) as [d|] eqn:Ed; [|discriminate]. injection Hd as <-.
      cbn [drename t_pds] in Hp. rewrite nth_error_map in Hp. destruct (nth_error (t_pds d) (x_p x)) as [pa|] eqn:Ep; [|discriminate]. injection Hp as <-.
      cbn [arename a_labels a_scores] in Hn, Hs. rewrite nth_error_map in Hn. destruct (nth_error (a_labels pa) n) as [v0|] eqn:En; [|discriminate]. injection Hn as Hn.
      assert (Hid := nth_error_In _ _ Ed). destruct (Hv d Hid) as (HG & HP).
      assert (v0 = v). { apply Hf; [exact (pd_in d pa v0 Hid (nth_error_In _ _ Ep) (nth_error_In _ _ En))|exact HvL|exact Hn]. } subst v0.
      assert (HG' : forall g ga, nth_error (t_gts d) g = Some ga -> v_gt u' (drename h k f d) g = v_gt u d g).
      { intros g ga Hg. apply HG. apply nth_error_Some. congruence. }
      exists d, pa, n. split; [exact Ed|]. split; [exact Ep|]. split; [exact En|]. split; [exact Hs|].
      split; [rewrite <- (HP _ pa v Ep (nth_error_In _ _ En)); exact Hpv|].
      destruct (x_c x) as [g|].
      - destruct Hc as ((ga' & Hga & Hl) & Vg & Ho & Ez & Hm & Hfst). destruct (one_label d g ga' v Hid Hga HvL Hl) as (ga & Hg0 & Hl0).
        split; [exists ga; auto|]. split; [rewrite <- (HG' g ga Hg0); exact Vg|]. split; [exact Ho|]. split; [exact Ez|].
        split; intros g' ga0 Hg' Hl' Vg'; destruct (one_label_to d g' ga0 v Hg' Hl') as (ga1 & Hg1 & Hl1); rewrite <- (HG' g' ga0 Hg') in Vg';
          [apply (Hm g' ga1 Hg1 Hl1 Vg')|apply (Hfst g' ga1 Hg1 Hl1 Vg')].
      - destruct Hc as (Hno & Hz). split.
        + intros v' g ga Hv' Vv' Hg Hl Vg. destruct (one_label_to d g ga v' Hg Hl) as (ga1 & Hg1 & Hl1).
          rewrite <- (HP _ pa v' Ep Hv') in Vv'. rewrite <- (HG' g ga Hg) in Vg. apply (Hno (f v') g ga1); auto. cbn. apply in_map. exact Hv'.
        + cbn [drename t_gts t_iou] in Hz. rewrite map_length in Hz. destruct Hz as [(g & Hg & Vg & Ho & Ez & Hm)|(Ez & Hm)]; [left|right].
          * exists g. split; [exact Hg|]. split; [rewrite <- (HG g Hg); exact Vg|]. split; [exact Ho|]. split; [exact Ez|]. intros g' Hg' Vg'. rewrite <- (HG g' Hg') in Vg'. apply Hm; assumption.
          * split; [exact Ez|]. intros g' Hg' Vg'. rewrite <- (HG g' Hg') in Vg'. apply Hm; assumption.
    Qed.
    Lemma canonical_rename v l : In v L -> canonical eps ds u v l -> canonical eps ds' u' (f v) l.
    Proof. intros HvL [A B C]. split; [|exact B|exact C]. intros x. rewrite A. split; [apply entry_rename|apply entry_rename_back]; exact HvL. Qed.

    Lemma numbered_map' {A B} (q : A -> B) (l : list A) : numbered (map q l) = map (fun x => (fst x, q (snd x))) (numbered l).
    Proof. unfold numbered. rewrite map_length. generalize 0. induction l as [|a l IH]; intros n; [reflexivity|]. cbn. f_equal. apply IH. Qed.
    Lemma has_label_rename v a : In v L -> (forall l, In l (a_labels a) -> In l L) -> has_label (f v) (arename k f a) = has_label v a.
    Proof.
      intros HvL Ha. unfold has_label. cbn [arename a_labels]. apply existsb_map_on. intros l Hl. apply (apart_eqb f L); auto.
    Qed.
    Lemma gts_rename v : In v L -> gts_where (fun _ => true) (fun d g => v_gt u' d g) ds' (f v) = gts_where (fun _ => true) (fun d g => v_gt u d g) ds v.
    Proof.
      intros HvL. unfold gts_where. rewrite map_map. apply list_sum_nat_ext. intros d Hd. destruct (Hv d Hd) as (HG & _).
      cbn [drename t_gts]. rewrite numbered_map', countb_map. apply countb_ext. intros [g ga] Hg. apply numbered_In in Hg. cbn [fst snd].
      rewrite (has_label_rename v ga HvL); [|intros l; apply (gt_in d ga l Hd (nth_error_In _ _ Hg))].
      rewrite HG; [reflexivity|apply nth_error_Some; congruence].
    Qed.
  End View.
End Data.

Section Reports.
  Variables (eps unit : Z) (h k f : string -> string) (ds : list detection).
  Notation ds' := (map (drename h k f) ds).
  Hypothesis Heps : (0 < eps)%Z.
  Hypothesis Hu : (0 <= unit)%Z.
  Hypothesis Hin : det_input unit ds.
  Hypothesis Hfew : few_det_labels ds.
  Hypothesis Hdis : Forall distinct_pd_labels ds.
  Hypothesis Hf : names_apart f (det_labels ds).
  Variables (L1 : list string) (w : dview) (e : deval) (datums : drow -> bool) (sel : detection -> bool).
  Variables (L2 : list string) (w' : dview) (e' : deval) (datums' : drow -> bool) (sel' : detection -> bool).
  Hypothesis S1 : shows eps unit ds L1 w e.
  Hypothesis S2 : shows eps unit ds' L2 w' e'.
  Hypothesis D1 : det_selects ds datums sel.
  Hypothesis D2 : det_selects ds' datums' sel'.
  Hypothesis Hw : renamed_dview h k f ds w w'.
  Hypothesis Hsel : forall d, In d ds -> sel' (drename h k f d) = sel d.

  Lemma selection_rename : renamed_dview h k f ds (by_selection w sel) (by_selection w' sel').
  Proof.
    intros d Hd. destruct (Hw d Hd) as (A & B). cbn. rewrite (Hsel d Hd).
    split; [intros g Hg; rewrite (A g Hg); reflexivity|intros p pa l Hp Hl; rewrite (B p pa l Hp Hl); reflexivity].
  Qed.

  (* the labels of the two evaluators *)
  Lemma axis_of ds0 (Hi : det_input unit ds0) L0 w0 e0 : shows eps unit ds0 L0 w0 e0 ->
    exists M, NoDup M /\ (forall v, In v M <-> In v (det_labels ds0)) /\ (forall v vi, label_no e0 v vi <-> index_of v M = Some vi) /\ label_axis e0 = map (idx M) M.
  Proof.
    intros S. destruct (shows_origin eps unit ds0 L0 w0 e0 S) as (a & Ha & Ea & _). destruct (end_axis eps unit ds0 a Hi Ha) as (M & N & I & B & A & _).
    exists M. split; [exact N|]. split; [exact I|]. unfold label_no, label_axis in *. rewrite Ea. split; [exact B|exact A].
  Qed.

  Theorem renamed_report v vi vi' : label_no e v vi -> label_no e' (f v) vi' -> same_report eps e datums (Z.of_nat vi) e' datums' (Z.of_nat vi').
  Proof.
    intros Hv Hv'.
    assert (HvL : In v (det_labels ds)) by (apply (shows_labels eps unit ds L1 Hin w e v S1); exists vi; exact Hv).
    assert (Hin' := input_rename unit h k f ds Hin). assert (Hdis' := distinct_rename h k f ds Hf Hdis).
    destruct (shown_report eps unit ds L1 w e Heps Hu Hin Hfew Hdis S1 datums sel D1 v vi Hv) as (l & Hl & Eg & Et & Ef & Ec).
    destruct (shown_report eps unit ds' L2 w' e' Heps Hu Hin' (few_rename h k f ds Hf Hfew) Hdis' S2 datums' sel' D2 (f v) vi' Hv') as (l' & Hl' & Eg' & Et' & Ef' & Ec').
    assert (l = l').
    { apply (canonical_unique eps ds' (by_selection w' sel') (f v)); auto. apply (canonical_rename h k f ds Hf (by_selection w sel) _ selection_rename); assumption. }
    subst l'.
    assert (EG : rep_gts e datums (Z.of_nat vi) = rep_gts e' datums' (Z.of_nat vi')).
    { rewrite Eg, Eg'. symmetry. apply (gts_rename h k f ds Hf (by_selection w sel) _ selection_rename). exact HvL. }
    apply reports_ext; auto.
    - intros t s Ht. rewrite (Et t s Ht), (Et' t s Ht). reflexivity.
    - intros t s Ht. assert (A := Ef t s Ht). assert (B := Ef' t s Ht). rewrite (Et t s Ht) in A. rewrite (Et' t s Ht) in B. lia.
    - intros t b Ht. rewrite (Ec t b Ht), (Ec' t b Ht), EG. reflexivity.
  Qed.
  Theorem renamed_labels v : In v (det_labels ds) -> exists vi vi', label_no e v vi /\ label_no e' (f v) vi'.
  Proof.
    intros Hv. destruct (proj2 (shows_labels eps unit ds L1 Hin w e v S1) Hv) as (vi & A).
    assert (Hv' : In (f v) (det_labels ds')) by (rewrite det_labels_rename; apply in_map; exact Hv).
    destruct (proj2 (shows_labels eps unit ds' L2 (input_rename unit h k f ds Hin) w' e' (f v) S2) Hv') as (vi' & B). exists vi, vi'. auto.
  Qed.

  Lemma axis_values (z z' : Z -> option Q) :
    (forall v vi vi', label_no e v vi -> label_no e' (f v) vi' -> z (Z.of_nat vi) = z' (Z.of_nat vi')) ->
    same_values (concat (map (fun l => match z l with Some q => [q] | None => [] end) (label_axis e)))
                (concat (map (fun l => match z' l with Some q => [q] | None => [] end) (label_axis e'))).
  Proof.
    intros H. destruct (axis_of ds Hin L1 w e S1) as (M1 & N1 & I1 & B1 & A1).
    destruct (axis_of ds' (input_rename unit h k f ds Hin) L2 w' e' S2) as (M2 & N2 & I2 & B2 & A2).
    assert (P : Permutation M2 (map f M1)).
    { apply NoDup_Permutation; [exact N2| |].
      - apply NoDup_map_on; [|exact N1]. intros a b Ha Hb. apply Hf; apply I1; assumption.
      - intros x. rewrite I2, det_labels_rename, !in_map_iff. split; intros (y & E & Hy); exists y; (split; [exact E|]); apply I1; exact Hy. }
    rewrite A1, A2, !map_map.
    assert (X : Permutation (concat (map (fun v => match z' (idx M2 v) with Some q => [q] | None => [] end) M2))
                            (concat (map (fun v => match z (idx M1 v) with Some q => [q] | None => [] end) M1))).
    { etransitivity; [rewrite <- flat_map_concat_map; apply Permutation_flat_map; exact P|]. rewrite flat_map_concat_map, map_map.
      rewrite (map_ext_in (fun x => match z' (idx M2 (f x)) with Some q => [q] | None => [] end) (fun v => match z (idx M1 v) with Some q => [q] | None => [] end)); [reflexivity|].
      intros v Hv. destruct (index_of v M1) as [k1|] eqn:E1; [|apply index_of_None in E1; contradiction].
      assert (Hv2 : In (f v) M2) by (apply (Permutation_in _ (Permutation_sym P)); apply in_map; exact Hv).
      destruct (index_of (f v) M2) as [k2|] eqn:E2; [|apply index_of_None in E2; contradiction].
      unfold idx. rewrite E1, E2. rewrite (H v k1 k2 (proj2 (B1 v k1) E1) (proj2 (B2 (f v) k2) E2)). reflexivity. }
    exists (concat (map (fun v => match z' (idx M2 v) with Some q => [q] | None => [] end) M2)). split; [symmetry; exact X|].
    generalize (concat (map (fun v => match z' (idx M2 v) with Some q => [q] | None => [] end) M2)). intros q. induction q; constructor; [reflexivity|assumption].
  Qed.
  Theorem renamed_map t : (0 < t)%Z -> same_number (rep_map eps e datums t) (rep_map eps e' datums' t).
  Proof.
    intros Ht. unfold rep_map, mean_ap. apply qmean_same. rewrite <- !concat_singletons.
    apply (axis_values (fun l => Some (rep_ap eps e datums t l)) (fun l => Some (rep_ap eps e' datums' t l))).
    intros v vi vi' Hv Hv'. f_equal. apply (sr_ap _ _ _ _ _ _ _ (renamed_report v vi vi' Hv Hv') t Ht).
  Qed.
  Theorem renamed_mar ious s : (forall t, In t ious -> (0 < t)%Z) -> same_number (rep_mar eps e datums ious s) (rep_mar eps e' datums' ious s).
  Proof.
    intros Hi. unfold rep_mar. apply qmean_same. apply (axis_values (fun l => rep_ar eps e datums ious s l) (fun l => rep_ar eps e' datums' ious s l)).
    intros v vi vi' Hv Hv'. apply (sr_ar _ _ _ _ _ _ _ (renamed_report v vi vi' Hv Hv') ious s Hi).
  Qed.
End Reports.
