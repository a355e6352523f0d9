(* Evaluators of classification data never leave their arrays; a filtered cache loaded
   without its labels does, unless the remaining labels have the lowest numbers. *)
From Verif Require Import Prelude CacheModel CacheSpec Counting DetArrayModel DetArrayProofs ClsModel ClsSpec ClsLabelProofs ClsProofs ClsLemmas RocModel FlowModel FlowProofs
  ClsFilterModel ClsFilterSpec ClsFilterProofs ClsFilterCounts ClsFilterMain ClsReportModel ClsReportProofs ClsArrayModel ClsArraySpec ClsArrayProofs.
From Coq Require Import String QArith Lia.
Local Notation length := List.length (only parsing).
Local Notation concat := List.concat (only parsing).
Local Open Scope nat_scope.
Local Open Scope list_scope.

Section Main.
  Variable cs : list classification.
  Hypothesis Hdist : Forall distinct_candidates cs.
  Variable w : cview.
  Variable e : ceval.
  Hypothesis He : cls_evaluator cs w e.
  Local Notation L := (labels_of cs).

  Lemma ev_row_ids r : In r (concat (ce_tables e)) ->
    exists c, In c cs /\ w c (r_pd_label r) = true /\ In (r_pd_label r) (c_predictions c) /\ In (c_groundtruth c) L /\ In (r_pd_label r) L /\
      r_gt r = idx L (c_groundtruth c) /\ r_pd r = idx L (r_pd_label r).
  Proof.
    intros Hr. apply (table_row cs (ev_acc cs w e He) w e (ev_good cs Hdist w e He)) in Hr. destruct Hr as (d & c & Hc & Hr & Hw).
    apply canon_In in Hr. destruct Hr as (_ & _ & _ & Eg & Ep & Hin & _). pose proof (nth_error_In _ _ Hc) as Hcin.
    exists c. split; [exact Hcin|]. split; [exact Hw|]. pose proof (labels_of_pd cs c _ Hcin Hin) as Hp. cbn [fst] in Hp.
    split; [|split; [apply labels_of_gt; exact Hcin|split; [exact Hp|split; assumption]]].
    unfold candidates in Hin. apply in_combine_l in Hin. exact Hin.
  Qed.

  Lemma ev_rows_inside : rows_inside (length (ce_labels e)) (concat (ce_tables e)).
  Proof.
    intros r Hr. rewrite (ev_n cs Hdist w e He). destruct (ev_row_ids r Hr) as (c & _ & _ & _ & Hg & Hp & -> & ->).
    split; apply idx_range; assumption.
  Qed.

  Lemma ev_keys_inside : keys_inside e.
  Proof.
    intros [k l] Hkl. cbn [fst]. rewrite (ev_n cs Hdist w e He).
    pose proof (cg_keys _ _ _ (ev_good cs Hdist w e He)) as HP. unfold label_keys in HP.
    assert (Hin : In (Z.to_nat k) (seq 0 (length L))).
    { eapply Permutation_in; [exact HP|]. apply in_map_iff. exists (k, l). split; [reflexivity|exact Hkl]. }
    apply in_seq in Hin. split; [|lia].
    destruct (Z_lt_le_dec k 0) as [Hneg|]; [|assumption]. exfalso.
    assert (H0 : Z.to_nat k = 0) by lia.
    destruct (nth_error L 0) as [l0|] eqn:E0; [|apply nth_error_None in E0; lia].
    apply (ev_labels cs Hdist w e He) in E0. unfold has_number in E0. apply dict_get_In in E0.
    assert (ND : NoDup (map (fun kv : Z * string => Z.to_nat (fst kv)) (ce_labels e))) by (eapply Permutation_NoDup; [symmetry; exact HP|apply seq_NoDup]).
    assert (X : (k, l) = (Z.of_nat 0, l0)).
    { clear - ND Hkl E0 H0. induction (ce_labels e) as [|x ls IH]; [contradiction|]. cbn [map] in ND. inversion ND as [|? ? Hn ND']; subst.
      destruct Hkl as [Hkl|Hkl], E0 as [E0|E0]; subst; try congruence.
      - cbn [fst] in Hn. exfalso. apply Hn. apply in_map_iff. exists (Z.of_nat 0, l0). cbn [fst]. split; [lia|exact E0].
      - cbn [fst] in Hn. exfalso. apply Hn. apply in_map_iff. exists (k, l). cbn [fst]. split; [lia|exact Hkl].
      - apply IH; assumption. }
    injection X as -> _. lia.
  Qed.

  Lemma ev_metrics_arrays tol hm thrs datums : thrs <> [] ->
    exists m, np_metrics tol hm thrs datums e = AOk m /\ report_metrics e tol hm thrs datums = Some m.
  Proof. intros Ht. apply np_metrics_ok; [exact Ht|exact ev_keys_inside|exact ev_rows_inside]. Qed.
  Lemma ev_confusion_arrays tol9 hm thrs datums : thrs <> [] ->
    exists r, np_confusion tol9 hm thrs datums e = AOk r /\ report_confusion e tol9 hm thrs datums = Some r.
  Proof. intros Ht. apply np_confusion_ok; [exact Ht|exact ev_keys_inside|exact ev_rows_inside]. Qed.
  Lemma ev_rocauc_arrays : np_rocauc e = AOk (report_rocauc e).
  Proof. apply np_rocauc_ok; [exact ev_keys_inside|exact ev_rows_inside]. Qed.
  Lemma ev_curve_arrays ts : np_roc_curve (label_keys (ce_labels e)) ts = AOk (roc_curve (label_keys (ce_labels e)) ts).
  Proof.
    apply np_roc_curve_ok. intros k Hk. pose proof (cg_keys _ _ _ (ev_good cs Hdist w e He)) as HP.
    rewrite (Permutation_length HP), seq_length. apply (Permutation_in _ HP) in Hk. apply in_seq in Hk. lia.
  Qed.

  (* the label map recovered from the rows *)
  Lemma ev_sound : sound_dict L (extract_labels (ce_tables e)) /\
      (forall x, In x (map fst (extract_labels (ce_tables e))) <-> In x (map r_gt (concat (ce_tables e))) \/ In x (map r_pd (concat (ce_tables e)))).
  Proof.
    apply extract_labels_gen. intros r Hr.
    pose proof Hr as Hr'. apply (table_row cs (ev_acc cs w e He) w e (ev_good cs Hdist w e He)) in Hr'. destruct Hr' as (d & c & Hc & Hr' & _).
    apply canon_In in Hr'. destruct Hr' as (_ & _ & El & _).
    destruct (ev_row_ids r Hr) as (c' & _ & _ & _ & _ & Hp & _ & Ep).
    destruct (table_row cs (ev_acc cs w e He) w e (ev_good cs Hdist w e He) r) as [T _]. destruct (T Hr) as (d2 & c2 & Hc2 & Hr2 & _).
    apply canon_In in Hr2. destruct Hr2 as (_ & _ & El2 & Eg2 & _).
    assert (Hg : In (c_groundtruth c2) L) by (apply labels_of_gt; eapply nth_error_In; exact Hc2).
    split; split.
    - rewrite Eg2. apply idx_range. exact Hg.
    - rewrite Eg2, El2. apply idx_nth. exact Hg.
    - rewrite Ep. apply idx_range. exact Hp.
    - rewrite Ep. apply idx_nth. exact Hp.
  Qed.

  Lemma ev_extracted x : In x (map fst (extract_labels (ce_tables e))) <-> exists l, In l (labels_of (reduced w cs)) /\ x = idx L l.
  Proof.
    assert (Ha := ev_acc cs w e He). destruct ev_sound as [_ HX]. rewrite HX. split.
    - intros H. assert (G : exists r, In r (concat (ce_tables e)) /\ (x = r_gt r \/ x = r_pd r)).
      { destruct H as [H|H]; apply in_map_iff in H; destruct H as (r & E & Hr); exists r; auto. }
      destruct G as (r & Hr & E). destruct (ev_row_ids r Hr) as (c & Hc & Hw & Hin & Hg & Hp & E1 & E2).
      assert (Hv : visible w c = true) by (unfold visible; apply existsb_exists; eauto).
      assert (Hac : accepted c) by (rewrite Forall_forall in Ha; auto).
      destruct E as [-> | ->].
      + exists (c_groundtruth c). split; [|exact E1]. apply reduced_labels; [exact Ha|]. exists c. auto.
      + exists (r_pd_label r). split; [|exact E2]. apply reduced_labels; [exact Ha|]. exists c. split; [exact Hc|]. split; [exact Hv|]. right.
        rewrite (viewed_predictions w c Hac). apply filter_In. auto.
    - intros (l & Hl & ->). apply reduced_labels in Hl; [|exact Ha]. destruct Hl as (c & Hc & Hv & Hl).
      assert (Hac : accepted c) by (rewrite Forall_forall in Ha; auto).
      assert (R : forall p, In p (c_predictions c) -> w c p = true -> exists r, In r (concat (ce_tables e)) /\ r_pd_label r = p /\ r_gt r = idx L (c_groundtruth c) /\ r_pd r = idx L p).
      { intros p Hp Hw. destruct (In_nth_error _ _ Hc) as (d & Hd).
        assert (Hcand : exists s, In (p, s) (candidates c)).
        { unfold candidates. destruct Hac as [_ Hlen]. destruct (In_nth_error _ _ Hp) as (k & Hk).
          destruct (nth_error (c_scores c) k) as [s|] eqn:Es.
          - exists s. eapply nth_error_In with (n := k). apply nth_error_combine; eassumption.
          - apply nth_error_None in Es. assert (k < length (c_predictions c)) by (apply nth_error_Some; congruence). lia. }
        destruct Hcand as (s & Hs). destruct (canon_In_conv L d c p s Hs) as (r & Hr & Hrl & _).
        exists r. split; [|].
        - apply (table_row cs Ha w e (ev_good cs Hdist w e He)). exists d, c. split; [exact Hd|]. split; [exact Hr|]. rewrite Hrl. exact Hw.
        - apply canon_In in Hr. destruct Hr as (_ & _ & _ & Eg & Ep & _). rewrite Hrl in Ep. auto. }
      destruct Hl as [-> | Hl].
      + unfold visible in Hv. apply existsb_exists in Hv. destruct Hv as (p & Hp & Hw). destruct (R p Hp Hw) as (r & Hr & _ & Eg & _).
        left. rewrite <- Eg. apply in_map. exact Hr.
      + rewrite (viewed_predictions w c Hac) in Hl. apply filter_In in Hl. destruct Hl as [Hp Hw]. destruct (R l Hp Hw) as (r & Hr & _ & _ & Ep).
        right. rewrite <- Ep. apply in_map. exact Hr.
  Qed.

  Lemma ev_extracted_length : length (extract_labels (ce_tables e)) = length (labels_of (reduced w cs)).
  Proof.
    assert (Ha := ev_acc cs w e He). rewrite <- (map_length fst), <- (map_length (idx L)). apply Permutation_length. apply NoDup_Permutation.
    - apply ev_sound.
    - assert (G : forall ls, (forall l, In l ls -> In l L) -> NoDup ls -> NoDup (map (idx L) ls)).
      { induction ls as [|l ls IH]; intros H ND; cbn [map]; constructor; inversion ND; subst.
        - intros Hin. apply in_map_iff in Hin. destruct Hin as (l' & E & Hl'). pose proof (idx_eqb L l' l (H l' (or_intror Hl')) (H l (or_introl eq_refl))) as X.
          rewrite E, Z.eqb_refl in X. symmetry in X. apply String.eqb_eq in X. subst. contradiction.
        - apply IH; [intros l' Hl'; apply H; right; exact Hl'|assumption]. }
      apply G; [|apply labels_of_NoDup]. intros l Hl. exact (reduced_labels_sub w cs l Ha Hl).
    - intros x. rewrite ev_extracted, in_map_iff. split; intros (l & A & B); exists l; auto.
  Qed.

  (* the label numbers of the remaining data are the lowest ones *)
  Lemma ev_lowest : (forall l i, In l (labels_of (reduced w cs)) -> has_number e l i -> i < length (labels_of (reduced w cs))) <->
    forall x, In x (map fst (extract_labels (ce_tables e))) -> inside (length (extract_labels (ce_tables e))) x.
  Proof.
    assert (Ha := ev_acc cs w e He). rewrite ev_extracted_length. split.
    - intros H x Hx. apply ev_extracted in Hx. destruct Hx as (l & Hl & ->).
      assert (HL := reduced_labels_sub w cs l Ha Hl). destruct (idx_range L l HL) as [R0 R1]. split; [exact R0|].
      specialize (H l (Z.to_nat (idx L l)) Hl). assert (X : has_number e l (Z.to_nat (idx L l))).
      { apply (ev_labels cs Hdist w e He). apply idx_nth. exact HL. }
      specialize (H X). lia.
    - intros H l i Hl Hi. apply (ev_labels cs Hdist w e He) in Hi. pose proof (idx_of_nth L l i (labels_of_NoDup cs) Hi) as E.
      destruct (H (idx L l)) as [_ X]; [apply ev_extracted; eauto|]. lia.
  Qed.
End Main.

(* ---------------------------------------------------------------- success means inside *)
Lemma aok_inj {A} (a b : A) : AOk a = AOk b -> a = b.
Proof. congruence. Qed.
Lemma abind_inv {A B} (r : ares A) (f : A -> ares B) b : abind r f = AOk b -> exists a, r = AOk a /\ f a = AOk b.
Proof. destruct r as [a|x]; cbn; [eauto|discriminate]. Qed.
Lemma amap_inv {A B} (f : A -> ares B) l : forall bs, amap f l = AOk bs -> Forall2 (fun a b => f a = AOk b) l bs.
Proof.
  induction l as [|a l IH]; intros bs H; cbn in H; [injection H as <-; constructor|].
  apply abind_inv in H. destruct H as (b & H1 & H2). apply abind_inv in H2. destruct H2 as (bs' & H2 & H3). injection H3 as <-.
  constructor; auto.
Qed.
Lemma amap_inv_In {A B} (f : A -> ares B) l bs a : amap f l = AOk bs -> In a l -> exists b, f a = AOk b.
Proof.
  intros H. apply amap_inv in H. induction H as [|x y l bs Hxy H IH]; [contradiction|]. intros [->|Hin]; [eauto|auto].
Qed.
Lemma afold_inv {A S} (P : S -> Prop) (f : S -> A -> ares S) l : (forall s a s', P s -> f s a = AOk s' -> P s') ->
  forall s s', P s -> afold f l s = AOk s' -> P s'.
Proof.
  intros Hstep. induction l as [|a l IH]; intros s s' Hs H; cbn in H; [injection H as <-; exact Hs|].
  apply abind_inv in H. destruct H as (s1 & H1 & H2). eapply IH; [eapply Hstep; eassumption|exact H2].
Qed.
Lemma afold_inv_In {A S} (f : S -> A -> ares S) l : forall s s' a, afold f l s = AOk s' -> In a l -> exists s1 s2, f s1 a = AOk s2.
Proof.
  induction l as [|x l IH]; intros s s' a H Hin; [contradiction|]. cbn in H. apply abind_inv in H. destruct H as (s1 & H1 & H2).
  destruct Hin as [->|Hin]; [eauto|eapply IH; eauto].
Qed.
Lemma np_get_inv {A} (a : list A) k x : (0 <= k)%Z -> np_get a k = AOk x -> inside (length a) k.
Proof.
  intros Hk H. unfold np_get in H. destruct (np_pos (length a) k) eqn:E; [|discriminate]. unfold np_pos in E.
  destruct (Z.leb_spec 0 k); [|lia]. destruct (Z.ltb_spec k (Z.of_nat (length a))); [|discriminate]. split; assumption.
Qed.
Lemma np_set_length {A} (a : list A) k x b : np_set a k x = AOk b -> length b = length a.
Proof. unfold np_set. destruct (np_pos _ _); [|discriminate]. intros [= <-]. apply set_nth_length. Qed.
Lemma assign_length n v b : assign n v = AOk b -> length b = n.
Proof.
  unfold assign. destruct v as [|x [|y v]].
  - destruct (Nat.eqb_spec (List.length (@nil nat)) n); [|discriminate]. intros [= <-]. assumption.
  - intros [= <-]. apply repeat_length.
  - destruct (Nat.eqb_spec (List.length (x :: y :: v)) n); [|discriminate]. intros [= <-]. assumption.
Qed.
Lemma map2_length {A B C} (f : A -> B -> C) a : forall b, length (map2 f a b) = Nat.min (length a) (length b).
Proof. induction a as [|x a IH]; intros [|y b]; cbn; [reflexivity..|]. rewrite IH. reflexivity. Qed.

Section Inside.
  Variable e : ceval.
  Local Notation n := (length (ce_labels e)).
  Hypothesis Hpos : forall kl, In kl (ce_labels e) -> (0 <= fst kl)%Z.

  Lemma metrics_inside tol hm thrs datums m : np_metrics tol hm thrs datums e = AOk m -> keys_inside e.
  Proof.
    unfold np_metrics. destruct thrs as [|t0 ts]; [discriminate|]. set (thrs := t0 :: ts). intros H.
    apply abind_inv in H. destruct H as (qs & HC & H). apply abind_inv in H. destruct H as (cells & HU & _).
    assert (HQ : length qs = length thrs /\ Forall (fun q => length (q_tp q) = n) qs).
    { unfold np_cls_counts in HC. eapply (afold_inv (fun qs => length qs = length thrs /\ Forall (fun q => length (q_tp q) = n) qs)); [|split|exact HC].
      - intros s t s' [Hl Hs] Hstep. apply abind_inv in Hstep. destruct Hstep as (b & Hb & E). injection E as <-.
        assert (HB : length b = length thrs /\ Forall (fun q => length (q_tp q) = n) b).
        { unfold np_counts in Hb. destruct (filter datums t) as [|r rows].
          - apply aok_inj in Hb. rewrite <- Hb. split; [apply map_length|]. apply Forall_forall. intros q Hq. apply in_map_iff in Hq. destruct Hq as (_ & <- & _). apply repeat_length.
          - apply amap_inv in Hb. split; [symmetry; eapply Forall2_len; exact Hb|]. clear - Hb. induction Hb as [|thr q l l' Hq Hb IH]; constructor; [|exact IH].
            unfold quad_at in Hq. apply abind_inv in Hq. destruct Hq as (tp & H1 & Hq). apply abind_inv in Hq. destruct Hq as (fp & _ & Hq).
            apply abind_inv in Hq. destruct Hq as (fn & _ & Hq). apply abind_inv in Hq. destruct Hq as (tn & _ & Hq). injection Hq as <-. cbn [q_tp].
            unfold column in H1. apply abind_inv in H1. destruct H1 as (v & _ & H1). eapply assign_length. exact H1. }
        destruct HB as [HBl HB]. split; [rewrite map2_length; lia|].
        clear - Hs HB. revert b HB. induction Hs as [|q s Hq Hs IH]; intros [|q' b] HB; cbn [map2]; constructor.
        + inversion HB; subst. unfold quad_add. cbn [q_tp]. rewrite map2_length. lia.
        + inversion HB; subst. apply IH. assumption.
      - apply map_length.
      - apply Forall_forall. intros q Hq. apply in_map_iff in Hq. destruct Hq as (_ & <- & _). apply repeat_length. }
    destruct HQ as [HQl HQ]. intros kl Hkl. unfold np_unpack in HU. apply abind_inv in HU. destruct HU as (ll & HU & _).
    destruct (amap_inv_In _ _ _ kl HU Hkl) as (row & Hrow). destruct qs as [|q qs]; [discriminate|].
    destruct (amap_inv_In _ _ _ (t0, q) Hrow) as (x & Hx); [left; reflexivity|]. cbn [snd fst] in Hx.
    apply abind_inv in Hx. destruct Hx as (c & Hx & _). unfold quad_get in Hx. apply abind_inv in Hx. destruct Hx as (a & Hx & _).
    apply np_get_inv in Hx; [|apply Hpos; exact Hkl]. inversion HQ as [|? ? E _]; subst. rewrite E in Hx. exact Hx.
  Qed.

  Lemma confusion_inside tol9 hm thrs datums r : np_confusion tol9 hm thrs datums e = AOk r -> keys_inside e.
  Proof.
    unfold np_confusion. destruct thrs as [|t0 ts]; [discriminate|]. set (thrs := t0 :: ts). intros H.
    apply abind_inv in H. destruct H as (Ms & HC & H).
    assert (HQ : length Ms = length thrs /\ Forall (fun q => length (snd q) = n) Ms).
    { unfold np_cls_confusion in HC. eapply (afold_inv (fun qs => length qs = length thrs /\ Forall (fun q => length (snd q) = n) qs)); [|split|exact HC].
      - intros s t s' [Hl Hs] Hstep. apply abind_inv in Hstep. destruct Hstep as (b & Hb & E). injection E as <-.
        assert (HB : length b = length thrs /\ Forall (fun q => length (snd q) = n) b).
        { apply amap_inv in Hb. split; [rewrite <- (masks_length tol9 hm thrs); symmetry; eapply Forall2_len; exact Hb|].
          clear - Hb. induction Hb as [|m q l l' Hq Hb IH]; constructor; [|exact IH].
          unfold np_confusion_of in Hq. apply abind_inv in Hq. destruct Hq as (M & _ & Hq). apply abind_inv in Hq. destruct Hq as (U & HU & Hq). injection Hq as <-. cbn [snd].
          eapply (afold_inv (fun U => length U = n)); [|apply repeat_length|exact HU]. intros s a s' Hs E. apply np_set_length in E. congruence. }
        destruct HB as [HBl HB]. split; [rewrite map2_length; lia|].
        clear - Hs HB. revert b HB. induction Hs as [|q s Hq Hs IH]; intros [|q' b] HB; cbn [map2]; constructor.
        + inversion HB; subst. unfold conf_sum. cbn [snd]. rewrite map2_length. lia.
        + inversion HB; subst. apply IH. assumption.
      - apply map_length.
      - apply Forall_forall. intros q Hq. apply in_map_iff in Hq. destruct Hq as (_ & <- & _). apply repeat_length. }
    destruct HQ as [HQl HQ]. intros kl Hkl. destruct Ms as [|M Ms]; [discriminate|].
    destruct (amap_inv_In _ _ _ (t0, M) H) as (x & Hx); [left; reflexivity|]. cbn [snd fst] in Hx. apply abind_inv in Hx. destruct Hx as (d & Hx & _).
    unfold np_unpack_matrix in Hx. destruct (afold_inv_In _ _ _ _ kl Hx Hkl) as (s1 & s2 & Hs). apply abind_inv in Hs. destruct Hs as (u & Hu & _).
    apply np_get_inv in Hu; [|apply Hpos; exact Hkl]. inversion HQ as [|? ? E _]; subst. rewrite E in Hu. exact Hu.
  Qed.

  Lemma rocauc_inside r : np_rocauc e = AOk r -> keys_inside e.
  Proof.
    unfold np_rocauc. intros H. apply abind_inv in H. destruct H as (c & _ & H). apply abind_inv in H. destruct H as (st & HS & H).
    apply abind_inv in H. destruct H as (vs & H & _).
    assert (HL : length st = n).
    { eapply (afold_inv (fun st => length st = n)); [|apply repeat_length|exact HS]. intros s f s' Hs Hf. unfold np_rocauc_file in Hf.
      eapply (afold_inv (fun st => length st = n)); [|exact Hs|exact Hf]. clear. intros s i s' Hs H. apply abind_inv in H. destruct H as (p & _ & H).
      destruct p as [|p]; [congruence|]. destruct (points_of i f); [congruence|]. apply abind_inv in H. destruct H as (g & _ & H). apply abind_inv in H. destruct H as (x & _ & H).
      apply np_set_length in H. congruence. }
    intros kl Hkl. destruct (amap_inv_In _ _ _ kl H Hkl) as (x & Hx). apply abind_inv in Hx. destruct Hx as (v & Hx & _).
    apply np_get_inv in Hx; [|apply Hpos; exact Hkl]. rewrite map_length, HL in Hx. exact Hx.
  Qed.
End Inside.

(* ---------------------------------------------------------------- loading without labels *)
Section Load.
  Variable cs : list classification.
  Hypothesis Hdist : Forall distinct_candidates cs.
  Variables w sel sg sp : cview.
  Variable e : ceval.
  Hypothesis He : cls_evaluator cs w e.
  Variable datums : crow -> bool.
  Variables gts pds : option (crow -> bool).
  Hypothesis H1 : expresses cs datums sel.
  Hypothesis H2 : opt_expresses cs gts sg.
  Hypothesis H3 : opt_expresses cs pds sp.
  Variables (bs rpf : nat) (rb : list irow -> list (list irow)) (b : fbuilder) (labels : dict) (rows : dir crow) (curve : dir cpoint).
  Hypothesis Hb : batching_ok rb.
  Hypothesis Hf : cls_filter_build bs rpf rb e datums gts pds = (b, Done labels).
  Hypothesis Hr : Permutation rows (f_dir (fb_writer b)).
  Hypothesis Hc : Permutation curve (f_dir (fb_curve b)).
  Local Notation u := (crestrict w sel sg sp).
  Local Notation e1 := (ce_file b labels).
  Local Notation e2 := (cls_load rows curve None).

  Lemma load_view : cls_evaluator cs u e1 /\ ce_tables e2 = ce_tables e1 /\ ce_labels e2 = extract_labels (ce_tables e1).
  Proof.
    destruct (load_filtered bs rpf rb e datums gts pds b labels rows curve Hb Hf Hr Hc) as (_ & Hl & HF).
    split; [eapply cls_filtered_file; eassumption|].
    assert (E : file_tables rows = ce_tables e1) by (rewrite <- Hl; reflexivity).
    split; [exact E|]. unfold cls_load, cls_labels_of. cbn [ce_labels]. rewrite E. reflexivity.
  Qed.

  Theorem load_unlabelled : let R := labels_of (reduced u cs) in
    let lowest := forall l i, In l R -> has_number e l i -> i < length R in
    length (ce_labels e2) = length R /\
    (forall tol hm thrs sel', thrs <> [] -> (succeeds (np_metrics tol hm thrs sel' e2) <-> lowest)) /\
    (forall tol9 hm thrs sel', thrs <> [] -> (succeeds (np_confusion tol9 hm thrs sel' e2) <-> lowest)) /\
    (succeeds (np_rocauc e2) <-> lowest).
  Proof.
    destruct load_view as (He1 & ET & EL). intros R lowest.
    assert (HN : length (ce_labels e2) = length R) by (rewrite EL; apply (ev_extracted_length cs Hdist u e1 He1)).
    assert (Hnum : forall l i, has_number e l i <-> has_number e1 l i).
    { intros l i. rewrite (ev_labels cs Hdist w e He), (ev_labels cs Hdist u e1 He1). reflexivity. }
    assert (Hlow : lowest <-> keys_inside e2).
    { unfold lowest, keys_inside. rewrite EL. destruct (ev_lowest cs Hdist u e1 He1) as [A B]. split.
      - intros H kl Hkl. refine (A (fun l i Hl Hi => H l i Hl (proj2 (Hnum l i) Hi)) (fst kl) _). apply in_map. exact Hkl.
      - intros H l i Hl Hi. refine (B _ l i Hl (proj1 (Hnum l i) Hi)). intros x Hx. apply in_map_iff in Hx. destruct Hx as (kl & <- & Hkl). apply H. exact Hkl. }
    assert (Hpos : forall kl, In kl (ce_labels e2) -> (0 <= fst kl)%Z).
    { intros [k v] Hkl. rewrite EL in Hkl. destruct (ev_sound cs Hdist u e1 He1) as [[_ S] _]. apply (S k v Hkl). }
    assert (Hrows : keys_inside e2 -> rows_inside (length (ce_labels e2)) (concat (ce_tables e2))).
    { intros HK r Hin. rewrite ET in Hin. destruct (ev_sound cs Hdist u e1 He1) as [_ S].
      assert (G : forall x, In x (map r_gt (concat (ce_tables e1))) \/ In x (map r_pd (concat (ce_tables e1))) -> inside (length (ce_labels e2)) x).
      { intros x Hx. apply S in Hx. apply in_map_iff in Hx. destruct Hx as (kl & <- & Hkl). apply HK. rewrite EL. exact Hkl. }
      split; apply G; [left|right]; apply in_map; exact Hin. }
    split; [exact HN|]. split; [|split].
    - intros tol hm thrs sel' Ht. rewrite Hlow. split.
      + intros [m Hm]. eapply metrics_inside; eassumption.
      + intros HK. destruct (np_metrics_ok tol hm thrs sel' e2 Ht HK (Hrows HK)) as (m & Hm & _). exists m. exact Hm.
    - intros tol9 hm thrs sel' Ht. rewrite Hlow. split.
      + intros [m Hm]. eapply confusion_inside; eassumption.
      + intros HK. destruct (np_confusion_ok tol9 hm thrs sel' e2 Ht HK (Hrows HK)) as (m & Hm & _). exists m. exact Hm.
    - rewrite Hlow. split.
      + intros [m Hm]. eapply rocauc_inside; eassumption.
      + intros HK. exists (report_rocauc e2). apply np_rocauc_ok; [exact HK|exact (Hrows HK)].
  Qed.
End Load.
