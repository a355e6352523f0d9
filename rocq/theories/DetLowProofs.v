(* Object detection: predictions appended with lower scores never lower average precision. *)
From Verif Require Import Prelude Counting CacheModel CacheSpec SortProofs FlowModel ClsModel ClsLabelProofs
  DetModel DetSpec DetMain DetFlowModel DetApProofs DetReportModel DetEnd DetMore
  DetFilterSpec DetFilterProofs DetFilterEntries DetFilterPruned DetFilterMain
  DetReorderSpec DetReorderProofs DetLabelSpec DetLabelProofs DetLabelAp DetAddSpec DetAddProofs DetLowSpec.
From Coq Require Import String Lia QArith Qminmax Permutation.
Local Open Scope nat_scope.
Local Open Scope list_scope.
Local Notation length := List.length (only parsing).
Local Notation concat := List.concat (only parsing).

Lemma sorted_split {A} (R : A -> A -> Prop) (f : A -> bool) l : StronglySorted R l ->
  (forall x y, In x l -> In y l -> f x = false -> f y = true -> ~ R x y) -> l = filter f l ++ filter (fun x => negb (f x)) l.
Proof.
  induction 1 as [|a l S IH F]; intros H; [reflexivity|]. cbn [filter]. destruct (f a) eqn:Ea; cbn [negb].
  - cbn [app]. f_equal. apply IH. intros x y Hx Hy. apply H; right; assumption.
  - rewrite Forall_forall in F. assert (N : filter f l = []).
    { clear IH S. induction l as [|b l IHl]; [reflexivity|]. cbn [filter]. destruct (f b) eqn:Eb.
      - exfalso. apply (H a b); [left; reflexivity|right; left; reflexivity|exact Ea|exact Eb|apply F; left; reflexivity].
      - apply IHl; [intros x Hx; apply F; right; exact Hx|]. intros x y Hx Hy. apply H; cbn in *; tauto. }
    rewrite N. cbn [app]. f_equal. rewrite IH at 1; [rewrite N; reflexivity|]. intros x y Hx Hy. apply H; right; assumption.
Qed.
Lemma ahits_app eps t l m : forall pre, ahits eps t pre (l ++ m) = ahits eps t pre l ++ ahits eps t (pre ++ l) m.
Proof.
  induction l as [|x l IH]; intros pre; cbn [app ahits]; [rewrite app_nil_r; reflexivity|]. f_equal. rewrite IH, <- app_assoc. reflexivity.
Qed.
Lemma pr_list_app h1 h2 : forall n tp, exists n' tp', pr_list n tp (h1 ++ h2) = pr_list n tp h1 ++ pr_list n' tp' h2.
Proof.
  induction h1 as [|h u IH]; intros n tp; cbn [app pr_list]; [eauto|]. destruct (IH (S n) (if h then S tp else tp)) as (n' & tp' & E).
  exists n', tp'. rewrite E. reflexivity.
Qed.
Lemma pr_list_misses h : forall n tp, (forall b, In b h -> b = false) -> forall p, In p (pr_list n tp h) -> snd p = 0.
Proof.
  induction h as [|b h IH]; intros n tp H p Hp; [destruct Hp|]. cbn [pr_list] in Hp. rewrite (H b (or_introl eq_refl)) in Hp. destruct Hp as [<-|Hp]; [reflexivity|].
  apply (IH (S n) tp); [intros c Hc; apply H; right; exact Hc|exact Hp].
Qed.
Lemma fold_max_ge (l : list (nat * nat)) : forall m, (m <= fold_left (fun m p => Qmax m (qnat (snd p) / qnat (fst p))) l m)%Q.
Proof.
  induction l as [|p l IH]; intros m; [apply Qle_refl|]. cbn [fold_left]. eapply Qle_trans; [|apply IH]. apply Q.le_max_l.
Qed.
Lemma Qmax_zero m k : (0 <= m)%Q -> Qmax m (qnat 0 / qnat k) = m.
Proof.
  intros H. unfold Qmax, GenericMinMax.gmax. destruct (m ?= qnat 0 / qnat k)%Q eqn:E; try reflexivity. exfalso.
  apply Qlt_alt in E. assert (Z : (qnat 0 / qnat k == 0)%Q) by (unfold qnat; cbn; unfold Qdiv; ring). rewrite Z in E.
  apply (Qlt_irrefl m). apply (Qlt_le_trans m 0 m); assumption.
Qed.
Lemma fold_max_misses (l : list (nat * nat)) : (forall p, In p l -> snd p = 0) -> forall m, (0 <= m)%Q ->
  fold_left (fun m p => Qmax m (qnat (snd p) / qnat (fst p))) l m = m.
Proof.
  induction l as [|p l IH]; intros H m Hm; [reflexivity|]. cbn [fold_left]. rewrite (H p (or_introl eq_refl)), Qmax_zero by exact Hm.
  apply IH; [intros q Hq; apply H; right; exact Hq|exact Hm].
Qed.
Lemma run_max_le c c' : (forall b, (c b <= c' b)%Q) -> forall bins m m', (m <= m')%Q -> Forall2 Qle (run_max c bins m) (run_max c' bins m').
Proof.
  intros H bins. induction bins as [|b bins IH]; intros m m' Hm; [constructor|]. cbn [run_max].
  assert (X : (Qmax (c b) m <= Qmax (c' b) m')%Q).
  { apply Q.max_lub; [eapply Qle_trans; [apply H|apply Q.le_max_l]|eapply Qle_trans; [exact Hm|apply Q.le_max_r]]. }
  constructor; [exact X|]. apply IH. exact X.
Qed.
Lemma ap_loop_le c c' : (forall b, (c b <= c' b)%Q) -> forall bins m m' s s', (m <= m')%Q -> (s <= s')%Q -> (ap_loop c bins m s <= ap_loop c' bins m' s')%Q.
Proof.
  intros H bins. induction bins as [|b bins IH]; intros m m' s s' Hm Hs; cbn [ap_loop]; [exact Hs|].
  assert (X : (Qmax (c b) m <= Qmax (c' b) m')%Q).
  { apply Q.max_lub; [eapply Qle_trans; [apply H|apply Q.le_max_l]|eapply Qle_trans; [exact Hm|apply Q.le_max_r]]. }
  apply IH; [exact X|]. apply Qplus_le_compat; assumption.
Qed.
Lemma ap_le c c' : (forall b, (c b <= c' b)%Q) -> (average_precision c <= average_precision c')%Q.
Proof. intros H. unfold average_precision, Qdiv. apply Qmult_le_compat_r; [apply ap_loop_le; [exact H|apply Qle_refl|apply Qle_refl]|discriminate]. Qed.
Lemma Forall2_rev' {A B} (R : A -> B -> Prop) l l' : Forall2 R l l' -> Forall2 R (rev l) (rev l').
Proof. induction 1; cbn; [constructor|]. apply Forall2_app; [assumption|]. constructor; [assumption|constructor]. Qed.
Lemma Forall2_at {A B} (R : A -> B -> Prop) l l' : Forall2 R l l' -> forall i,
  (forall a, nth_error l i = Some a -> exists b, nth_error l' i = Some b /\ R a b) /\ (forall b, nth_error l' i = Some b -> exists a, nth_error l i = Some a /\ R a b).
Proof.
  induction 1 as [|a b l l' H F IH]; intros [|i]; cbn; try (split; discriminate).
  - split; intros x E; injection E as <-; eauto.
  - apply IH.
Qed.

Lemma Forall2_maps {A} (f g : A -> Q) l : (forall x, In x l -> (f x <= g x)%Q) -> Forall2 Qle (map f l) (map g l).
Proof. induction l as [|a l IH]; intros H; [constructor|]. cbn. constructor; [apply H; left; reflexivity|apply IH; intros x Hx; apply H; right; exact Hx]. Qed.
Lemma qsum_le l1 l2 : Forall2 Qle l1 l2 -> (qsum l1 <= qsum l2)%Q.
Proof. induction 1 as [|x y l l' E H IH]; cbn; [apply Qle_refl|]. apply Qplus_le_compat; assumption. Qed.
Lemma qmean_perm_le l1 l l2 : Permutation l1 l -> Forall2 Qle l l2 -> at_most (qmean l1) (qmean l2).
Proof.
  intros P F. assert (E : length l1 = length l2) by (rewrite (Permutation_length P); clear - F; induction F; cbn; congruence).
  assert (S : (qsum l1 <= qsum l2)%Q) by (rewrite (qsum_perm _ _ P); apply qsum_le; exact F).
  unfold qmean, at_most. destruct l1 as [|x l1], l2 as [|y l2]; try discriminate; [exact I|]. rewrite E. unfold Qdiv. apply Qmult_le_compat_r; [exact S|].
  apply Qinv_le_0_compat. unfold qnat. change 0%Q with (inject_Z 0). rewrite <- Zle_Qle. lia.
Qed.

Section Appended.
  Variables (eps unit : Z) (ds ds' : list detection) (sel sel' : detection -> bool) (datums datums' : drow -> bool) (e e' : deval).
  Hypothesis Heps : (0 < eps)%Z.
  Hypothesis Hu : (0 <= unit)%Z.
  Hypothesis Hin : det_input unit ds.
  Hypothesis Hin' : det_input unit ds'.
  Hypothesis Hsel : det_selects ds datums sel.
  Hypothesis Hsel' : det_selects ds' datums' sel'.
  Hypothesis He : det_evaluator eps unit ds e.
  Hypothesis He' : det_evaluator eps unit ds' e'.
  Hypothesis Hfew : few_det_labels ds.
  Hypothesis Hfew' : few_det_labels ds'.
  Hypothesis Hdis : Forall distinct_pd_labels ds.
  Hypothesis Hdis' : Forall distinct_pd_labels ds'.
  Let u := by_selection full_view sel.
  Let u' := by_selection full_view sel'.

  Definition old (x : aentry) : bool := match nth_error ds (x_i x) with Some d => x_p x <? length (t_pds d) | None => false end.

  Lemma entry_old v x d d' : nth_error ds (x_i x) = Some d -> nth_error ds' (x_i x) = Some d' -> sel d = sel' d' -> appended d d' -> x_p x < length (t_pds d) ->
    (entry eps ds u v x <-> entry eps ds' u' v x).
  Proof.
    intros Hi Hi' Es (Eg & (more & Em) & Et) Hp. specialize (fun g => Et (x_p x) g Hp).
    assert (En : nth_error (t_pds d') (x_p x) = nth_error (t_pds d) (x_p x)) by (rewrite Em; apply nth_error_app1; exact Hp).
    assert (Vg : forall g, v_gt u d g = v_gt u' d' g) by (intros g; unfold u, u'; rewrite !u_gt; exact Es).
    assert (Vp : forall p l, v_pd u d p l = v_pd u' d' p l) by (intros p l; unfold u, u'; rewrite !u_pd; exact Es).
    unfold entry. split; intros (d0 & pa & n & A & B & C & D & F & G).
    - assert (d0 = d) by congruence. subst d0. exists d', pa, n. split; [exact Hi'|]. split; [congruence|]. split; [exact C|]. split; [exact D|]. split; [rewrite <- Vp; exact F|].
      rewrite Eg. destruct (x_c x) as [g|].
      + setoid_rewrite Et. setoid_rewrite <- Vg. exact G.
      + setoid_rewrite Et. setoid_rewrite <- Vg. setoid_rewrite <- Vp. exact G.
    - assert (d0 = d') by congruence. subst d0. exists d, pa, n. split; [exact Hi|]. split; [congruence|]. split; [exact C|]. split; [exact D|]. split; [rewrite Vp; exact F|].
      rewrite Eg in G. destruct (x_c x) as [g|].
      + setoid_rewrite Et in G. setoid_rewrite <- Vg in G. exact G.
      + setoid_rewrite Et in G. setoid_rewrite <- Vg in G. setoid_rewrite <- Vp in G. exact G.
  Qed.

  Section Label.
    Variables (v : string) (vi vi' : nat).
    Hypothesis Hv : label_no e v vi.
    Hypothesis Hv' : label_no e' v vi'.
    Hypothesis Happ : appended_below sel sel' ds ds' v.

    Lemma at_ds i d : nth_error ds i = Some d -> exists d', nth_error ds' i = Some d' /\ sel d = sel' d' /\ appended d d' /\
      (sel d = true -> forall ps, In ps (further d d' v) -> forall x, In x (label_scores sel ds v) -> (snd ps < x)%Z).
    Proof. exact (proj1 (Forall2_at _ _ _ Happ i) d). Qed.
    Lemma at_ds' i d' : nth_error ds' i = Some d' -> exists d, nth_error ds i = Some d /\ sel d = sel' d' /\ appended d d' /\
      (sel d = true -> forall ps, In ps (further d d' v) -> forall x, In x (label_scores sel ds v) -> (snd ps < x)%Z).
    Proof. exact (proj2 (Forall2_at _ _ _ Happ i) d'). Qed.

    Lemma old_entries x : entry eps ds u v x <-> entry eps ds' u' v x /\ old x = true.
    Proof.
      split.
      - intros H. assert (H0 := H). destruct H0 as (d & pa & n & Hi & Hp & _). destruct (at_ds _ d Hi) as (d' & Hi' & Es & A & _).
        assert (L : x_p x < length (t_pds d)) by (apply nth_error_Some; congruence).
        split; [apply (entry_old v x d d'); assumption|]. unfold old. rewrite Hi. apply Nat.ltb_lt. exact L.
      - intros (H & O). unfold old in O. destruct (nth_error ds (x_i x)) as [d|] eqn:Hi; [|discriminate]. apply Nat.ltb_lt in O.
        destruct (at_ds _ d Hi) as (d' & Hi' & Es & A & _). apply (entry_old v x d d'); assumption.
    Qed.
    Lemma new_entry x : entry eps ds' u' v x -> old x = false -> exists d d', nth_error ds (x_i x) = Some d /\ nth_error ds' (x_i x) = Some d' /\ sel d = true /\
      In (x_p x, x_sc x) (further d d' v).
    Proof.
      intros H O. destruct (entry_row eps unit ds' sel' v Hin' x H) as (d' & Hi' & Hs & I & _). destruct (at_ds' _ d' Hi') as (d & Hi & Es & _).
      exists d, d'. split; [exact Hi|]. split; [exact Hi'|]. split; [congruence|]. unfold further. apply filter_In. split; [exact I|]. cbn [fst].
      unfold old in O. rewrite Hi in O. apply Nat.ltb_ge in O. apply Nat.leb_le. exact O.
    Qed.
    Lemma canonical_app l l' : canonical eps ds u v l -> canonical eps ds' u' v l' ->
      exists m, l' = l ++ m /\ forall x, In x m -> entry eps ds' u' v x /\ old x = false.
    Proof.
      intros C C'. exists (filter (fun x => negb (old x)) l'). split.
      - assert (E : filter old l' = l).
        { apply (canonical_unique eps ds u v); auto. destruct C' as [A B S]. split.
          - intros x. rewrite filter_In, A, old_entries. reflexivity.
          - apply NoDup_filter. exact B.
          - clear -S. induction S as [|a l S IH F]; [constructor|]. cbn [filter]. destruct (old a); [|exact IH]. constructor; [exact IH|].
            rewrite Forall_forall in F |- *. intros x Hx. apply filter_In in Hx. apply F. tauto. }
        rewrite <- E at 1. apply (sorted_split a_le); [apply C'|]. intros x y Hx Hy Ox Oy H. apply (can_in _ _ _ _ _ C') in Hx, Hy.
        destruct (new_entry x Hx Ox) as (d & d' & Hi & Hi' & Hs & I). destruct (at_ds _ d Hi) as (d'' & Hi'' & _ & _ & L). assert (d'' = d') by congruence. subst d''.
        assert (Ey : entry eps ds u v y) by (apply old_entries; split; assumption).
        destruct (entry_row eps unit ds sel v Hin y Ey) as (dy & Hiy & Hsy & Iy & _). assert (X : In (x_sc y) (label_scores sel ds v)).
        { apply (scores_In sel ds v dy (x_sc y, map (t_iou dy (x_p y)) (gts_of dy v))); [apply (nth_error_In _ _ Hiy)|exact Hsy|apply table_row; exact Iy]. }
        specialize (L Hs _ I _ X). cbn [snd] in L. unfold a_le in H. lia.
      - intros x Hx. apply filter_In in Hx. destruct Hx as (Hx & O). split; [apply (can_in _ _ _ _ _ C'); exact Hx|]. destruct (old x); [discriminate|reflexivity].
    Qed.
    Lemma app_gts : gts_where (fun _ => true) (fun d g => v_gt u' d g) ds' v = gts_where (fun _ => true) (fun d g => v_gt u d g) ds v.
    Proof.
      unfold gts_where. unfold u, u'. clear -Happ. unfold appended_below in Happ. revert Happ. generalize (label_scores sel ds v). intros sc H.
      induction H as [|d d' l l' (Es & (Eg & _) & _) F IH]; [reflexivity|]. unfold list_sum_nat in *. cbn [map fold_right]. rewrite IH, Eg. f_equal. apply countb_ext.
      intros ga _. rewrite !u_gt, Es. reflexivity.
    Qed.

    Lemma app_curves : rep_gts e' datums' (Z.of_nat vi') = rep_gts e datums (Z.of_nat vi) /\ exists m,
      (forall x, In x m -> entry eps ds' u' v x /\ old x = false) /\
      forall t b, (0 < t)%Z -> exists n tp pre,
        let more := filter (fun p => Nat.eqb (100 * snd p / rep_gts e datums (Z.of_nat vi)) b) (pr_list n tp (ahits eps t pre m)) in
        (0 <= rep_curve eps e datums t (Z.of_nat vi) b)%Q /\
        rep_curve eps e' datums' t (Z.of_nat vi') b = fold_left (fun m p => Qmax m (qnat (snd p) / qnat (fst p))) more (rep_curve eps e datums t (Z.of_nat vi) b).
    Proof.
      destruct (evaluator_shows eps unit ds Hin e He) as (L & S). destruct (evaluator_shows eps unit ds' Hin' e' He') as (L' & S').
      destruct (shown_report eps unit ds L full_view e Heps Hu Hin Hfew Hdis S datums sel Hsel v vi Hv) as (l & Hl & Eg & _ & _ & Ec).
      destruct (shown_report eps unit ds' L' full_view e' Heps Hu Hin' Hfew' Hdis' S' datums' sel' Hsel' v vi' Hv') as (l' & Hl' & Eg' & _ & _ & Ec').
      destruct (canonical_app l l' Hl Hl') as (m & -> & Hm). assert (G : rep_gts e' datums' (Z.of_nat vi') = rep_gts e datums (Z.of_nat vi)).
      { rewrite Eg, Eg'. apply app_gts. }
      split; [exact G|]. exists m. split; [exact Hm|]. intros t b Ht.
      destruct (pr_list_app (ahits eps t [] l) (ahits eps t l m) 0 0) as (n & tp & E). exists n, tp, l. cbv zeta.
      specialize (Ec' t b Ht). rewrite ahits_app in Ec'. cbn [app] in Ec'. rewrite E, filter_app, fold_left_app, G in Ec'. rewrite (Ec t b Ht) in *. split; [apply fold_max_ge|exact Ec'].
    Qed.
    Theorem low_ap t : (0 < t)%Z ->
      (rep_ap eps e datums t (Z.of_nat vi) <= rep_ap eps e' datums' t (Z.of_nat vi'))%Q /\
      Forall2 Qle (rep_pr_curve eps e datums t (Z.of_nat vi)) (rep_pr_curve eps e' datums' t (Z.of_nat vi')).
    Proof.
      intros Ht. destruct app_curves as (_ & m & _ & C).
      assert (H : forall b, (rep_curve eps e datums t (Z.of_nat vi) b <= rep_curve eps e' datums' t (Z.of_nat vi') b)%Q).
      { intros b. destruct (C t b Ht) as (n & tp & pre & _ & E). cbv zeta in E. rewrite E. apply fold_max_ge. }
      split; [apply ap_le; exact H|]. unfold rep_pr_curve. apply Forall2_rev'. apply run_max_le; [exact H|apply Qle_refl].
    Qed.
    Theorem miss_ap t : (0 < t)%Z -> appended_misses t sel ds ds' v ->
      rep_ap eps e' datums' t (Z.of_nat vi') = rep_ap eps e datums t (Z.of_nat vi) /\
      rep_pr_curve eps e' datums' t (Z.of_nat vi') = rep_pr_curve eps e datums t (Z.of_nat vi).
    Proof.
      intros Ht Miss. destruct app_curves as (_ & m & Hm & C).
      assert (N : forall x, In x m -> forall pre, ahit t pre x = false).
      { intros x Hx pre. destruct (Hm x Hx) as (Ex & O). destruct (new_entry x Ex O) as (d & d' & Hi & Hi' & Hs & I).
        destruct (proj1 (Forall2_at _ _ _ Miss (x_i x)) d Hi) as (d2 & Hi2 & M). assert (d2 = d') by congruence. subst d2.
        destruct (entry_row eps unit ds' sel' v Hin' x Ex) as (d3 & Hi3 & _ & _ & _ & Hg). assert (d3 = d') by congruence. subst d3.
        unfold ahit. destruct (x_c x) as [g|] eqn:Ec; [|reflexivity]. specialize (M Hs _ I g (Hg g eq_refl)). cbn [fst] in M.
        destruct Ex as (d4 & pa & n & A & _ & _ & _ & _ & Q). assert (d4 = d') by congruence. subst d4. rewrite Ec in Q. destruct Q as (_ & _ & _ & Ez & _).
        rewrite Ez. replace (t <=? t_iou d' (x_p x) g)%Z with false by (symmetry; apply Z.leb_gt; exact M). reflexivity. }
      assert (F : forall pre b, In b (ahits eps t pre m) -> b = false).
      { clear C Hm. induction m as [|x m IH]; intros pre b Hb; [destruct Hb|]. cbn [ahits] in Hb. destruct Hb as [<-|Hb].
        - rewrite (N x (or_introl eq_refl)). apply andb_false_r.
        - apply (IH (fun y Hy => N y (or_intror Hy)) (pre ++ [x])). exact Hb. }
      assert (H : forall b, rep_curve eps e' datums' t (Z.of_nat vi') b = rep_curve eps e datums t (Z.of_nat vi) b).
      { intros b. destruct (C t b Ht) as (n & tp & pre & P & E). cbv zeta in E. rewrite E. apply fold_max_misses; [|exact P]. intros p Hp.
        apply filter_In in Hp. apply (pr_list_misses _ n tp (F pre) p). tauto. }
      split; [unfold rep_ap; apply average_precision_ext; exact H|]. unfold rep_pr_curve. f_equal. apply run_max_ext. exact H.
    Qed.
  End Label.

  Theorem low_map : (forall v, In v (det_labels ds') <-> In v (det_labels ds)) -> (forall v, appended_below sel sel' ds ds' v) ->
    forall t, (0 < t)%Z -> at_most (rep_map eps e datums t) (rep_map eps e' datums' t).
  Proof.
    intros HL H t Ht. destruct (end_axis eps unit ds e Hin He) as (L1 & N1 & I1 & B1 & A1 & _). destruct (end_axis eps unit ds' e' Hin' He') as (L2 & N2 & I2 & B2 & A2 & _).
    unfold rep_map, mean_ap. rewrite A1, A2, !map_map.
    assert (P : Permutation L1 L2) by (apply NoDup_Permutation; auto; intros v; rewrite I1, I2; symmetry; apply HL).
    assert (P1 := Permutation_map (fun v => rep_ap eps e datums t (idx L1 v)) P). apply qmean_perm_le with (1 := P1).
    apply Forall2_maps. intros v Hv2. assert (Hv1 : In v L1) by (apply (Permutation_in _ (Permutation_sym P)); exact Hv2).
    destruct (index_of v L1) as [k1|] eqn:E1; [|apply index_of_None in E1; contradiction]. destruct (index_of v L2) as [k2|] eqn:E2; [|apply index_of_None in E2; contradiction].
    unfold idx. rewrite E1, E2. apply (low_ap v k1 k2 (proj2 (B1 v k1) E1) (proj2 (B2 v k2) E2) (H v) t Ht).
  Qed.
End Appended.

(* average recall of more predictions *)
Lemma qmean_le l1 l2 : Forall2 Qle l1 l2 -> at_most (qmean l1) (qmean l2).
Proof. apply qmean_perm_le. apply Permutation_refl. Qed.
Theorem more_ar eps unit ds ds' sel sel' datums datums' e e' : (0 <= unit)%Z -> det_input unit ds -> det_input unit ds' ->
  det_selects ds datums sel -> det_selects ds' datums' sel' -> det_evaluator eps unit ds e -> det_evaluator eps unit ds' e' ->
  few_det_labels ds -> few_det_labels ds' -> Forall distinct_pd_labels ds -> Forall distinct_pd_labels ds' ->
  forall v vi vi', label_no e v vi -> label_no e' v vi' ->
  Forall2 (fun d d' => more_predictions d d' /\ sel d = sel' d') ds ds' ->
  forall ious s, Forall (fun t => 0 < t)%Z ious ->
    at_most (rep_ar eps e datums ious s (Z.of_nat vi)) (rep_ar eps e' datums' ious s (Z.of_nat vi')).
Proof.
  intros Hu Hin Hin' Hsel Hsel' He He' Hf Hf' Hd Hd' v vi vi' Hv Hv' H ious s Hi. unfold rep_ar, average_recall. apply qmean_le. apply Forall2_maps.
  intros t Ht. rewrite Forall_forall in Hi. specialize (Hi t Ht).
  apply (more_end eps unit ds ds' sel sel' datums datums' e e' Hu Hin Hin' Hsel Hsel' He He' Hf Hf' Hd Hd' v vi vi' t s Hv Hv' Hi H).
Qed.
