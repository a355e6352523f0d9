(* Filtered evaluators: composition of filters, averages over labels, empty results,
   loading. *)
From Verif Require Import Prelude Counting CacheModel CacheSpec CacheProofs Pipeline SortProofs ClsModel ClsLabelProofs FlowModel
  DetModel DetExModel DetSpec DetRankProofs DetCountProofs DetLoaderProofs DetStoreProofs DetLocalProofs DetFlowModel DetFlowProofs
  DetOrderProofs DetMain DetApProofs DetReportModel DetEnd DetMore DetFilterModel DetFilterSpec DetFilterProofs DetFilterEntries DetFilterPruned DetFilterMain.
From Coq Require Import Lia QArith Qminmax.
From Coq Require String.
Local Open Scope nat_scope.
Local Open Scope list_scope.

(* ------------------------------------------------------------------ *)
(** * Evaluators that show the same *)

Lemma entry_same_view eps ds u1 u2 v x : same_view ds u1 u2 -> entry eps ds u1 v x -> entry eps ds u2 v x.
Proof.
  intros H (d & pa & n & Hi & Hp & Hn & Hs & Vp & Hc). destruct (H _ d Hi) as (HG & HP).
  assert (HG' : forall g ga, nth_error (t_gts d) g = Some ga -> v_gt u1 d g = v_gt u2 d g) by (intros g ga E; apply HG; apply nth_error_Some; congruence).
  exists d, pa, n. split; [exact Hi|]. split; [exact Hp|]. split; [exact Hn|]. split; [exact Hs|].
  split; [rewrite <- (HP _ pa v Hp (nth_error_In _ _ Hn)); exact Vp|]. destruct (x_c x) as [g|].
  - destruct Hc as ((ga & Hga & Hl) & Vg & Ho & Ez & Hm & Hf). split; [eauto|]. split; [rewrite <- (HG' g ga Hga); exact Vg|]. split; [exact Ho|]. split; [exact Ez|].
    split; intros g' ga' Hg' Hl' Vg'; [apply (Hm g' ga' Hg' Hl')|apply (Hf g' ga' Hg' Hl')]; rewrite (HG' g' ga' Hg'); exact Vg'.
  - destruct Hc as (Hno & Hz). split.
    + intros v' g ga Hv' Vv' Hg Hl Vg. apply (Hno v' g ga Hv'); auto; [rewrite (HP _ pa v' Hp Hv'); exact Vv'|rewrite (HG' g ga Hg); exact Vg].
    + destruct Hz as [(g & Hg & Vg & Ho & Ez & Hm)|(Ez & Hm)]; [left|right].
      * exists g. split; [exact Hg|]. split; [rewrite <- (HG g Hg); exact Vg|]. split; [exact Ho|]. split; [exact Ez|]. intros g' Hg' Vg'. apply Hm; [exact Hg'|]. rewrite (HG g' Hg'). exact Vg'.
      * split; [exact Ez|]. intros g' Hg' Vg'. apply Hm; [exact Hg'|]. rewrite (HG g' Hg'). exact Vg'.
Qed.
Lemma same_view_sym ds u1 u2 : same_view ds u1 u2 -> same_view ds u2 u1.
Proof. intros H i d Hi. destruct (H i d Hi) as (A & B). split; intros; symmetry; eauto. Qed.
Lemma canonical_same_view eps ds u1 u2 v l : same_view ds u1 u2 -> canonical eps ds u1 v l -> canonical eps ds u2 v l.
Proof.
  intros H [A B C]. split; [|exact B|exact C]. intros x. rewrite A. split; apply entry_same_view; [exact H|apply same_view_sym; exact H].
Qed.
Lemma gts_same_view ds u1 u2 v : same_view ds u1 u2 ->
  gts_where (fun _ => true) (fun d g => v_gt u1 d g) ds v = gts_where (fun _ => true) (fun d g => v_gt u2 d g) ds v.
Proof.
  intros H. unfold gts_where. apply list_sum_nat_ext. intros d Hd. apply In_nth_error in Hd. destruct Hd as (i & Hi). destruct (H i d Hi) as (A & _).
  apply countb_ext. intros [g ga] Hg. apply numbered_In in Hg. cbn [fst snd]. rewrite A; [reflexivity|apply nth_error_Some; congruence].
Qed.

Section Same.
  Variables (eps unit : Z) (ds : list detection).
  Hypothesis Heps : (0 < eps)%Z.
  Hypothesis Hu : (0 <= unit)%Z.
  Hypothesis Hin : det_input unit ds.
  Hypothesis Hfew : few_det_labels ds.
  Hypothesis Hdis : Forall distinct_pd_labels ds.
  Variables (L1 : list String.string) (w1 : dview) (e1 : deval) (datums1 : drow -> bool) (sel1 : detection -> bool).
  Variables (L2 : list String.string) (w2 : dview) (e2 : deval) (datums2 : drow -> bool) (sel2 : detection -> bool).
  Hypothesis S1 : shows eps unit ds L1 w1 e1.
  Hypothesis S2 : shows eps unit ds L2 w2 e2.
  Hypothesis D1 : det_selects ds datums1 sel1.
  Hypothesis D2 : det_selects ds datums2 sel2.
  Hypothesis HV : same_view ds (by_selection w1 sel1) (by_selection w2 sel2).

  Lemma shown_labels v vi : label_no e1 v vi <-> label_no e2 v vi.
  Proof.
    destruct (shows_origin eps unit ds L1 w1 e1 S1) as (a & Ha & Ea & _). destruct (shows_origin eps unit ds L2 w2 e2 S2) as (b & Hb & Eb & _).
    unfold label_no. rewrite Ea, Eb. apply (end_same_labels eps unit ds Hin a b v vi Ha Hb).
  Qed.
  Lemma shown_axis : label_axis e1 = label_axis e2.
  Proof.
    destruct (shows_origin eps unit ds L1 w1 e1 S1) as (a & Ha & Ea & _). destruct (shows_origin eps unit ds L2 w2 e2 S2) as (b & Hb & Eb & _).
    unfold label_axis. rewrite Ea, Eb. apply (end_same_axis eps unit ds Hin a b Ha Hb).
  Qed.
  Lemma shown_axis_label l : In l (label_axis e1) -> exists v vi, label_no e1 v vi /\ l = Z.of_nat vi.
  Proof.
    destruct (shows_origin eps unit ds L1 w1 e1 S1) as (a & Ha & Ea & _). unfold label_axis, label_no. rewrite Ea. apply (axis_label eps unit ds Hin a l Ha).
  Qed.

  Theorem shown_same v vi : label_no e1 v vi -> same_report eps e1 datums1 (Z.of_nat vi) e2 datums2 (Z.of_nat vi).
  Proof.
    intros Hv. assert (Hv2 := proj1 (shown_labels v vi) Hv).
    destruct (shown_report eps unit ds L1 w1 e1 Heps Hu Hin Hfew Hdis S1 datums1 sel1 D1 v vi Hv) as (l & Hl & Eg & Et & Ef & Ec).
    destruct (shown_report eps unit ds L2 w2 e2 Heps Hu Hin Hfew Hdis S2 datums2 sel2 D2 v vi Hv2) as (l' & Hl' & Eg' & Et' & Ef' & Ec').
    assert (l = l'). { apply (canonical_unique eps ds (by_selection w2 sel2) v); auto. apply (canonical_same_view eps ds (by_selection w1 sel1)); assumption. } subst l'.
    assert (EG : rep_gts e1 datums1 (Z.of_nat vi) = rep_gts e2 datums2 (Z.of_nat vi)) by (rewrite Eg, Eg'; apply gts_same_view; exact HV).
    apply reports_ext; auto.
    - intros t s Ht. rewrite (Et t s Ht), (Et' t s Ht). reflexivity.
    - intros t s Ht. assert (A := Ef t s Ht). assert (B := Ef' t s Ht). rewrite (Et t s Ht) in A. rewrite (Et' t s Ht) in B. lia.
    - intros t b Ht. rewrite (Ec t b Ht), (Ec' t b Ht), EG. reflexivity.
  Qed.

  Theorem shown_means : (forall t, (0 < t)%Z -> rep_map eps e1 datums1 t = rep_map eps e2 datums2 t) /\
    (forall ious s, (forall t, In t ious -> (0 < t)%Z) -> rep_mar eps e1 datums1 ious s = rep_mar eps e2 datums2 ious s).
  Proof.
    split.
    - intros t Ht. unfold rep_map. f_equal. rewrite <- shown_axis. apply map_ext_in. intros l Hl. destruct (shown_axis_label l Hl) as (v & vi & Hv & ->).
      apply (sr_ap _ _ _ _ _ _ _ (shown_same v vi Hv) t Ht).
    - intros ious s Hi. unfold rep_mar. f_equal. rewrite <- shown_axis. f_equal. apply map_ext_in. intros l Hl. destruct (shown_axis_label l Hl) as (v & vi & Hv & ->).
      rewrite (sr_ar _ _ _ _ _ _ _ (shown_same v vi Hv) ious s Hi). reflexivity.
  Qed.
End Same.

(* ------------------------------------------------------------------ *)
(** * Averages over labels *)

Lemma qsum_app l1 l2 : (qsum (l1 ++ l2) == qsum l1 + qsum l2)%Q.
Proof. induction l1 as [|a l IH]; [cbn [app]; change (qsum []) with 0%Q; ring|]. change (a + qsum (l ++ l2) == a + qsum l + qsum l2)%Q. rewrite IH. ring. Qed.
Lemma qsum_zero {A} (f : A -> Q) l : (forall x, In x l -> (f x == 0)%Q) -> (qsum (map f l) == 0)%Q.
Proof.
  induction l as [|a l IH]; intros H; [reflexivity|]. change (f a + qsum (map f l) == 0)%Q. rewrite (H a (in_eq _ _)), IH; [ring|]. intros; apply H; right; assumption.
Qed.
Lemma qsum_map_ext {A} (f g : A -> Q) l : (forall x, In x l -> (f x == g x)%Q) -> (qsum (map f l) == qsum (map g l))%Q.
Proof.
  induction l as [|a l IH]; intros H; [reflexivity|]. change (f a + qsum (map f l) == g a + qsum (map g l))%Q. rewrite (H a (in_eq _ _)), IH; [reflexivity|]. intros; apply H; right; assumption.
Qed.
(* a sum over more labels, the others contributing nothing *)
Lemma qsum_more {A} (dec : forall x y : A, {x = y} + {x <> y}) (f : A -> Q) l l' : NoDup l -> NoDup l' -> incl l' l ->
  (forall x, In x l -> ~ In x l' -> (f x == 0)%Q) -> (qsum (map f l) == qsum (map f l'))%Q.
Proof.
  intros N N' I H. set (r := filter (fun x => if in_dec dec x l' then false else true) l).
  assert (P : Permutation l (l' ++ r)).
  { apply NoDup_Permutation; [exact N| |].
    - apply NoDup_app_disjoint; [exact N'|apply NoDup_filter; exact N|]. intros x Hx Hr. apply filter_In in Hr. destruct Hr as [_ Hr]. destruct (in_dec dec x l'); [discriminate|contradiction].
    - intros x. rewrite in_app_iff. unfold r. rewrite filter_In. split.
      + intros Hx. destruct (in_dec dec x l'); auto.
      + intros [Hx|[Hx _]]; [apply I; exact Hx|exact Hx]. }
  rewrite (qsum_perm _ _ (Permutation_map f P)), map_app, qsum_app, (qsum_zero f r); [ring|].
  intros x Hx. apply filter_In in Hx. destruct Hx as [Hx Hr]. apply H; [exact Hx|]. destruct (in_dec dec x l'); [discriminate|assumption].
Qed.

Lemma nth_seq_map {A} (f : nat -> A) (g : String.string -> A) (L : list String.string) : (forall k v, nth_error L k = Some v -> f k = g v) -> map f (seq 0 (length L)) = map g L.
Proof.
  intros H. assert (G : forall n, (forall k v, nth_error L k = Some v -> f (n + k) = g v) -> map f (seq n (length L)) = map g L).
  { clear H. induction L as [|v L IH]; intros n H; [reflexivity|]. cbn. f_equal; [rewrite <- (H 0 v eq_refl); f_equal; lia|]. apply IH. intros k v' E. rewrite <- (H (S k) v' E). f_equal. lia. }
  apply G. exact H.
Qed.

Section Means.
  Variables (eps unit : Z) (ds : list detection) (L : list String.string) (w : dview) (e e' : deval).
  Hypothesis Heps : (0 < eps)%Z.
  Hypothesis Hu : (0 <= unit)%Z.
  Hypothesis Hin : det_input unit ds.
  Hypothesis Hfew : few_det_labels ds.
  Hypothesis Hdis : Forall distinct_pd_labels ds.
  Hypothesis Hsh : shows eps unit ds L w e.
  Variables (datums : drow -> bool) (sel : detection -> bool).
  Hypothesis Hsel : det_selects ds datums sel.
  Local Notation u := (by_selection w sel).
  Local Notation ds' := (map (pruned u) ds).
  Hypothesis He' : det_evaluator eps unit ds' e'.

  (* a quantity given per label *)
  Lemma label_sum (f f' : Z -> Q) :
    (forall v vi vi', label_no e v vi -> label_no e' v vi' -> f (Z.of_nat vi) = f' (Z.of_nat vi')) ->
    (forall v vi, label_no e v vi -> ~ In v (det_labels ds') -> (f (Z.of_nat vi) == 0)%Q) ->
    (qsum (map f (label_axis e)) == qsum (map f' (label_axis e')))%Q.
  Proof.
    intros Hf H0. destruct (shows_origin eps unit ds L w e Hsh) as (e0 & He0 & E0 & _).
    destruct (end_facts eps unit ds Hin e0 He0) as (M & St & _ & _ & B & _ & N & _).
    assert (Hin' : det_input unit ds') by (apply pruned_input; assumption).
    destruct (end_facts eps unit ds' Hin' e' He') as (M' & St' & _ & _ & B' & _ & N' & _).
    assert (ND := stored_NoDup eps unit ds M _ Hin St). assert (ND' := stored_NoDup eps unit ds' M' _ Hin' St').
    assert (IM := stored_labels eps unit ds M _ Hin St). assert (IM' := stored_labels eps unit ds' M' _ Hin' St').
    assert (LB : forall k v, nth_error M k = Some v -> label_no e v k). { intros k v Hk. unfold label_no. rewrite E0. apply B. apply index_of_NoDup; assumption. }
    assert (LB' : forall k v, nth_error M' k = Some v -> label_no e' v k). { intros k v Hk. apply B'. apply index_of_NoDup; assumption. }
    set (g := fun v => match index_of v M with Some k => f (Z.of_nat k) | None => 0%Q end).
    unfold label_axis. rewrite E0, N, N', !map_map.
    rewrite (nth_seq_map (fun k => f (Z.of_nat k)) g M) by (intros k v Hk; unfold g; rewrite (index_of_NoDup v M k ND Hk); reflexivity).
    rewrite (nth_seq_map (fun k => f' (Z.of_nat k)) g M').
    - apply (qsum_more String.string_dec g M M' ND ND').
      + intros v Hv. apply IM. apply IM' in Hv. apply pruned_labels in Hv. exact Hv.
      + intros v Hv Hno. unfold g. destruct (index_of v M) as [k|] eqn:Ek; [|reflexivity]. apply (H0 v k); [apply LB; apply index_of_nth; exact Ek|].
        intros X. apply Hno. apply IM'. exact X.
    - intros k v Hk. unfold g. assert (Hv : In v M). { apply IM. apply (pruned_labels u). apply IM'. eapply nth_error_In; eauto. }
      destruct (index_of v M) as [j|] eqn:Ej; [|apply index_of_None in Ej; contradiction].
      symmetry. apply (Hf v j k); [apply LB; apply index_of_nth; exact Ej|apply LB'; exact Hk].
  Qed.
  Lemma axis_length x : length (label_axis x) = length (de_labels x).
  Proof. unfold label_axis. rewrite map_length, seq_length. reflexivity. Qed.
  Lemma qmean_sum (l : list Q) : forall q, qmean l = Some q -> (q * qnat (length l) == qsum l)%Q.
  Proof.
    intros q. unfold qmean. destruct l as [|a l]; [discriminate|]. intros E. injection E as <-. rewrite Qmult_comm. apply Qmult_div_r. unfold qnat, Qeq. cbn. lia.
  Qed.

  Theorem filtered_map t m m' : (0 < t)%Z -> rep_map eps e datums t = Some m -> rep_map eps e' (fun _ => true) t = Some m' ->
    (m * qnat (length (de_labels e)) == m' * qnat (length (de_labels e')))%Q.
  Proof.
    intros Ht Hm Hm'. unfold rep_map, mean_ap in *. apply qmean_sum in Hm, Hm'. rewrite map_length, axis_length in Hm, Hm'. rewrite Hm, Hm'. apply label_sum.
    - intros v vi vi' A B. apply (sr_ap _ _ _ _ _ _ _ (filtered_report eps unit ds L w e Heps Hu Hin Hfew Hdis Hsh datums sel Hsel e' v vi vi' He' A B) t Ht).
    - intros v vi A B. apply (er_ap _ _ _ _ (absent_report eps unit ds L w e Heps Hu Hin Hfew Hdis Hsh datums sel Hsel v vi A B) t Ht).
  Qed.
  Lemma concat_somes {A B} (F : A -> option B) (G : A -> B) l : (forall x, F x = Some (G x)) -> concat (map (fun x => match F x with Some q => [q] | None => [] end) l) = map G l.
  Proof. intros H. induction l as [|a l IH]; [reflexivity|]. cbn. rewrite H, IH. reflexivity. Qed.
  Theorem filtered_mar ious s m m' : (forall t, In t ious -> (0 < t)%Z) -> rep_mar eps e datums ious s = Some m -> rep_mar eps e' (fun _ => true) ious s = Some m' ->
    (m * qnat (length (de_labels e)) == m' * qnat (length (de_labels e')))%Q.
  Proof.
    intros Ht Hm Hm'. destruct ious as [|t0 ious0] eqn:Ei.
    - exfalso. unfold rep_mar in Hm. assert (X : concat (map (fun l => match rep_ar eps e datums [] s l with Some q => [q] | None => [] end) (label_axis e)) = []); [|rewrite X in Hm; discriminate].
      clear. induction (label_axis e) as [|a l IH]; [reflexivity|]. exact IH.
    - rewrite <- Ei in *. set (G := fun x dt l => (qsum (map (fun t => rep_recall eps x dt t s l) ious) / qnat (length ious))%Q).
      assert (A : forall x dt l, rep_ar eps x dt ious s l = Some (G x dt l)).
      { intros x dt l. unfold rep_ar, average_recall, qmean, G. rewrite Ei. cbn [map]. cbn [length]. rewrite map_length. reflexivity. }
      unfold rep_mar in Hm, Hm'. rewrite (concat_somes _ (G e datums) _ (A e datums)) in Hm. rewrite (concat_somes _ (G e' (fun _ => true)) _ (A e' (fun _ => true))) in Hm'.
      apply qmean_sum in Hm, Hm'. rewrite map_length, axis_length in Hm, Hm'. rewrite Hm, Hm'. apply label_sum.
      + intros v vi vi' B C. unfold G. f_equal. f_equal. apply map_ext_in. intros t Hi.
        apply (sr_recall _ _ _ _ _ _ _ (filtered_report eps unit ds L w e Heps Hu Hin Hfew Hdis Hsh datums sel Hsel e' v vi vi' He' B C) t s (Ht t Hi)).
      + intros v vi B C. unfold G. rewrite (qsum_zero (fun t => rep_recall eps e datums t s (Z.of_nat vi)) ious); [unfold Qdiv; ring|].
        intros t Hi. apply (er_rates _ _ _ _ (absent_report eps unit ds L w e Heps Hu Hin Hfew Hdis Hsh datums sel Hsel v vi B C) t s (Ht t Hi)).
  Qed.
End Means.

(* ------------------------------------------------------------------ *)
(** * Empty results *)

Lemma world_nothing eps unit ds L w T : det_input unit ds -> world eps ds L w T -> (T = [] <-> nothing_left w ds).
Proof.
  intros Hin Hw. split.
  - intros -> d Hd. apply In_nth_error in Hd. destruct Hd as (i & Hi). split.
    + destruct (t_gts (pruned w d)) as [|ga l] eqn:E; [reflexivity|]. exfalso. assert (H : nth_error (t_gts (pruned w d)) 0 = Some ga) by (rewrite E; reflexivity).
      apply gts_of in H. destruct H as (g & H). apply gts_nth in H. destruct H as (H & V).
      destruct (w_gt_in _ _ _ _ _ Hw i d g Hi) as (r & [] & _); [apply nth_error_Some; congruence|exact V].
    + destruct (t_pds (pruned w d)) as [|pa l] eqn:E; [reflexivity|]. exfalso. assert (H : nth_error (t_pds (pruned w d)) 0 = Some pa) by (rewrite E; reflexivity).
      apply pds_of in H. destruct H as (p & H). apply pds_nth in H. destruct H as (pa0 & H & -> & Hne).
      assert (Hl := scores_len unit ds Hin d p pa0 i Hi H).
      destruct (a_labels (kept_labels w d p pa0)) as [|v vs] eqn:Ev; [congruence|].
      assert (Hv : In v (a_labels (kept_labels w d p pa0))) by (rewrite Ev; left; reflexivity). apply labels_In in Hv; [|exact Hl]. destruct Hv as (Hv & V).
      apply In_nth_error in Hv. destruct Hv as (n & Hn). destruct (nth_error (a_scores pa0) n) as [s|] eqn:Es.
      * destruct (w_pd_in _ _ _ _ _ Hw i d p pa0 n v s Hi H Hn Es V) as (r & [] & _).
      * apply nth_error_None in Es. assert (n < length (a_labels pa0)) by (apply nth_error_Some; congruence). lia.
  - intros H. destruct T as [|r T]; [reflexivity|]. exfalso.
    assert (G : forall i d g, nth_error ds i = Some d -> carries_gt ds L i g r -> v_gt w d g = true -> False).
    { intros i d g Hi (d' & ga & v & gi & Hi' & Hga & _) V. assert (d' = d) by congruence. subst d'. destruct (H d (nth_error_In _ _ Hi)) as (A & _).
      destruct (gts_cover w d g ga Hga V) as (j & Hj). assert (X : nth_error (t_gts (pruned w d)) j = Some ga) by (rewrite gts_tnth, Hj; reflexivity). rewrite A in X. destruct j; discriminate. }
    assert (P : forall i d p v s, nth_error ds i = Some d -> carries_pd ds L i p v s r -> v_pd w d p v = true -> False).
    { intros i d p v s Hi (d' & pa & n & pi & Hi' & Hpa & Hn & Hs & _) V. assert (d' = d) by congruence. subst d'. destruct (H d (nth_error_In _ _ Hi)) as (_ & A).
      assert (Hl := scores_len unit ds Hin d p pa i Hi Hpa).
      assert (Hv : In v (a_labels (kept_labels w d p pa))) by (apply labels_In; [exact Hl|]; split; [apply (nth_error_In _ _ Hn)|exact V]).
      destruct (pds_cover w d p pa Hpa) as (j & Hj); [intros X; rewrite X in Hv; destruct Hv|].
      assert (X : nth_error (t_pds (pruned w d)) j = Some (kept_labels w d p pa)) by (rewrite pds_tnth, Hj; reflexivity). rewrite A in X. destruct j; discriminate. }
    destruct (w_rows _ _ _ _ _ Hw r (in_eq _ _)) as [(i & d & g & p & v & s & Hi & Cg & _ & _ & _ & V & _)|[(i & d & g & Hi & Cg & _ & _ & V)|(i & d & p & v & s & Hi & Cp & _ & _ & V)]]; eauto.
Qed.

Theorem filter_mem_outcome eps unit ds L w e bs rb datums gts pds sel sg sp : det_input unit ds ->
  shows eps unit ds L w e -> det_selects ds datums sel -> gt_filter ds L gts sg -> pd_filter ds L pds sp ->
  (det_filter_mem unit bs rb e datums gts pds = EmptyCache /\ nothing_left (restrict w sel sg sp) ds) \/
  (exists e', det_filter_mem unit bs rb e datums gts pds = Done e' /\ ~ nothing_left (restrict w sel sg sp) ds).
Proof.
  intros Hin Hsh Hsel Hg Hp. assert (G := shows_good eps unit ds L w e Hin Hsh).
  assert (W := filter_world eps ds L w (de_detailed e) (g_world _ _ _ _ _ _ G) datums gts pds sel sg sp Hsel Hg Hp). apply (world_nothing eps unit) in W; [|exact Hin].
  assert (S := det_filter_mem_spec unit bs rb e datums gts pds). cbv zeta in S.
  destruct (concat (det_filter_tables datums gts pds (de_detailed e))) as [|r rs].
  - left. split; [exact S|]. apply W. reflexivity.
  - right. destruct S as (e' & E & _). exists e'. split; [exact E|]. intros X. apply W in X. discriminate.
Qed.
Theorem filter_file_outcome eps unit ds L w e bs rpf rb datums gts pds sel sg sp : det_input unit ds -> batching_ok rb ->
  shows eps unit ds L w e -> det_selects ds datums sel -> gt_filter ds L gts sg -> pd_filter ds L pds sp ->
  (det_filter_file unit bs rpf rb e datums gts pds = EmptyCache /\ nothing_left (restrict w sel sg sp) ds) \/
  (exists e', det_filter_file unit bs rpf rb e datums gts pds = Done e' /\ ~ nothing_left (restrict w sel sg sp) ds).
Proof.
  intros Hin Hrb Hsh Hsel Hg Hp. assert (G := shows_good eps unit ds L w e Hin Hsh).
  assert (W := filter_world eps ds L w (de_detailed e) (g_world _ _ _ _ _ _ G) datums gts pds sel sg sp Hsel Hg Hp). apply (world_nothing eps unit) in W; [|exact Hin].
  assert (S := det_filter_file_spec unit bs rpf rb e datums gts pds Hrb). cbv zeta in S.
  destruct (concat (det_filter_tables datums gts pds (de_detailed e))) as [|r rs].
  - left. split; [exact S|]. apply W. reflexivity.
  - right. destruct S as (e' & gs & E & _). exists e'. split; [exact E|]. intros X. apply W in X. discriminate.
Qed.

(* ------------------------------------------------------------------ *)
(** * Loading *)

(* the directories of a filtered evaluator, loaded with its labels *)
Theorem load_filtered unit bs rpf rb e datums gts pds b labels listing1 listing2 : batching_ok rb ->
  det_filter_build unit bs rpf rb e datums gts pds = (b, Done labels) ->
  Permutation listing1 (f_dir (dfb_detailed b)) -> Permutation listing2 (f_dir (dfb_ranked b)) ->
  det_filter_file unit bs rpf rb e datums gts pds = Done (det_load listing1 listing2 (Some labels)) /\ labels = de_labels e.
Proof.
  intros Hrb E P1 P2. assert (S := det_filter_build_spec unit bs rpf rb e datums gts pds Hrb). cbv zeta in S.
  destruct (concat (det_filter_tables datums gts pds (de_detailed e))) as [|r rs]; [destruct S as (b' & S); congruence|].
  destruct S as (b' & gs & S & _ & A & B & _). rewrite S in E. injection E as -> <-. split; [|reflexivity].
  unfold det_filter_file. rewrite S. f_equal. unfold dfe, det_load. cbn [det_labels_of]. f_equal.
  - rewrite (A listing1 P1). apply A. reflexivity.
  - rewrite (B listing2 P2). reflexivity.
Qed.
(* the directories of an evaluator built from data *)
Theorem load_built eps unit bs rpf rb calls b b' labels listing1 listing2 : det_input unit (concat calls) -> batching_ok rb ->
  dfb_adds eps bs rpf dfb_init calls = Some b -> dfb_finalize unit bs rpf rb b = (b', Done labels) ->
  Permutation listing1 (f_dir (dfb_detailed b')) -> Permutation listing2 (f_dir (dfb_ranked b')) ->
  det_load listing1 listing2 None = dfe b' labels.
Proof.
  intros Hin Hrb Hb Hf P1 P2. assert (Hok := input_ok unit (concat calls) Hin).
  destruct (loader_exists eps unit (concat calls) Hin) as (l & El & Hl).
  destruct (dfb_adds_state eps bs rpf calls dfb_init dloader_init l) as (b1 & A1 & A2 & A3 & A4); auto.
  assert (b1 = b) by congruence. subst b1.
  destruct (concat (l_writes l)) as [|x xs] eqn:Ew.
  - exfalso. unfold dfb_finalize in Hf. rewrite A3 in Hf.
    rewrite (file_rows_count' _ (Hnonempty eps (concat calls) l El)) in Hf. rewrite Ew in Hf. cbn in Hf. inversion Hf.
  - assert (Hne : concat (l_writes l) <> []) by (rewrite Ew; discriminate).
    destruct (df_finalize_done eps unit (concat calls) l Hok El Hne bs rpf rb b Hrb A3 A4) as (b2 & labels2 & gs & F & F1 & F2 & F3 & F4 & F5 & F6).
    rewrite Hf in F. injection F as -> ->. unfold det_load. cbn [det_labels_of].
    assert (E1 : file_tables listing1 = de_detailed (dfe b2 labels2)) by (rewrite (F2 listing1 P1); symmetry; apply F2; reflexivity).
    rewrite E1, (F3 listing2 P2). unfold dfe in *. cbn [de_detailed de_ranked] in *. rewrite <- F6. reflexivity.
Qed.

(* ------------------------------------------------------------------ *)
(** * Label numbers stay inside the arrays *)

Theorem gt_counts_defined eps unit ds L w e datums : det_input unit ds -> shows eps unit ds L w e ->
  det_gt_counts datums e = Some (map (rep_gts e datums) (label_axis e)).
Proof.
  intros Hin Hsh. unfold det_gt_counts.
  assert (H : forallb (fun r => (d_gt r <? 0)%Z || (d_gl r <? Z.of_nat (length (de_labels e)))%Z) (filter datums (concat (de_detailed e))) = true).
  { apply forallb_forall. intros r Hr. apply filter_In in Hr. destruct Hr as [Hr _]. destruct (Z.ltb_spec (d_gt r) 0) as [X|X]; [reflexivity|]. cbn [orb].
    assert (G := shows_good eps unit ds L w e Hin Hsh).
    destruct (row_gt eps ds L w (de_detailed e) (g_world _ _ _ _ _ _ G) r Hr X) as (i & d & g & _ & (d' & ga & v & gi & _ & _ & _ & Hx & _ & _ & _ & _ & _ & E) & _).
    rewrite E. destruct (shows_origin eps unit ds L w e Hsh) as (e0 & He0 & E0 & B0). destruct (end_facts eps unit ds Hin e0 He0) as (M & _ & _ & _ & B & _ & N & _).
    apply B0, B in Hx. apply index_of_nth in Hx. assert (gi < length M) by (apply nth_error_Some; congruence). apply Z.ltb_lt. rewrite E0. lia. }
  rewrite H. f_equal. unfold label_axis. rewrite map_map. reflexivity.
Qed.

(* ------------------------------------------------------------------ *)
(** * Statements for the property file *)

Theorem detection_rows eps unit ds L w e : det_input unit ds -> shows eps unit ds L w e ->
  let rows := concat (de_detailed e) in
  (forall r, In r rows -> (0 <= d_gt r)%Z -> exists i d g, nth_error ds i = Some d /\ carries_gt ds L i g r /\ v_gt w d g = true) /\
  (forall r, In r rows -> (0 <= d_pd r)%Z -> exists i d p v s, nth_error ds i = Some d /\ carries_pd ds L i p v s r /\ v_pd w d p v = true) /\
  (forall r, In r rows -> (0 <= d_gt r)%Z \/ (0 <= d_pd r)%Z) /\
  (forall r i d g p v s, In r rows -> nth_error ds i = Some d -> carries_gt ds L i g r -> carries_pd ds L i p v s r ->
     d_iou r = t_iou d p g /\ (eps <= t_iou d p g)%Z) /\
  (forall i d g, nth_error ds i = Some d -> g < length (t_gts d) -> v_gt w d g = true -> exists r, In r rows /\ carries_gt ds L i g r) /\
  (forall i d p pa n v s, nth_error ds i = Some d -> nth_error (t_pds d) p = Some pa -> nth_error (a_labels pa) n = Some v ->
     nth_error (a_scores pa) n = Some s -> v_pd w d p v = true -> exists r, In r rows /\ carries_pd ds L i p v s r) /\
  (forall i d g p pa n v s, nth_error ds i = Some d -> g < length (t_gts d) -> nth_error (t_pds d) p = Some pa ->
     nth_error (a_labels pa) n = Some v -> nth_error (a_scores pa) n = Some s -> (eps <= t_iou d p g)%Z ->
     v_gt w d g = true -> v_pd w d p v = true -> exists r, In r rows /\ carries_gt ds L i g r /\ carries_pd ds L i p v s r).
Proof.
  intros Hin Hsh rows. assert (Hw := g_world _ _ _ _ _ _ (shows_good eps unit ds L w e Hin Hsh)).
  split; [intros r Hr H; apply (row_gt eps ds L w (de_detailed e) Hw r Hr H)|].
  split; [intros r Hr H; apply (row_pd eps ds L w (de_detailed e) Hw r Hr H)|].
  split.
  { intros r Hr. destruct (w_rows _ _ _ _ _ Hw r Hr) as [(i & d & g & p & v & s & _ & Cg & _)|[(i & d & g & _ & Cg & _)|(i & d & p & v & s & _ & Cp & _)]];
      [left; apply (cgt_pos ds L i g r Cg)|left; apply (cgt_pos ds L i g r Cg)|right; apply (cpd_pos ds L i p v s r Cp)]. }
  split.
  { intros r i d g p v s Hr Hi Cg Cp. assert (Pg := cgt_pos ds L i g r Cg). assert (Pp := cpd_pos ds L i p v s r Cp).
    destruct (w_rows _ _ _ _ _ Hw r Hr) as [(i' & d' & g' & p' & v' & s' & Hi' & Cg' & Cp' & Ho & Ei & _)|[(i' & d' & g' & _ & _ & (Lp & _) & _)|(i' & d' & p' & v' & s' & _ & _ & (Lg & _) & _)]]; [|lia|lia].
    destruct (cgt_same ds L _ _ _ _ _ _ Cg Cg' eq_refl) as [<- <-]. destruct (cpd_same ds L _ _ _ _ _ _ _ _ _ _ Cp Cp' eq_refl) as [_ <-].
    assert (d' = d) by congruence. subst d'. split; assumption. }
  split; [apply (w_gt_in _ _ _ _ _ Hw)|]. split; [apply (w_pd_in _ _ _ _ _ Hw)|apply (w_pair_in _ _ _ _ _ Hw)].
Qed.

Theorem shown_all eps unit ds L1 L2 w1 w2 e1 e2 : (0 < eps)%Z -> (0 <= unit)%Z -> det_input unit ds -> few_det_labels ds ->
  Forall distinct_pd_labels ds ->
  shows eps unit ds L1 w1 e1 -> shows eps unit ds L2 w2 e2 ->
  forall datums1 datums2 sel1 sel2, det_selects ds datums1 sel1 -> det_selects ds datums2 sel2 ->
  same_view ds (by_selection w1 sel1) (by_selection w2 sel2) ->
  (forall v vi, label_no e1 v vi <-> label_no e2 v vi) /\
  (forall v vi, label_no e1 v vi -> same_report eps e1 datums1 (Z.of_nat vi) e2 datums2 (Z.of_nat vi)) /\
  (forall t, (0 < t)%Z -> rep_map eps e1 datums1 t = rep_map eps e2 datums2 t) /\
  (forall ious s, (forall t, In t ious -> (0 < t)%Z) -> rep_mar eps e1 datums1 ious s = rep_mar eps e2 datums2 ious s).
Proof.
  intros H1 H2 H3 H4 H5 S1 S2 datums1 datums2 sel1 sel2 D1 D2 HV.
  split; [intros v vi; eapply shown_labels; eauto|]. split; [intros v vi; eapply shown_same; eauto|]. eapply shown_means; eauto.
Qed.

Theorem filter_or_select eps unit ds L w e bs rb e' : (0 < eps)%Z -> (0 <= unit)%Z -> det_input unit ds -> few_det_labels ds ->
  Forall distinct_pd_labels ds -> shows eps unit ds L w e ->
  forall datums sel, det_selects ds datums sel ->
  det_filter_mem unit bs rb e datums None None = Done e' ->
  forall v vi, label_no e v vi -> same_report eps e datums (Z.of_nat vi) e' (fun _ => true) (Z.of_nat vi).
Proof.
  intros H1 H2 H3 H4 H5 Hsh datums sel Hsel E.
  assert (S2 : shows eps unit ds L (restrict w sel (fun _ _ => true) (fun _ _ _ => true)) e').
  { apply (Shows_filter_mem eps unit ds L w e bs rb datums None None sel); auto.
    - intros d i g _ _. reflexivity.
    - intros d i p pa v _ _ _. reflexivity. }
  apply (shown_all eps unit ds L L _ _ e e' H1 H2 H3 H4 H5 Hsh S2 datums (fun _ => true) sel (fun _ => true) Hsel (all_selected ds)).
  intros i d Hi. split; intros; cbn; reflexivity.
Qed.

Theorem filter_order_free eps unit ds L w e bs rb : (0 < eps)%Z -> (0 <= unit)%Z -> det_input unit ds -> few_det_labels ds ->
  Forall distinct_pd_labels ds -> shows eps unit ds L w e ->
  forall d1 g1 p1 sd1 sg1 sp1 d2 g2 p2 sd2 sg2 sp2,
  det_selects ds d1 sd1 -> gt_filter ds L g1 sg1 -> pd_filter ds L p1 sp1 ->
  det_selects ds d2 sd2 -> gt_filter ds L g2 sg2 -> pd_filter ds L p2 sp2 ->
  forall e1 e2 e12 e21,
  det_filter_mem unit bs rb e d1 g1 p1 = Done e1 -> det_filter_mem unit bs rb e1 d2 g2 p2 = Done e12 ->
  det_filter_mem unit bs rb e d2 g2 p2 = Done e2 -> det_filter_mem unit bs rb e2 d1 g1 p1 = Done e21 ->
  forall v vi, label_no e v vi -> same_report eps e12 (fun _ => true) (Z.of_nat vi) e21 (fun _ => true) (Z.of_nat vi).
Proof.
  intros H1 H2 H3 H4 H5 Hsh d1 g1 p1 sd1 sg1 sp1 d2 g2 p2 sd2 sg2 sp2 A1 A2 A3 B1 B2 B3 e1 e2 e12 e21 F1 F12 F2 F21 v vi Hv.
  assert (S1 := Shows_filter_mem _ _ _ _ _ _ _ _ _ _ _ _ _ _ _ Hsh A1 A2 A3 F1).
  assert (S12 := Shows_filter_mem _ _ _ _ _ _ _ _ _ _ _ _ _ _ _ S1 B1 B2 B3 F12).
  assert (S2 := Shows_filter_mem _ _ _ _ _ _ _ _ _ _ _ _ _ _ _ Hsh B1 B2 B3 F2).
  assert (S21 := Shows_filter_mem _ _ _ _ _ _ _ _ _ _ _ _ _ _ _ S2 A1 A2 A3 F21).
  assert (HV : same_view ds (by_selection (restrict (restrict w sd1 sg1 sp1) sd2 sg2 sp2) (fun _ => true)) (by_selection (restrict (restrict w sd2 sg2 sp2) sd1 sg1 sp1) (fun _ => true))).
  { intros i d Hi. split; intros; cbn.
    - destruct (sd1 d), (sd2 d), (sg1 d g), (sg2 d g), (v_gt w d g); reflexivity.
    - destruct (sd1 d), (sd2 d), (sp1 d p l), (sp2 d p l), (v_pd w d p l); reflexivity. }
  destruct (shown_all eps unit ds L L _ _ e12 e21 H1 H2 H3 H4 H5 S12 S21 (fun _ => true) (fun _ => true) (fun _ => true) (fun _ => true) (all_selected ds) (all_selected ds) HV) as (_ & Q & _). apply (Q v vi).
  apply (g_labels _ _ _ _ _ _ (shows_good eps unit ds L _ e12 H3 S12)). apply (g_labels _ _ _ _ _ _ (shows_good eps unit ds L _ e H3 Hsh)). exact Hv.
Qed.
