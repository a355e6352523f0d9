(* Lemmas for C148: a mean of numbers between 0 and 1 is 1 (0) exactly when each is. *)
From Verif Require Import Prelude Counting CacheModel CacheSpec ClsModel ClsLabelProofs FlowModel
  DetModel DetSpec DetFlowModel DetExModel DetReportModel DetRankProofs DetApProofs DetApEnd DetMain DetEnd DetMore ApExtremeProofs.
From Coq Require Import QArith Lqa Lia List.
Import ListNotations.
Local Open Scope nat_scope.
Local Open Scope list_scope.

Lemma qsum_extremes l : (forall x, In x l -> (0 <= x <= 1)%Q) ->
  (0 <= qsum l <= qnat (List.length l))%Q /\
  ((qsum l == qnat (List.length l))%Q <-> forall x, In x l -> (x == 1)%Q) /\ ((qsum l == 0)%Q <-> forall x, In x l -> (x == 0)%Q).
Proof.
  induction l as [|b l IH]; intros H.
  - split; [vm_compute; split; discriminate|]. split; (split; [intros _ x []|intros _; reflexivity]).
  - destruct (IH (fun x Hx => H x (or_intror Hx))) as ([A B] & C & D). destruct (H b (or_introl eq_refl)) as [E F].
    assert (Q1 : (qnat (List.length (b :: l)) == qnat (List.length l) + 1)%Q)
      by (unfold qnat; cbn [List.length]; rewrite Nat2Z.inj_succ; unfold Z.succ; rewrite inject_Z_plus; reflexivity).
    assert (Q2 : (qsum (b :: l) == b + qsum l)%Q) by reflexivity.
    split; [lra|]. split; split.
    + intros G x [<-|Hx]; [lra|]. apply (proj1 C); [lra|exact Hx].
    + intros G. assert (X := G b (or_introl eq_refl)). assert (Y := proj2 C (fun x Hx => G x (or_intror Hx))). lra.
    + intros G x [<-|Hx]; [lra|]. apply (proj1 D); [lra|exact Hx].
    + intros G. assert (X := G b (or_introl eq_refl)). assert (Y := proj2 D (fun x Hx => G x (or_intror Hx))). lra.
Qed.
Lemma qmean_extremes l q : (forall x, In x l -> (0 <= x <= 1)%Q) -> qmean l = Some q ->
  ((q == 1)%Q <-> forall x, In x l -> (x == 1)%Q) /\ ((q == 0)%Q <-> forall x, In x l -> (x == 0)%Q).
Proof.
  intros H Eq. destruct l as [|a l]; [discriminate|].
  assert (Q1 : qmean (a :: l) = Some (qsum (a :: l) / qnat (List.length (a :: l)))%Q) by reflexivity.
  rewrite Q1 in Eq. injection Eq as Eq. destruct (qsum_extremes (a :: l) H) as (_ & C & D). rewrite <- C, <- D.
  assert (Hp : (0 < qnat (List.length (a :: l)))%Q) by (unfold qnat, Qlt; cbn; lia). clear C D Q1 H.
  set (S := qsum (a :: l)) in *. set (N := qnat (List.length (a :: l))) in *.
  assert (HN : ~ (N == 0)%Q) by (intros Z0; rewrite Z0 in Hp; discriminate Hp).
  assert (E : (S == q * N)%Q) by (rewrite <- Eq; symmetry; rewrite Qmult_comm; apply Qmult_div_r; exact HN). clearbody S N. clear Eq. split; split; intros X.
  - rewrite E, X. apply Qmult_1_l.
  - rewrite X in E. apply (Qmult_inj_r q 1 N HN). rewrite <- E. symmetry. apply Qmult_1_l.
  - rewrite E, X. apply Qmult_0_l.
  - rewrite X in E. symmetry in E. destruct (Qmult_integral _ _ E); [assumption|contradiction].
Qed.

Section Extremes.
  Variables (eps unit : Z) (ds : list detection).
  Hypothesis Hin : det_input unit ds.
  Variables (sel : detection -> bool) (datums : drow -> bool).
  Hypothesis Hsel : det_selects ds datums sel.
  Variable e : deval.
  Hypothesis Hu : (0 <= unit)%Z.
  Hypothesis He : det_evaluator eps unit ds e.
  Hypothesis Hfew : few_det_labels ds.

  Lemma axis_all (P : Z -> Prop) : (forall l, In l (label_axis e) -> P l) <-> (forall v vi, label_no e v vi -> P (Z.of_nat vi)).
  Proof.
    split.
    - intros H v vi Hv. apply H. destruct (end_facts eps unit ds Hin e He) as (L & _ & _ & _ & B & _ & N & _). apply B in Hv.
      unfold label_axis. rewrite N. apply in_map. apply in_seq. split; [apply Nat.le_0_l|]. apply index_of_nth in Hv.
      cbn. apply nth_error_Some. rewrite Hv. discriminate.
    - intros H l Hl. destruct (axis_label eps unit ds Hin e l He Hl) as (v & vi & Hv & ->). apply (H v vi Hv).
  Qed.
  Lemma map_all (f : Z -> Q) (P : Q -> Prop) : (forall x, In x (map f (label_axis e)) -> P x) <-> (forall v vi, label_no e v vi -> P (f (Z.of_nat vi))).
  Proof.
    rewrite <- (axis_all (fun l => P (f l))). split.
    - intros H l Hl. apply H. apply in_map. exact Hl.
    - intros H x Hx. apply in_map_iff in Hx. destruct Hx as (l & <- & Hl). apply H. exact Hl.
  Qed.
  Lemma in_map_all {A} (f : A -> Q) l (P : Q -> Prop) : (forall x, In x (map f l) -> P x) <-> (forall t, In t l -> P (f t)).
  Proof.
    split.
    - intros H t Ht. apply H. apply in_map. exact Ht.
    - intros H x Hx. apply in_map_iff in Hx. destruct Hx as (t & <- & Ht). apply H. exact Ht.
  Qed.

  Lemma map_extremes t q : (0 < t)%Z -> rep_map eps e datums t = Some q ->
    ((q == 1)%Q <-> forall v vi, label_no e v vi -> (rep_ap eps e datums t (Z.of_nat vi) == 1)%Q) /\
    ((q == 0)%Q <-> forall v vi, label_no e v vi -> (rep_ap eps e datums t (Z.of_nat vi) == 0)%Q).
  Proof.
    intros Ht Hq. assert (R : forall x, In x (map (rep_ap eps e datums t) (label_axis e)) -> (0 <= x <= 1)%Q).
    { apply (map_all _ (fun x => (0 <= x <= 1)%Q)). intros v vi Hv. apply (end_ap_range eps unit ds Hin sel datums Hsel e Hu He Hfew v vi Hv t Ht). }
    destruct (qmean_extremes _ q R Hq) as [A B].
    split; [rewrite A; apply (map_all _ (fun x => (x == 1)%Q))|rewrite B; apply (map_all _ (fun x => (x == 0)%Q))].
  Qed.
  Lemma ap_over_ious_extremes ious v vi q : Forall (fun t => 0 < t)%Z ious -> label_no e v vi -> rep_ap_over_ious eps e datums ious (Z.of_nat vi) = Some q ->
    ((q == 1)%Q <-> forall t, In t ious -> (rep_ap eps e datums t (Z.of_nat vi) == 1)%Q) /\
    ((q == 0)%Q <-> forall t, In t ious -> (rep_ap eps e datums t (Z.of_nat vi) == 0)%Q).
  Proof.
    intros Hi Hv Hq. assert (R : forall x, In x (map (fun t => rep_ap eps e datums t (Z.of_nat vi)) ious) -> (0 <= x <= 1)%Q).
    { apply (in_map_all _ ious (fun x => (0 <= x <= 1)%Q)). intros t Ht.
      apply (end_ap_range eps unit ds Hin sel datums Hsel e Hu He Hfew v vi Hv t (proj1 (Forall_forall _ _) Hi t Ht)). }
    destruct (qmean_extremes _ q R Hq) as [A B].
    split; [rewrite A; apply (in_map_all _ ious (fun x => (x == 1)%Q))|rewrite B; apply (in_map_all _ ious (fun x => (x == 0)%Q))].
  Qed.
  Lemma ar_extremes ious s v vi q : Forall (fun t => 0 < t)%Z ious -> label_no e v vi -> rep_ar eps e datums ious s (Z.of_nat vi) = Some q ->
    ((q == 1)%Q <-> forall t, In t ious -> (rep_recall eps e datums t s (Z.of_nat vi) == 1)%Q) /\
    ((q == 0)%Q <-> forall t, In t ious -> (rep_recall eps e datums t s (Z.of_nat vi) == 0)%Q).
  Proof.
    intros Hi Hv Hq. assert (R : forall x, In x (map (fun t => rep_recall eps e datums t s (Z.of_nat vi)) ious) -> (0 <= x <= 1)%Q).
    { apply (in_map_all _ ious (fun x => (0 <= x <= 1)%Q)). intros t Ht.
      apply (recall_range eps unit ds Hin sel datums Hsel e Hu He Hfew v vi t s Hv (proj1 (Forall_forall _ _) Hi t Ht)). }
    destruct (qmean_extremes _ q R Hq) as [A B].
    split; [rewrite A; apply (in_map_all _ ious (fun x => (x == 1)%Q))|rewrite B; apply (in_map_all _ ious (fun x => (x == 0)%Q))].
  Qed.

  Lemma somes_all {A} (f : A -> option Q) l (P : Q -> Prop) :
    (forall x, In x (concat (map (fun a => match f a with Some q => [q] | None => [] end) l)) -> P x) <-> (forall a q, In a l -> f a = Some q -> P q).
  Proof.
    split.
    - intros H a q Ha E. apply H. apply in_concat. exists [q]. split; [|left; reflexivity]. apply in_map_iff. exists a. rewrite E. split; [reflexivity|exact Ha].
    - intros H x Hx. apply in_concat in Hx. destruct Hx as (y & Hy & Hx). apply in_map_iff in Hy. destruct Hy as (a & <- & Ha).
      destruct (f a) as [q|] eqn:E; [|destruct Hx]. destruct Hx as [<-|[]]. apply (H a q Ha E).
  Qed.
  Lemma qmean_some l : l <> [] -> exists q, qmean l = Some q.
  Proof. destruct l as [|a l]; [contradiction|]. intros _. eexists. reflexivity. Qed.
  Lemma map_some v vi t : label_no e v vi -> exists m, rep_map eps e datums t = Some m.
  Proof.
    intros Hv. apply qmean_some. intros E. apply map_eq_nil in E.
    apply (proj1 (axis_all (fun l => In l (label_axis e))) (fun l Hl => Hl) v vi) in Hv. rewrite E in Hv. destruct Hv.
  Qed.
  Lemma map_over_ious_extremes ious q : Forall (fun t => 0 < t)%Z ious -> rep_map_over_ious eps e datums ious = Some q ->
    ((q == 1)%Q <-> forall t v vi, In t ious -> label_no e v vi -> (rep_ap eps e datums t (Z.of_nat vi) == 1)%Q) /\
    ((q == 0)%Q <-> forall t v vi, In t ious -> label_no e v vi -> (rep_ap eps e datums t (Z.of_nat vi) == 0)%Q).
  Proof.
    intros Hi Hq. assert (Hp : forall t, In t ious -> (0 < t)%Z) by apply (proj1 (Forall_forall _ _) Hi).
    assert (R : forall x, In x (concat (map (fun t => match rep_map eps e datums t with Some q => [q] | None => [] end) ious)) -> (0 <= x <= 1)%Q).
    { apply (somes_all _ ious (fun x => (0 <= x <= 1)%Q)). intros t m Ht Em. apply (map_range eps unit ds Hin sel datums Hsel e Hu He Hfew t m (Hp t Ht) Em). }
    assert (D : forall v vi t, label_no e v vi -> exists m, rep_map eps e datums t = Some m) by apply map_some.
    destruct (qmean_extremes _ q R Hq) as [A B]. split.
    - rewrite A, (somes_all _ ious (fun x => (x == 1)%Q)). split.
      + intros H t v vi Ht Hv. destruct (D v vi t Hv) as (m & Em). apply (proj1 (proj1 (map_extremes t m (Hp t Ht) Em)) (H t m Ht Em) v vi Hv).
      + intros H t m Ht Em. apply (map_extremes t m (Hp t Ht) Em). intros v vi Hv. apply (H t v vi Ht Hv).
    - rewrite B, (somes_all _ ious (fun x => (x == 0)%Q)). split.
      + intros H t v vi Ht Hv. destruct (D v vi t Hv) as (m & Em). apply (proj1 (proj2 (map_extremes t m (Hp t Ht) Em)) (H t m Ht Em) v vi Hv).
      + intros H t m Ht Em. apply (map_extremes t m (Hp t Ht) Em). intros v vi Hv. apply (H t v vi Ht Hv).
  Qed.
  Lemma mar_extremes ious s q : Forall (fun t => 0 < t)%Z ious -> rep_mar eps e datums ious s = Some q ->
    ((q == 1)%Q <-> forall t v vi, In t ious -> label_no e v vi -> (rep_recall eps e datums t s (Z.of_nat vi) == 1)%Q) /\
    ((q == 0)%Q <-> forall t v vi, In t ious -> label_no e v vi -> (rep_recall eps e datums t s (Z.of_nat vi) == 0)%Q).
  Proof.
    intros Hi Hq. assert (R : forall x, In x (concat (map (fun l => match rep_ar eps e datums ious s l with Some q => [q] | None => [] end) (label_axis e))) -> (0 <= x <= 1)%Q).
    { apply (somes_all _ (label_axis e) (fun x => (0 <= x <= 1)%Q)). intros l m Hl Em. apply (ar_range eps unit ds Hin sel datums Hsel e Hu He Hfew ious s l m Hl Hi Em). }
    assert (D : forall t l, In t ious -> exists m, rep_ar eps e datums ious s l = Some m).
    { intros t l Ht. apply qmean_some. intros E. apply map_eq_nil in E. rewrite E in Ht. destruct Ht. }
    assert (X : forall P : Q -> Prop, (forall l m, In l (label_axis e) -> rep_ar eps e datums ious s l = Some m -> P m) <->
      (forall v vi m, label_no e v vi -> rep_ar eps e datums ious s (Z.of_nat vi) = Some m -> P m)).
    { intros P. assert (Y := axis_all (fun l => forall m, rep_ar eps e datums ious s l = Some m -> P m)). split.
      - intros H v vi m Hv. revert m. apply (proj1 Y (fun l Hl m => H l m Hl) v vi Hv).
      - intros H l m Hl. revert m. apply (proj2 Y (fun v vi Hv m => H v vi m Hv) l Hl). }
    destruct (qmean_extremes _ q R Hq) as [A B]. split.
    - rewrite A, (somes_all _ (label_axis e) (fun x => (x == 1)%Q)), (X (fun x => (x == 1)%Q)). split.
      + intros H t v vi Ht Hv. destruct (D t (Z.of_nat vi) Ht) as (m & Em). apply (proj1 (proj1 (ar_extremes ious s v vi m Hi Hv Em)) (H v vi m Hv Em) t Ht).
      + intros H v vi m Hv Em. apply (ar_extremes ious s v vi m Hi Hv Em). intros t Ht. apply (H t v vi Ht Hv).
    - rewrite B, (somes_all _ (label_axis e) (fun x => (x == 0)%Q)), (X (fun x => (x == 0)%Q)). split.
      + intros H t v vi Ht Hv. destruct (D t (Z.of_nat vi) Ht) as (m & Em). apply (proj1 (proj2 (ar_extremes ious s v vi m Hi Hv Em)) (H v vi m Hv Em) t Ht).
      + intros H v vi m Hv Em. apply (ar_extremes ious s v vi m Hi Hv Em). intros t Ht. apply (H t v vi Ht Hv).
  Qed.

  (* a label without ground truths in the selection *)
  Lemma ap_no_gts v vi t : label_no e v vi -> (0 < t)%Z -> gts_with sel ds v = 0 -> (rep_ap eps e datums t (Z.of_nat vi) == 0)%Q.
  Proof.
    intros Hv Ht G0. destruct (end_facts eps unit ds Hin e He) as (L & Hst & HR & _ & B & Hf & _). assert (Hv' := Hv). apply B in Hv'.
    specialize (Hf Hfew). set (R := concat (de_ranked e)) in *. set (ids := sel_rows ds sel). assert (Hids := sel_rows_selects ds sel). fold ids in Hids.
    assert (Hb := hits_bound eps unit ds L _ R Hu Hin Hst HR Hf sel ids Hids v vi Hv' t Ht).
    assert (Eg := end_gts eps unit ds Hin sel datums Hsel e He v vi Hv). rewrite <- Eg in Hb.
    set (hits := map (tp_outer eps t) (filter (fun r => (d_pl r =? Z.of_nat vi)%Z) (filter ids R))) in *.
    assert (E : (rep_ap eps e datums t (Z.of_nat vi) == ap_spec (rep_gts e datums (Z.of_nat vi)) hits)%Q).
    { unfold rep_ap. rewrite (average_precision_ext _ (fun b => fst (upd_curve (rep_gts e datums) (fst (running eps t run0 (filter ids R))) curve0 (Z.of_nat vi) b))).
      - apply ap_is_spec. exact Hb.
      - intros b. unfold rep_curve. rewrite (curve_flat eps unit ds Hin sel datums Hsel e Hu He Hfew). reflexivity. }
    rewrite E. apply ap_zero. intros Ht'. rewrite Eg, G0 in Hb. apply in_split in Ht'. destruct Ht' as (l1 & l2 & El). rewrite El in Hb.
    unfold trues in Hb. rewrite countb_app in Hb. cbn in Hb. unfold countb in Hb. cbn in Hb. lia.
  Qed.
  Lemma recall_no_gts v vi t s : label_no e v vi -> gts_with sel ds v = 0 -> (rep_recall eps e datums t s (Z.of_nat vi) == 0)%Q.
  Proof.
    intros Hv G0. unfold rep_recall, det_recall. rewrite (end_gts eps unit ds Hin sel datums Hsel e He v vi Hv), G0. reflexivity.
  Qed.
End Extremes.
