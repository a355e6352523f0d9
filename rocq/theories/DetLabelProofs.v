(* Object detection: the report about a label depends on the annotations of this label
   only; scores matter by their order only. *)
From Verif Require Import Prelude Counting CacheModel CacheSpec FlowModel ClsModel ClsLabelProofs
  DetModel DetSpec DetMain DetFlowModel DetReportModel DetEnd DetMore DetPickSpec DetPick DetAddSpec DetAddProofs
  DetFilterSpec DetFilterEntries DetFilterPruned DetFilterMain DetLabelSpec.
From Coq Require Import String Lia QArith.
Local Open Scope nat_scope.
Local Open Scope list_scope.
Local Notation length := List.length (only parsing).

(* ------------------------------------------------------------------ *)
(** * Lists by position *)

Lemma nth_map_in {A} (f : nat -> A) (l : list nat) k a : k < length l -> nth k (map f l) a = f (nth k l 0).
Proof. intros H. rewrite nth_indep with (d' := f 0) by (rewrite map_length; exact H). apply map_nth. Qed.
Lemma by_index {A} (l : list A) (x0 : A) : l = map (fun k => nth k l x0) (seq 0 (length l)).
Proof.
  apply nth_ext with (d := x0) (d' := x0); [rewrite map_length, seq_length; reflexivity|]. intros n Hn.
  rewrite nth_map_in by (rewrite seq_length; exact Hn). rewrite seq_nth by exact Hn. reflexivity.
Qed.
Lemma countb_map {A B} (f : A -> B) (P : B -> bool) l : countb P (map f l) = countb (fun x => P (f x)) l.
Proof. unfold countb. induction l as [|a l IH]; [reflexivity|]. cbn. destruct (P (f a)); cbn; rewrite ?IH; reflexivity. Qed.
Lemma forallb_map {A B} (f : A -> B) (P : B -> bool) l : forallb P (map f l) = forallb (fun x => P (f x)) l.
Proof. induction l as [|a l IH]; [reflexivity|]. cbn. rewrite IH. reflexivity. Qed.
Lemma countb_filter {A} (f g : A -> bool) l : countb g (filter f l) = countb (fun x => f x && g x) l.
Proof. unfold countb. induction l as [|a l IH]; [reflexivity|]. cbn. destruct (f a); cbn; [destruct (g a); cbn; rewrite ?IH; reflexivity|exact IH]. Qed.
Lemma forallb_filter {A} (f g : A -> bool) l : forallb g (filter f l) = forallb (fun x => negb (f x) || g x) l.
Proof. induction l as [|a l IH]; [reflexivity|]. cbn. destruct (f a); cbn; rewrite IH; reflexivity. Qed.
Lemma existsb_flat_map {A B} (f : A -> list B) (P : B -> bool) l : existsb P (flat_map f l) = existsb (fun x => existsb P (f x)) l.
Proof. induction l as [|a l IH]; [reflexivity|]. cbn. rewrite existsb_app, IH. reflexivity. Qed.
Lemma existsb_filter {A} (f g : A -> bool) l : existsb g (filter f l) = existsb (fun x => f x && g x) l.
Proof. induction l as [|a l IH]; [reflexivity|]. cbn. destruct (f a); cbn; rewrite IH; reflexivity. Qed.

Lemma gts_of_sorted d v : StronglySorted lt (gts_of d v).
Proof. unfold gts_of. apply filter_fst_sorted. rewrite numbered_fst. apply seq_sorted. Qed.
Lemma gts_of_In d v g : In g (gts_of d v) <-> exists ga, nth_error (t_gts d) g = Some ga /\ has_label v ga = true.
Proof.
  unfold gts_of. rewrite in_map_iff. split.
  - intros ([g' ga] & <- & H). apply filter_In in H. destruct H as (H & E). apply numbered_In in H. cbn in *. eauto.
  - intros (ga & H & E). exists (g, ga). split; [reflexivity|]. apply filter_In. split; [apply numbered_In; exact H|exact E].
Qed.
Lemma sorted_nth_lt (l : list nat) : StronglySorted lt l -> forall i j, i < length l -> j < length l -> (nth i l 0 <? nth j l 0) = (i <? j).
Proof.
  intros H i j Hi Hj. apply eq_true_iff_eq. rewrite !Nat.ltb_lt. symmetry. apply (sorted_nth l H); apply nth_error_nth'; assumption.
Qed.

(* ------------------------------------------------------------------ *)
(** * Counts from the table *)

(* the k-th ground truth is the first best one of a row *)
Definition r_picks (row : list Z) (k : nat) : bool :=
  forallb (fun j => if j <? k then (nth j row 0 <? nth k row 0)%Z else (nth j row 0 <=? nth k row 0)%Z) (seq 0 (length row)).
Definition r_takes (eps t s : Z) (k : nat) (r : Z * list Z) : bool :=
  (eps <? fst r)%Z && (s <=? fst r)%Z && (eps <=? nth k (snd r) 0)%Z && (t <=? nth k (snd r) 0)%Z && r_picks (snd r) k.

Lemma picks_table d p v k : k < length (gts_of d v) -> picks d p (nth k (gts_of d v) 0) v = r_picks (map (t_iou d p) (gts_of d v)) k.
Proof.
  intros Hk. unfold picks, r_picks. rewrite map_length.
  transitivity (forallb (fun g => if g <? nth k (gts_of d v) 0 then (t_iou d p g <? t_iou d p (nth k (gts_of d v) 0%nat))%Z
                                  else (t_iou d p g <=? t_iou d p (nth k (gts_of d v) 0%nat))%Z) (gts_of d v)).
  - set (h := nth k (gts_of d v) 0). unfold gts_of. rewrite forallb_map, forallb_filter. reflexivity.
  - rewrite (by_index (gts_of d v) 0) at 1. rewrite forallb_map. apply forallb_ext_in. intros j Hj. apply in_seq in Hj.
    rewrite (sorted_nth_lt _ (gts_of_sorted d v)) by lia. rewrite !nth_map_in by lia. reflexivity.
Qed.
Lemma picked_table eps t s d v k : k < length (gts_of d v) ->
  picked eps t s d v (nth k (gts_of d v) 0) = existsb (r_takes eps t s k) (snd (label_table d v)).
Proof.
  intros Hk. unfold label_table. cbn [snd]. rewrite existsb_map. unfold pds_of. rewrite existsb_flat_map. unfold picked. apply existsb_ext_in.
  intros [p a] _. cbn [fst snd]. rewrite existsb_map, existsb_filter. cbn [fst snd].
  induction (combine (a_labels a) (a_scores a)) as [|[l sc] c IH]; [reflexivity|]. cbn [existsb fst snd]. rewrite <- IH.
  unfold r_takes at 1. cbn [fst snd]. rewrite nth_map_in by exact Hk. rewrite <- picks_table by exact Hk.
  destruct (String.eqb v l), (eps <? sc)%Z, (s <=? sc)%Z; cbn [andb orb]; try reflexivity.
  destruct (eps <=? _)%Z, (t <=? _)%Z, (picks _ _ _ _); cbn [andb orb]; reflexivity || (symmetry; apply orb_true_r) || (rewrite ?andb_false_r; reflexivity) || idtac.
Qed.
Definition t_tp (eps t s : Z) (T : nat * list (Z * list Z)) : nat := countb (fun k => existsb (r_takes eps t s k) (snd T)) (seq 0 (fst T)).
Definition t_total (eps s : Z) (T : nat * list (Z * list Z)) : nat := countb (fun r => (eps <? fst r)%Z && (s <=? fst r)%Z) (snd T).

Lemma tp_table eps t s sel ds v :
  gts_where sel (fun d g => picked eps t s d v g) ds v = list_sum_nat (map (fun d => if sel d then t_tp eps t s (label_table d v) else 0) ds).
Proof.
  unfold gts_where. apply list_sum_nat_ext. intros d _. destruct (sel d); [|reflexivity].
  transitivity (countb (fun g => picked eps t s d v g) (gts_of d v)).
  - unfold gts_of. rewrite countb_map, countb_filter. reflexivity.
  - unfold t_tp. change (fst (label_table d v)) with (length (gts_of d v)). rewrite (by_index (gts_of d v) 0) at 1. rewrite countb_map. apply countb_ext_in. intros k Hk. apply in_seq in Hk.
    apply picked_table. lia.
Qed.
Lemma gts_table sel ds v : gts_with sel ds v = list_sum_nat (map (fun d => if sel d then fst (label_table d v) else 0) ds).
Proof.
  unfold gts_with. apply list_sum_nat_ext. intros d _. destruct (sel d); [|reflexivity]. unfold label_table, gts_of. cbn [fst].
  rewrite map_length. change (length (filter ?f ?l)) with (countb f l). unfold numbered.
  generalize 0. induction (t_gts d) as [|a l IH]; intros n; [reflexivity|]. cbn [seq combine length]. unfold countb in *. cbn [filter snd].
  unfold has_label at 1. destruct (existsb (String.eqb v) (a_labels a)); cbn [length]; rewrite (IH (S n)); reflexivity.
Qed.
Lemma countb_flat_map {A B} (f : A -> list B) (P : B -> bool) l : countb P (flat_map f l) = list_sum_nat (map (fun x => countb P (f x)) l).
Proof. induction l as [|a l IH]; [reflexivity|]. cbn [flat_map map]. unfold countb in *. rewrite filter_app, app_length, IH. reflexivity. Qed.
Lemma total_table eps s sel ds v :
  pds_with sel (fun sc => (eps <? sc)%Z && (s <=? sc)%Z) ds v = list_sum_nat (map (fun d => if sel d then t_total eps s (label_table d v) else 0) ds).
Proof.
  unfold pds_with. apply list_sum_nat_ext. intros d _. destruct (sel d); [|reflexivity]. unfold t_total, label_table, pds_of. cbn [snd].
  rewrite countb_map, countb_flat_map. unfold numbered.
  generalize 0. induction (t_pds d) as [|a l IH]; intros n; [reflexivity|]. cbn [seq combine length map]. unfold list_sum_nat in *. cbn [fold_right].
  rewrite (IH (S n)). f_equal. cbn [fst snd]. rewrite countb_map, countb_filter. reflexivity.
Qed.


(* ------------------------------------------------------------------ *)
(** * Two labels that look alike *)

Lemma alike_sum f sel sel' ds ds' v v' (g g' : nat * list (Z * list Z) -> nat) : label_alike f sel sel' ds ds' v v' ->
  (forall d, In d ds -> sel d = true -> g (label_table d v) = g' (rescored f (label_table d v))) ->
  list_sum_nat (map (fun d => if sel d then g (label_table d v) else 0) ds) = list_sum_nat (map (fun d => if sel' d then g' (label_table d v') else 0) ds').
Proof.
  intros H Hg. induction H as [|d d' ds ds' (E & T) H IH]; [reflexivity|]. cbn [map]. unfold list_sum_nat in *. cbn [fold_right].
  rewrite IH by (intros x Hx; apply Hg; right; exact Hx). f_equal. rewrite <- E. destruct (sel d) eqn:Es; [|reflexivity].
  rewrite T by reflexivity. apply Hg; [left; reflexivity|exact Es].
Qed.
Lemma scores_In sel ds v d r : In d ds -> sel d = true -> In r (snd (label_table d v)) -> In (fst r) (label_scores sel ds v).
Proof. intros Hd Hs Hr. unfold label_scores. apply in_flat_map. exists d. split; [exact Hd|]. rewrite Hs. apply in_map. exact Hr. Qed.
Lemma same_place_bool eps s s' f scores x : same_place eps s s' f scores -> In x scores ->
  (s <=? x)%Z = (s' <=? f x)%Z /\ (eps <? x)%Z = (eps <? f x)%Z.
Proof. intros H Hx. destruct (H x Hx) as (A & B). split; apply eq_true_iff_eq; rewrite ?Z.leb_le, ?Z.ltb_lt; assumption. Qed.
Lemma tp_rescored eps t s s' f T : (forall r, In r (snd T) -> (s <=? fst r)%Z = (s' <=? f (fst r))%Z /\ (eps <? fst r)%Z = (eps <? f (fst r))%Z) ->
  t_tp eps t s T = t_tp eps t s' (rescored f T).
Proof.
  intros H. unfold t_tp, rescored. cbn [fst snd]. apply countb_ext_in. intros k _. rewrite existsb_map. apply existsb_ext_in. intros r Hr.
  unfold r_takes. cbn [fst snd]. destruct (H r Hr) as (-> & ->). reflexivity.
Qed.
Lemma total_rescored eps s s' f T : (forall r, In r (snd T) -> (s <=? fst r)%Z = (s' <=? f (fst r))%Z /\ (eps <? fst r)%Z = (eps <? f (fst r))%Z) ->
  t_total eps s T = t_total eps s' (rescored f T).
Proof.
  intros H. unfold t_total, rescored. cbn [fst snd]. rewrite countb_map. apply countb_ext_in. intros r Hr. cbn [fst]. destruct (H r Hr) as (-> & ->). reflexivity.
Qed.
Lemma single_distinct ds : Forall single_pd_labels ds -> Forall distinct_pd_labels ds.
Proof.
  intros H. eapply Forall_impl; [|exact H]. intros d Hd a Ha. specialize (Hd a Ha). destruct (a_labels a) as [|x [|y l]]; cbn in Hd; try discriminate; repeat constructor; intros [].
Qed.

Section Alike.
  Variables (eps unit : Z) (ds ds' : list detection) (sel sel' : detection -> bool) (datums datums' : drow -> bool) (e e' : deval).
  Hypothesis Hu : (0 <= unit)%Z.
  Hypothesis Hin : det_input unit ds.
  Hypothesis Hin' : det_input unit ds'.
  Hypothesis Hsel : det_selects ds datums sel.
  Hypothesis Hsel' : det_selects ds' datums' sel'.
  Hypothesis He : det_evaluator eps unit ds e.
  Hypothesis He' : det_evaluator eps unit ds' e'.
  Hypothesis Hfew : few_det_labels ds.
  Hypothesis Hfew' : few_det_labels ds'.
  Hypothesis Hone : Forall single_pd_labels ds.
  Hypothesis Hone' : Forall single_pd_labels ds'.
  Variables (v v' : string) (vi vi' : nat).
  Hypothesis Hv : label_no e v vi.
  Hypothesis Hv' : label_no e' v' vi'.
  Variable f : Z -> Z.
  Hypothesis Halike : label_alike f sel sel' ds ds' v v'.

  Lemma alike_gts : rep_gts e datums (Z.of_nat vi) = rep_gts e' datums' (Z.of_nat vi').
  Proof.
    rewrite (end_gts eps unit ds Hin sel datums Hsel e He v vi Hv), (end_gts eps unit ds' Hin' sel' datums' Hsel' e' He' v' vi' Hv').
    rewrite !gts_table. apply (alike_sum f sel sel' ds ds' v v' fst fst Halike). intros d _ _. reflexivity.
  Qed.
  Lemma alike_tp t s s' : (0 < t)%Z -> same_place eps s s' f (label_scores sel ds v) ->
    rep_tp eps e datums t s (Z.of_nat vi) = rep_tp eps e' datums' t s' (Z.of_nat vi').
  Proof.
    intros Ht Hp.
    rewrite (pick_end_tp eps unit ds Hin sel datums Hsel e Hu He Hfew v vi Hv t s Ht (single_distinct ds Hone)).
    rewrite (pick_end_tp eps unit ds' Hin' sel' datums' Hsel' e' Hu He' Hfew' v' vi' Hv' t s' Ht (single_distinct ds' Hone')).
    rewrite !tp_table. apply (alike_sum f sel sel' ds ds' v v' (t_tp eps t s) (t_tp eps t s') Halike). intros d Hd Hs. apply tp_rescored. intros r Hr.
    apply (same_place_bool eps s s' f _ (fst r) Hp). apply (scores_In sel ds v d); assumption.
  Qed.
  Lemma alike_fp t s s' : (0 < t)%Z -> same_place eps s s' f (label_scores sel ds v) ->
    rep_fp eps e datums t s (Z.of_nat vi) = rep_fp eps e' datums' t s' (Z.of_nat vi').
  Proof.
    intros Ht Hp. assert (E := alike_tp t s s' Ht Hp).
    assert (A := end_pd_count_single eps unit ds Hin sel datums Hsel e Hu He Hfew v vi Hv t s Ht Hone).
    assert (B := end_pd_count_single eps unit ds' Hin' sel' datums' Hsel' e' Hu He' Hfew' v' vi' Hv' t s' Ht Hone').
    rewrite total_table in A, B.
    assert (C : list_sum_nat (map (fun d => if sel d then t_total eps s (label_table d v) else 0) ds)
              = list_sum_nat (map (fun d => if sel' d then t_total eps s' (label_table d v') else 0) ds')).
    { apply (alike_sum f sel sel' ds ds' v v' (t_total eps s) (t_total eps s') Halike). intros d Hd Hs. apply total_rescored. intros r Hr.
      apply (same_place_bool eps s s' f _ (fst r) Hp). apply (scores_In sel ds v d); assumption. }
    lia.
  Qed.
  Theorem alike_counts t s s' : (0 < t)%Z -> same_place eps s s' f (label_scores sel ds v) ->
    rep_gts e datums (Z.of_nat vi) = rep_gts e' datums' (Z.of_nat vi') /\
    rep_tp eps e datums t s (Z.of_nat vi) = rep_tp eps e' datums' t s' (Z.of_nat vi') /\
    rep_fp eps e datums t s (Z.of_nat vi) = rep_fp eps e' datums' t s' (Z.of_nat vi') /\
    rep_fn eps e datums t s (Z.of_nat vi) = rep_fn eps e' datums' t s' (Z.of_nat vi') /\
    rep_precision eps e datums t s (Z.of_nat vi) = rep_precision eps e' datums' t s' (Z.of_nat vi') /\
    rep_recall eps e datums t s (Z.of_nat vi) = rep_recall eps e' datums' t s' (Z.of_nat vi') /\
    rep_f1 eps e datums t s (Z.of_nat vi) = rep_f1 eps e' datums' t s' (Z.of_nat vi').
  Proof.
    intros Ht Hp. assert (E1 := alike_gts). assert (E2 := alike_tp t s s' Ht Hp). assert (E3 := alike_fp t s s' Ht Hp).
    assert (C : rep_counts eps e datums t s (Z.of_nat vi) = rep_counts eps e' datums' t s' (Z.of_nat vi')).
    { unfold rep_tp, rep_fp in *. destruct (rep_counts eps e datums t s (Z.of_nat vi)), (rep_counts eps e' datums' t s' (Z.of_nat vi')). cbn in *. congruence. }
    split; [exact E1|]. split; [exact E2|]. split; [exact E3|]. unfold rep_fn, rep_precision, rep_recall, rep_f1. rewrite E1, E2, C. repeat split.
  Qed.
End Alike.
