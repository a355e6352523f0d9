(* C148: what the averages of a detection report being 1 or 0 mean.  Vocabulary: DetSpec.v;
   [det_evaluator], [label_no] and the report as in C32 and C55 (DetProps.v). *)
From Verif Require Import Prelude Counting CacheModel CacheSpec ClsModel FlowModel
  DetModel DetSpec DetFlowModel DetExModel DetReportModel DetEnd DetMore DetDemo DetProps MeanExtremeProofs.
From Coq Require Import String QArith Lqa Lia.
Local Open Scope nat_scope.
Local Open Scope list_scope.

(* ---------------------------------------------------------------- C148 *)
(* mean average precision, at one threshold and averaged over thresholds *)
Theorem C148_mean_average_precision :
  forall eps unit ds, det_input unit ds -> forall sel datums, det_selects ds datums sel ->
  forall e, (0 <= unit)%Z -> det_evaluator eps unit ds e -> few_det_labels ds ->
  (forall t q, (0 < t)%Z -> rep_map eps e datums t = Some q ->
    ((q == 1)%Q <-> forall v vi, label_no e v vi -> (rep_ap eps e datums t (Z.of_nat vi) == 1)%Q) /\
    ((q == 0)%Q <-> forall v vi, label_no e v vi -> (rep_ap eps e datums t (Z.of_nat vi) == 0)%Q)) /\
  (forall ious q, Forall (fun t => 0 < t)%Z ious -> rep_map_over_ious eps e datums ious = Some q ->
    ((q == 1)%Q <-> forall t v vi, In t ious -> label_no e v vi -> (rep_ap eps e datums t (Z.of_nat vi) == 1)%Q) /\
    ((q == 0)%Q <-> forall t v vi, In t ious -> label_no e v vi -> (rep_ap eps e datums t (Z.of_nat vi) == 0)%Q)).
Proof.
  intros eps unit ds Hin sel datums Hs e Hu He Hf. split; intros.
  - apply (map_extremes eps unit ds Hin sel datums Hs e Hu He Hf); assumption.
  - apply (map_over_ious_extremes eps unit ds Hin sel datums Hs e Hu He Hf); assumption.
Qed.
Print Assumptions C148_mean_average_precision.
(* the averages of one label over thresholds *)
Theorem C148_label_averages :
  forall eps unit ds, det_input unit ds -> forall sel datums, det_selects ds datums sel ->
  forall e, (0 <= unit)%Z -> det_evaluator eps unit ds e -> few_det_labels ds ->
  forall v vi, label_no e v vi -> forall ious, Forall (fun t => 0 < t)%Z ious ->
  (forall q, rep_ap_over_ious eps e datums ious (Z.of_nat vi) = Some q ->
    ((q == 1)%Q <-> forall t, In t ious -> (rep_ap eps e datums t (Z.of_nat vi) == 1)%Q) /\
    ((q == 0)%Q <-> forall t, In t ious -> (rep_ap eps e datums t (Z.of_nat vi) == 0)%Q)) /\
  (forall s q, rep_ar eps e datums ious s (Z.of_nat vi) = Some q ->
    ((q == 1)%Q <-> forall t, In t ious -> (rep_recall eps e datums t s (Z.of_nat vi) == 1)%Q) /\
    ((q == 0)%Q <-> forall t, In t ious -> (rep_recall eps e datums t s (Z.of_nat vi) == 0)%Q)).
Proof.
  intros eps unit ds Hin sel datums Hs e Hu He Hf v vi Hv ious Hi. split; intros.
  - apply (ap_over_ious_extremes eps unit ds Hin sel datums Hs e Hu He Hf ious v vi); assumption.
  - apply (ar_extremes eps unit ds Hin sel datums Hs e Hu He Hf ious s v vi); assumption.
Qed.
Print Assumptions C148_label_averages.
Theorem C148_mean_average_recall :
  forall eps unit ds, det_input unit ds -> forall sel datums, det_selects ds datums sel ->
  forall e, (0 <= unit)%Z -> det_evaluator eps unit ds e -> few_det_labels ds ->
  forall ious s q, Forall (fun t => 0 < t)%Z ious -> rep_mar eps e datums ious s = Some q ->
    ((q == 1)%Q <-> forall t v vi, In t ious -> label_no e v vi -> (rep_recall eps e datums t s (Z.of_nat vi) == 1)%Q) /\
    ((q == 0)%Q <-> forall t v vi, In t ious -> label_no e v vi -> (rep_recall eps e datums t s (Z.of_nat vi) == 0)%Q).
Proof.
  intros eps unit ds Hin sel datums Hs e Hu He Hf ious s q Hi Hq. apply (mar_extremes eps unit ds Hin sel datums Hs e Hu He Hf); assumption.
Qed.
Print Assumptions C148_mean_average_recall.
(* a label known to the evaluator without ground truths in the selected images scores 0
   and keeps every mean over the labels below 1 *)
Theorem C148_no_ground_truths :
  forall eps unit ds, det_input unit ds -> forall sel datums, det_selects ds datums sel ->
  forall e, (0 <= unit)%Z -> det_evaluator eps unit ds e -> few_det_labels ds ->
  forall v vi, label_no e v vi -> gts_with sel ds v = 0 ->
  (forall t, (0 < t)%Z -> (rep_ap eps e datums t (Z.of_nat vi) == 0)%Q /\ (forall s, (rep_recall eps e datums t s (Z.of_nat vi) == 0)%Q) /\
    exists q, rep_map eps e datums t = Some q /\ (0 <= q)%Q /\ (q < 1)%Q) /\
  (forall ious s q, ious <> [] -> Forall (fun t => 0 < t)%Z ious -> rep_mar eps e datums ious s = Some q -> (0 <= q)%Q /\ (q < 1)%Q).
Proof.
  intros eps unit ds Hin sel datums Hs e Hu He Hf v vi Hv G0.
  assert (A0 := fun t => ap_no_gts eps unit ds Hin sel datums Hs e Hu He Hf v vi t Hv).
  assert (R0 := fun t s => recall_no_gts eps unit ds Hin sel datums Hs e He v vi t s Hv G0).
  split.
  - intros t Ht. split; [apply A0; assumption|]. split; [intros s; apply R0|]. destruct (map_some eps unit ds Hin datums e He v vi t Hv) as (q & Eq).
    exists q. split; [exact Eq|]. destruct (map_range eps unit ds Hin sel datums Hs e Hu He Hf t q Ht Eq) as [P0 P1]. split; [exact P0|].
    apply Qle_lteq in P1. destruct P1 as [P1|P1]; [exact P1|]. exfalso.
    assert (X := proj1 (proj1 (map_extremes eps unit ds Hin sel datums Hs e Hu He Hf t q Ht Eq)) P1 v vi Hv). rewrite (A0 t Ht G0) in X. discriminate X.
  - intros ious s q Hn Hi Eq. destruct (mar_range eps unit ds Hin sel datums Hs e Hu He Hf ious s q Hi Eq) as [P0 P1]. split; [exact P0|].
    apply Qle_lteq in P1. destruct P1 as [P1|P1]; [exact P1|]. exfalso. destruct ious as [|t ious]; [contradiction|].
    assert (X := proj1 (proj1 (mar_extremes eps unit ds Hin sel datums Hs e Hu He Hf _ s q Hi Eq)) P1 t v vi (or_introl eq_refl) Hv). rewrite R0 in X. discriminate X.
Qed.
Print Assumptions C148_no_ground_truths.

(* one image, both labels found at IoU 0.5, "dog" missed at 0.75 *)
Definition both : list detection :=
  [ MkDet "img0" [gt "a" "cat"; gt "b" "dog"] [pd "x" "cat" 900000000; pd "z" "dog" 800000000]
      (iou_of [ov 0 0 800000000; ov 1 1 600000000]) ]%string%Z.
Definition both_mem : deval := Eval vm_compute in get_eval (mem_eval 1 one 4 singles [both]).
Lemma both_mem_ok : det_evaluator 1 one both both_mem.
Proof. apply (mem_eval_ok 1 one 4 singles [both]). vm_compute. reflexivity. Qed.
Lemma both_input : det_input one both.
Proof. unfold det_input, both. inputs. Qed.
Lemma both_few : few_det_labels both.
Proof. unfold few_det_labels, few. vm_compute. discriminate. Qed.
Definition is_value (o : option Q) (x : Q) : Prop := match o with Some q => (q == x)%Q | None => False end.
Example C148_example :
  det_input one both /\ det_selects both (fun _ => true) (fun _ => true) /\ det_evaluator 1 one both both_mem /\ few_det_labels both /\
  label_no both_mem "cat" 0 /\ label_no both_mem "dog" 1 /\
  is_value (rep_map 1 both_mem (fun _ => true) 500000000) 1 /\ is_value (rep_map 1 both_mem (fun _ => true) 750000000) (1 # 2) /\
  is_value (rep_map 1 both_mem (fun _ => true) 900000000) 0 /\
  is_value (rep_ap_over_ious 1 both_mem (fun _ => true) [500000000; 750000000]%Z 0) 1 /\
  is_value (rep_map_over_ious 1 both_mem (fun _ => true) [500000000; 750000000]%Z) (3 # 4) /\
  is_value (rep_ar 1 both_mem (fun _ => true) [500000000; 750000000]%Z 100000000 0) 1 /\
  is_value (rep_mar 1 both_mem (fun _ => true) [500000000]%Z 100000000) 1.
Proof.
  split; [apply both_input|]. split; [apply all_selects|]. split; [apply both_mem_ok|]. split; [apply both_few|]. repeat split; vm_compute; reflexivity.
Qed.
(* on the last two images of the demonstration data no "dog" is annotated *)
Example C148_no_ground_truths_example :
  let sel d := negb (first_image d) in let rows r := negb (first_rows r) in
  det_input one ddemo /\ det_selects ddemo rows sel /\ det_evaluator 1 one ddemo ddemo_mem /\ few_det_labels ddemo /\
  label_no ddemo_mem "dog" 1 /\ gts_with sel ddemo "dog" = 0 /\ gts_with sel ddemo "cat" = 1.
Proof.
  cbv zeta. split; [apply ddemo_input|]. split; [intros r i d H1 H2 H3; rewrite (first_selects r i d H1 H2 H3); reflexivity|]. split; [apply ddemo_mem_ok|].
  split; [apply ddemo_few|]. split; [apply dog_no|]. split; vm_compute; reflexivity.
Qed.
