(* C76, C77: the scores listed with the precision-recall curve.  Vocabulary: DetSpec.v,
   DetScoreSpec.v; [det_evaluator], [label_no] as in DetProps.v.
   Model: DetReportModel.v, DetScoreModel.v. *)
From Verif Require Import Prelude Counting CacheModel CacheSpec ClsModel FlowModel
  DetModel DetSpec DetFlowModel DetOrderProofs DetExModel DetReportModel DetScoreModel DetScoreSpec DetScoreProofs DetEnd DetMore DetDemo DetScoreTies.
From Coq Require Import String QArith Lqa Lia.
Local Open Scope nat_scope.
Local Open Scope list_scope.

(* ---------------------------------------------------------------- C76 *)
(* the score at recall level k/100 is the largest score threshold with recall at
   least k/100: thresholds up to it reach the recall, larger ones do not *)
Theorem C76_recall_thresholds :
  forall eps unit ds, det_input unit ds -> forall sel datums, det_selects ds datums sel ->
  forall e, (0 <= unit)%Z -> det_evaluator eps unit ds e -> few_det_labels ds ->
  forall v vi, label_no e v vi -> forall t, (0 < t)%Z ->
  forall k q, 0 < gts_with sel ds v -> nth_error (rep_pr_scores eps e datums t (Z.of_nat vi)) k = Some q -> 1 <= k ->
  forall s, (0 < s)%Z -> ((s <= q)%Z <-> (qnat k / 100 <= rep_recall eps e datums t s (Z.of_nat vi))%Q).
Proof. exact scores_level. Qed.
Print Assumptions C76_recall_thresholds.
(* 0 when the level is not reached; otherwise a positive score above the tolerance *)
Theorem C76_zero_or_positive :
  forall eps unit ds, det_input unit ds -> forall sel datums, det_selects ds datums sel ->
  forall e, (0 <= unit)%Z -> det_evaluator eps unit ds e -> few_det_labels ds ->
  forall v vi, label_no e v vi -> forall t, (0 < t)%Z ->
  forall k q, nth_error (rep_pr_scores eps e datums t (Z.of_nat vi)) k = Some q -> 1 <= k -> q = 0%Z \/ (0 < q /\ eps < q)%Z.
Proof. exact scores_above_eps. Qed.
Print Assumptions C76_zero_or_positive.
Theorem C76_without_groundtruths :
  forall eps unit ds, det_input unit ds -> forall sel datums, det_selects ds datums sel ->
  forall e, (0 <= unit)%Z -> det_evaluator eps unit ds e -> few_det_labels ds ->
  forall v vi, label_no e v vi -> forall t, (0 < t)%Z ->
  forall k q, gts_with sel ds v = 0 -> nth_error (rep_pr_scores eps e datums t (Z.of_nat vi)) k = Some q -> 1 <= k -> q = 0%Z.
Proof. exact scores_without_gts. Qed.
Print Assumptions C76_without_groundtruths.
(* the first entry is the best score of the label: thresholds up to it leave predictions *)
Theorem C76_first :
  forall eps unit ds, det_input unit ds -> forall sel datums, det_selects ds datums sel ->
  forall e, (0 <= unit)%Z -> det_evaluator eps unit ds e -> few_det_labels ds ->
  forall v vi, label_no e v vi -> forall t, (0 < t)%Z ->
  forall q, nth_error (rep_pr_scores eps e datums t (Z.of_nat vi)) 0 = Some q ->
  forall s, (0 < s)%Z -> (eps < s)%Z ->
    ((s <= q)%Z <-> 0 < rep_tp eps e datums t s (Z.of_nat vi) + rep_fp eps e datums t s (Z.of_nat vi)).
Proof. exact scores_first. Qed.
Print Assumptions C76_first.
(* 101 entries that do not increase, whatever the evaluator *)
Theorem C76_shape : forall eps e datums t l,
  List.length (rep_pr_scores eps e datums t l) = 101 /\
  forall j k p q, j <= k -> nth_error (rep_pr_scores eps e datums t l) j = Some p ->
    nth_error (rep_pr_scores eps e datums t l) k = Some q -> (q <= p)%Z.
Proof. intros eps e datums t l. split; [apply pr_scores_length|apply pr_scores_decreasing]. Qed.
Print Assumptions C76_shape.
(* the scores do not depend on storage, batching or file sizes *)
Theorem C76_same_scores :
  forall eps unit ds, det_input unit ds -> forall sel datums, det_selects ds datums sel -> (0 <= unit)%Z -> few_det_labels ds ->
  forall e1 e2, det_evaluator eps unit ds e1 -> det_evaluator eps unit ds e2 ->
  forall v vi t, label_no e1 v vi -> rep_pr_scores eps e1 datums t (Z.of_nat vi) = rep_pr_scores eps e2 datums t (Z.of_nat vi).
Proof. exact same_scores. Qed.
Print Assumptions C76_same_scores.
Example C76_example :
  det_evaluator 1 one ddemo ddemo_mem
  /\ nth_error (rep_pr_scores 1 ddemo_mem (fun _ => true) 500000000 0) 50 = Some 900000000%Z
  /\ nth_error (rep_pr_scores 1 ddemo_mem (fun _ => true) 500000000 0) 51 = Some 0%Z
  /\ gts_with (fun _ => true) ddemo "cat" = 2
  /\ (rep_recall 1 ddemo_mem (fun _ => true) 500000000 900000000 0 == 1 # 2)%Q.
Proof. split; [apply ddemo_mem_ok|]. vm_compute. auto. Qed.

(* ---------------------------------------------------------------- C77 *)
(* no score threshold with recall at least k/100 has a better precision than the one
   listed at level k *)
Theorem C77_upper_bound_partial :
  forall eps unit ds, det_input unit ds -> forall sel datums, det_selects ds datums sel ->
  forall e, (0 <= unit)%Z -> det_evaluator eps unit ds e -> few_det_labels ds ->
  forall v vi, label_no e v vi -> forall t, (0 < t)%Z ->
  forall k p s, nth_error (rep_pr_curve eps e datums t (Z.of_nat vi)) k = Some p ->
    (qnat k / 100 <= rep_recall eps e datums t s (Z.of_nat vi))%Q -> (rep_precision eps e datums t s (Z.of_nat vi) <= p)%Q.
Proof. exact curve_bounds. Qed.
Print Assumptions C77_upper_bound_partial.
(* and some threshold reaches it, when the scores of the label are distinct *)
Theorem C77_attained_partial :
  forall eps unit ds, det_input unit ds -> forall sel datums, det_selects ds datums sel ->
  forall e, (0 <= unit)%Z -> det_evaluator eps unit ds e -> few_det_labels ds ->
  forall v vi, label_no e v vi -> forall t, (0 < t)%Z -> Forall distinct_pd_labels ds -> distinct_scores sel ds v ->
  forall k p, nth_error (rep_pr_curve eps e datums t (Z.of_nat vi)) k = Some p -> ~ (p == 0)%Q ->
    exists s, (eps < s)%Z /\ (qnat k / 100 <= rep_recall eps e datums t s (Z.of_nat vi))%Q
      /\ (rep_precision eps e datums t s (Z.of_nat vi) == p)%Q.
Proof. exact curve_attained. Qed.
Print Assumptions C77_attained_partial.

(* a false alarm with the best score, then both cats are found *)
Definition late : list detection :=
  [ MkDet "img0" [gt "a" "cat"; gt "b" "cat"]
          [pd "x" "cat" 900000000; pd "y" "cat" 800000000; pd "z" "cat" 700000000]
          (iou_of [ov 1 0 900000000; ov 2 1 900000000]) ]%string%Z.
Definition late_mem : deval := get_eval (mem_eval 1 one 10 singles [late]).
Lemma late_ok : det_evaluator 1 one late late_mem.
Proof. apply (mem_eval_ok 1 one 10 singles [late] late_mem). vm_compute. reflexivity. Qed.
Lemma late_input : det_input one late.
Proof.
  constructor; [|constructor]. split; [reflexivity|]. split.
  - intros a [<-|[<-|[]]]; reflexivity.
  - intros p g. unfold one. cbn [t_iou]. unfold iou_of. cbn [find]. 
    destruct (_ && _); [cbn; lia|]. destruct (_ && _); [cbn; lia|lia].
Qed.
(* the score and the precision listed at a level are not an operating point: at the
   listed score the precision is lower *)
Theorem C77_operating_point_refuted :
  exists ds e, det_input one ds /\ det_evaluator 1 one ds e /\ few_det_labels ds /\ Forall single_pd_labels ds
    /\ distinct_scores (fun _ => true) ds "cat" /\ label_no e "cat" 0
    /\ exists k p q, nth_error (rep_pr_curve 1 e (fun _ => true) 500000000 0) k = Some p
         /\ nth_error (rep_pr_scores 1 e (fun _ => true) 500000000 0) k = Some q
         /\ ~ (rep_precision 1 e (fun _ => true) 500000000 q 0 == p)%Q.
Proof.
  exists late, late_mem. split; [exact late_input|]. split; [exact late_ok|]. split; [vm_compute; discriminate|]. split.
  { constructor; [|constructor]. intros a [<-|[<-|[<-|[]]]]; reflexivity. } split.
  { intros i d p a n s i' d' p' a' n' H1 _ H2 H3 H4 G1 _ G2 G3 G4.
    destruct i as [|[|i]]; [|discriminate|discriminate]. destruct i' as [|[|i']]; [|discriminate|discriminate]. cbn in H1, G1. injection H1 as <-. injection G1 as <-.
    destruct p as [|[|[|[|p]]]]; try discriminate; destruct p' as [|[|[|[|p']]]]; try discriminate; cbn in H2, G2; injection H2 as <-; injection G2 as <-;
      (destruct n as [|[|n]]; try discriminate); (destruct n' as [|[|n']]; try discriminate); cbn in H4, G4; try (split; reflexivity); congruence. } split.
  { vm_compute. reflexivity. }
  exists 1. eexists. eexists. split; [vm_compute; reflexivity|]. split; [vm_compute; reflexivity|]. vm_compute. discriminate.
Qed.
Print Assumptions C77_operating_point_refuted.
Example C77_example :
  map (fun s => Qred (rep_precision 1 late_mem (fun _ => true) 500000000 s 0)) [900000000; 800000000; 700000000]%Z = [0%Q; 1 # 2; 2 # 3]
  /\ option_map Qred (nth_error (rep_pr_curve 1 late_mem (fun _ => true) 500000000 0) 1) = Some (2 # 3)
  /\ nth_error (rep_pr_scores 1 late_mem (fun _ => true) 500000000 0) 1 = Some 800000000%Z.
Proof. vm_compute. auto. Qed.

(* a hit and a false alarm with the same score: the hit is ranked first, so the curve lists
   the precision 1 at every level, but no score threshold keeps the one without the other *)
Definition tied : list detection :=
  [ MkDet "img0" [gt "a" "cat"] [pd "x" "cat" 900000000; pd "y" "cat" 900000000] (iou_of [ov 0 0 900000000]) ]%string%Z.
Definition tied_mem : deval := get_eval (mem_eval 1 one 10 singles [tied]).
Theorem C77_ties_refuted :
  exists ds e, det_input one ds /\ det_evaluator 1 one ds e /\ few_det_labels ds /\ Forall single_pd_labels ds /\ label_no e "cat" 0
    /\ exists p, nth_error (rep_pr_curve 1 e (fun _ => true) 500000000 0) 100 = Some p
         /\ forall s, ~ (rep_precision 1 e (fun _ => true) 500000000 s 0 == p)%Q.
Proof.
  exists tied, tied_mem. split; [unfold det_input, tied; inputs|].
  split; [apply (mem_eval_ok 1 one 10 singles [tied] tied_mem); vm_compute; reflexivity|]. split; [vm_compute; discriminate|].
  split; [constructor; [|constructor]; intros a [<-|[<-|[]]]; reflexivity|]. split; [vm_compute; reflexivity|].
  eexists. split; [vm_compute; reflexivity|]. intros s. unfold rep_precision.
  destruct (Z.le_gt_cases s 900000000) as [H|H].
  - rewrite (rep_counts_ext 1 tied_mem (fun _ => true) 500000000 s 900000000 0); [vm_compute; discriminate|].
    intros r Hr. vm_compute in Hr. repeat (destruct Hr as [<-|Hr]; [cbn [d_score]; lia|]). destruct Hr.
  - rewrite (rep_counts_ext 1 tied_mem (fun _ => true) 500000000 s 900000001 0); [vm_compute; discriminate|].
    intros r Hr. vm_compute in Hr. repeat (destruct Hr as [<-|Hr]; [cbn [d_score]; lia|]). destruct Hr.
Qed.
Print Assumptions C77_ties_refuted.
