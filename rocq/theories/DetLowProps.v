(* C130: predictions appended with lower scores; C122 for average recall.  Vocabulary:
   DetSpec.v, DetLabelSpec.v, DetAddSpec.v, DetLowSpec.v; model: DetModel.v,
   DetFlowModel.v, DetReportModel.v. *)
From Verif Require Import Prelude Counting CacheModel CacheSpec ClsModel FlowModel
  DetModel DetSpec DetFlowModel DetReportModel DetEnd DetDemo DetLabelSpec DetAddSpec DetLowSpec DetLowProofs.
From Coq Require Import String QArith Lia.
Local Open Scope nat_scope.
Local Open Scope list_scope.

(* ---------------------------------------------------------------- C122 *)
(* added predictions never lower the average recall of a label *)
Theorem C122_average_recall :
  forall eps unit ds ds' sel sel' datums datums' e e', (0 <= unit)%Z -> det_input unit ds -> det_input unit ds' ->
  det_selects ds datums sel -> det_selects ds' datums' sel' -> det_evaluator eps unit ds e -> det_evaluator eps unit ds' e' ->
  few_det_labels ds -> few_det_labels ds' -> Forall distinct_pd_labels ds -> Forall distinct_pd_labels ds' ->
  forall v vi vi', label_no e v vi -> label_no e' v vi' ->
  Forall2 (fun d d' => more_predictions d d' /\ sel d = sel' d') ds ds' ->
  forall ious s, Forall (fun t => 0 < t)%Z ious ->
    at_most (rep_ar eps e datums ious s (Z.of_nat vi)) (rep_ar eps e' datums' ious s (Z.of_nat vi')).
Proof. exact more_ar. Qed.
Print Assumptions C122_average_recall.

(* ---------------------------------------------------------------- C130 *)
(* predictions appended behind those of each image, whose scores for a label are lower
   than all before, never lower the average precision of the label nor any point of its
   precision-recall curve *)
Theorem C130_average_precision :
  forall eps unit ds ds' sel sel' datums datums' e e', (0 < eps)%Z -> (0 <= unit)%Z -> det_input unit ds -> det_input unit ds' ->
  det_selects ds datums sel -> det_selects ds' datums' sel' -> det_evaluator eps unit ds e -> det_evaluator eps unit ds' e' ->
  few_det_labels ds -> few_det_labels ds' -> Forall distinct_pd_labels ds -> Forall distinct_pd_labels ds' ->
  forall v vi vi', label_no e v vi -> label_no e' v vi' -> appended_below sel sel' ds ds' v -> forall t, (0 < t)%Z ->
    (rep_ap eps e datums t (Z.of_nat vi) <= rep_ap eps e' datums' t (Z.of_nat vi'))%Q /\
    Forall2 Qle (rep_pr_curve eps e datums t (Z.of_nat vi)) (rep_pr_curve eps e' datums' t (Z.of_nat vi')).
Proof. exact low_ap. Qed.
Print Assumptions C130_average_precision.
(* and leave both as they are if they overlap no ground truth of the label enough *)
Theorem C130_misses :
  forall eps unit ds ds' sel sel' datums datums' e e', (0 < eps)%Z -> (0 <= unit)%Z -> det_input unit ds -> det_input unit ds' ->
  det_selects ds datums sel -> det_selects ds' datums' sel' -> det_evaluator eps unit ds e -> det_evaluator eps unit ds' e' ->
  few_det_labels ds -> few_det_labels ds' -> Forall distinct_pd_labels ds -> Forall distinct_pd_labels ds' ->
  forall v vi vi', label_no e v vi -> label_no e' v vi' -> appended_below sel sel' ds ds' v -> forall t, (0 < t)%Z -> appended_misses t sel ds ds' v ->
    rep_ap eps e' datums' t (Z.of_nat vi') = rep_ap eps e datums t (Z.of_nat vi) /\
    rep_pr_curve eps e' datums' t (Z.of_nat vi') = rep_pr_curve eps e datums t (Z.of_nat vi).
Proof. exact miss_ap. Qed.
Print Assumptions C130_misses.
(* nor do they lower the mean average precision, if they name no new label *)
Theorem C130_mean :
  forall eps unit ds ds' sel sel' datums datums' e e', (0 < eps)%Z -> (0 <= unit)%Z -> det_input unit ds -> det_input unit ds' ->
  det_selects ds datums sel -> det_selects ds' datums' sel' -> det_evaluator eps unit ds e -> det_evaluator eps unit ds' e' ->
  few_det_labels ds -> few_det_labels ds' -> Forall distinct_pd_labels ds -> Forall distinct_pd_labels ds' ->
  (forall v, In v (det_labels ds') <-> In v (det_labels ds)) -> (forall v, appended_below sel sel' ds ds' v) -> forall t, (0 < t)%Z ->
    at_most (rep_map eps e datums t) (rep_map eps e' datums' t).
Proof. exact low_map. Qed.
Print Assumptions C130_mean.

(* the demo with a late hit, with a late miss, with a late prediction of a new label *)
Definition hit_late : list detection :=
  [ MkDet "img0" [gt "a" "cat"; gt "b" "dog"]
               [pd "x" "cat" 900000000; pd "y" "cat" 700000000; pd "z" "dog" 800000000]
               (iou_of [ov 0 0 800000000; ov 1 0 600000000; ov 1 1 300000000]);
    MkDet "img1" [gt "c" "cat"] [pd "p" "cat" 200000000] (iou_of [ov 0 0 700000000]);
    MkDet "img2" [] [pd "w" "cat" 300000000] (iou_of []) ]%string%Z.
Definition miss_late : list detection :=
  [ MkDet "img0" [gt "a" "cat"; gt "b" "dog"]
               [pd "x" "cat" 900000000; pd "y" "cat" 700000000; pd "z" "dog" 800000000]
               (iou_of [ov 0 0 800000000; ov 1 0 600000000; ov 1 1 300000000]);
    MkDet "img1" [gt "c" "cat"] [pd "p" "cat" 200000000] (iou_of [ov 0 0 400000000]);
    MkDet "img2" [] [pd "w" "cat" 300000000] (iou_of []) ]%string%Z.
Definition bird_late : list detection :=
  [ MkDet "img0" [gt "a" "cat"; gt "b" "dog"]
               [pd "x" "cat" 900000000; pd "y" "cat" 700000000; pd "z" "dog" 800000000]
               (iou_of [ov 0 0 800000000; ov 1 0 600000000; ov 1 1 300000000]);
    MkDet "img1" [gt "c" "cat"] [pd "p" "bird" 200000000] (iou_of []);
    MkDet "img2" [] [pd "w" "cat" 300000000] (iou_of []) ]%string%Z.
(* a hit, and a second prediction with the same score that lies on a dog *)
Definition lone : list detection :=
  [ MkDet "img0" [gt "a" "cat"; gt "b" "dog"] [pd "x" "cat" 900000000] (iou_of [ov 0 0 800000000; ov 1 1 900000000]) ]%string%Z.
Definition rival : list detection :=
  [ MkDet "img0" [gt "a" "cat"; gt "b" "dog"] [pd "x" "cat" 900000000; pd "y" "cat" 900000000] (iou_of [ov 0 0 800000000; ov 1 1 900000000]) ]%string%Z.
Definition hit_mem : deval := Eval vm_compute in get_eval (mem_eval 1 one 4 singles [hit_late]).
Definition miss_mem : deval := Eval vm_compute in get_eval (mem_eval 1 one 4 singles [miss_late]).
Definition bird_mem : deval := Eval vm_compute in get_eval (mem_eval 1 one 4 singles [bird_late]).
Definition lone_mem : deval := Eval vm_compute in get_eval (mem_eval 1 one 4 singles [lone]).
Definition rival_mem : deval := Eval vm_compute in get_eval (mem_eval 1 one 4 singles [rival]).
Lemma hit_mem_ok : det_evaluator 1 one hit_late hit_mem.
Proof. apply (mem_eval_ok 1 one 4 singles [hit_late]). vm_compute. reflexivity. Qed.
Lemma miss_mem_ok : det_evaluator 1 one miss_late miss_mem.
Proof. apply (mem_eval_ok 1 one 4 singles [miss_late]). vm_compute. reflexivity. Qed.
Lemma bird_mem_ok : det_evaluator 1 one bird_late bird_mem.
Proof. apply (mem_eval_ok 1 one 4 singles [bird_late]). vm_compute. reflexivity. Qed.
Lemma lone_mem_ok : det_evaluator 1 one lone lone_mem.
Proof. apply (mem_eval_ok 1 one 4 singles [lone]). vm_compute. reflexivity. Qed.
Lemma rival_mem_ok : det_evaluator 1 one rival rival_mem.
Proof. apply (mem_eval_ok 1 one 4 singles [rival]). vm_compute. reflexivity. Qed.
Ltac few_ok := unfold few_det_labels, few; vm_compute; discriminate.
Ltac dist_ok f := unfold f, distinct_pd_labels; each; intros a Ha; cbn in Ha; intuition subst; repeat constructor; cbn; intuition discriminate.
Ltac appended_ok :=
  split; [reflexivity|]; split; [split; [reflexivity|split; [eexists; reflexivity|intros p g Hp; reflexivity || (cbn in Hp; lia)]]|];
  intros _ ps Hps x Hx; vm_compute in Hps, Hx; intuition subst; reflexivity.
Lemma hit_appended : appended_below (fun _ => true) (fun _ => true) ddemo hit_late "cat".
Proof. repeat (apply Forall2_cons || apply Forall2_nil); appended_ok. Qed.
Lemma miss_appended : appended_below (fun _ => true) (fun _ => true) ddemo miss_late "cat".
Proof. repeat (apply Forall2_cons || apply Forall2_nil); appended_ok. Qed.
Example C130_example :
  det_input one hit_late /\ det_evaluator 1 one hit_late hit_mem /\ few_det_labels hit_late /\ Forall distinct_pd_labels hit_late /\
  label_no ddemo_mem "cat" 0 /\ label_no hit_mem "cat" 0 /\ appended_below (fun _ => true) (fun _ => true) ddemo hit_late "cat" /\
  (rep_ap 1 ddemo_mem (fun _ => true) 500000000 0 == 51 # 101)%Q /\ (rep_ap 1 hit_mem (fun _ => true) 500000000 0 == 76 # 101)%Q.
Proof.
  split; [unfold det_input, hit_late; inputs|]. split; [apply hit_mem_ok|]. split; [few_ok|]. split; [dist_ok hit_late|]. split; [reflexivity|]. split; [reflexivity|].
  split; [apply hit_appended|]. split; vm_compute; reflexivity.
Qed.
Example C130_misses_example :
  det_input one miss_late /\ det_evaluator 1 one miss_late miss_mem /\ few_det_labels miss_late /\ Forall distinct_pd_labels miss_late /\ label_no miss_mem "cat" 0 /\
  appended_below (fun _ => true) (fun _ => true) ddemo miss_late "cat" /\ appended_misses 500000000 (fun _ => true) ddemo miss_late "cat" /\
  (rep_ap 1 miss_mem (fun _ => true) 500000000 0 == 51 # 101)%Q /\ (rep_ap 1 miss_mem (fun _ => true) 400000000 0 == 76 # 101)%Q.
Proof.
  split; [unfold det_input, miss_late; inputs|]. split; [apply miss_mem_ok|]. split; [few_ok|]. split; [dist_ok miss_late|]. split; [reflexivity|].
  split; [apply miss_appended|].
  split; [repeat (apply Forall2_cons || apply Forall2_nil); intros _ ps Hps g Hg; vm_compute in Hps, Hg; intuition subst; reflexivity|]. split; vm_compute; reflexivity.
Qed.
Lemma hit_appended_all v : appended_below (fun _ => true) (fun _ => true) ddemo hit_late v.
Proof.
  destruct (String.eqb v "cat") eqn:E; [apply String.eqb_eq in E; subst v; apply hit_appended|].
  assert (N : further (nth 1 ddemo (MkDet "" [] [] (iou_of []))) (nth 1 hit_late (MkDet "" [] [] (iou_of []))) v = []).
  { unfold further, pds_of. cbn -[String.eqb]. rewrite E. reflexivity. }
  assert (N0 : further (nth 0 ddemo (MkDet "" [] [] (iou_of []))) (nth 0 hit_late (MkDet "" [] [] (iou_of []))) v = []).
  { unfold further, pds_of. cbn -[String.eqb]. rewrite E. destruct (String.eqb v "dog"); reflexivity. }
  assert (N2 : further (nth 2 ddemo (MkDet "" [] [] (iou_of []))) (nth 2 hit_late (MkDet "" [] [] (iou_of []))) v = []).
  { unfold further, pds_of. cbn -[String.eqb]. rewrite E. reflexivity. }
  repeat (apply Forall2_cons || apply Forall2_nil);
    (split; [reflexivity|]; split; [split; [reflexivity|split; [eexists; reflexivity|intros p g Hp; reflexivity || (cbn in Hp; lia)]]|]); intros _ ps Hps x Hx; exfalso.
  - change (In ps (further (nth 0 ddemo (MkDet "" [] [] (iou_of []))) (nth 0 hit_late (MkDet "" [] [] (iou_of []))) v)) in Hps. rewrite N0 in Hps. exact Hps.
  - change (In ps (further (nth 1 ddemo (MkDet "" [] [] (iou_of []))) (nth 1 hit_late (MkDet "" [] [] (iou_of []))) v)) in Hps. rewrite N in Hps. exact Hps.
  - change (In ps (further (nth 2 ddemo (MkDet "" [] [] (iou_of []))) (nth 2 hit_late (MkDet "" [] [] (iou_of []))) v)) in Hps. rewrite N2 in Hps. exact Hps.
Qed.
Example C130_mean_example :
  (forall v, In v (det_labels hit_late) <-> In v (det_labels ddemo)) /\ (forall v, appended_below (fun _ => true) (fun _ => true) ddemo hit_late v) /\
  at_most (Some (51 # 202)) (rep_map 1 ddemo_mem (fun _ => true) 500000000) /\ at_most (Some (76 # 202)) (rep_map 1 hit_mem (fun _ => true) 500000000).
Proof.
  split; [intros v; vm_compute; tauto|]. split; [apply hit_appended_all|]. split; vm_compute; discriminate.
Qed.
(* with an equal score, average precision can fall: the better overlap, though with an
   object of another label, is ranked first *)
Theorem C130_equal_refuted :
  exists eps unit ds ds' e e' v vi vi' t, det_input unit ds /\ det_input unit ds' /\ det_evaluator eps unit ds e /\ det_evaluator eps unit ds' e' /\
    few_det_labels ds /\ few_det_labels ds' /\ Forall distinct_pd_labels ds /\ Forall distinct_pd_labels ds' /\ label_no e v vi /\ label_no e' v vi' /\ (0 < t)%Z /\
    Forall2 (fun d d' => appended d d' /\ forall ps, In ps (further d d' v) -> forall x, In x (label_scores (fun _ => true) ds v) -> (snd ps <= x)%Z) ds ds' /\
    (rep_ap eps e (fun _ => true) t (Z.of_nat vi) == 1)%Q /\ (rep_ap eps e' (fun _ => true) t (Z.of_nat vi') == 1 # 2)%Q.
Proof.
  exists 1%Z, one, lone, rival, lone_mem, rival_mem, "cat"%string, 0, 0, 500000000%Z.
  split; [unfold det_input, lone; inputs|]. split; [unfold det_input, rival; inputs|]. split; [apply lone_mem_ok|]. split; [apply rival_mem_ok|]. split; [few_ok|]. split; [few_ok|].
  split; [dist_ok lone|]. split; [dist_ok rival|]. split; [reflexivity|]. split; [reflexivity|]. split; [reflexivity|].
  split; [|split; vm_compute; reflexivity]. constructor; [|constructor]. split; [split; [reflexivity|split; [eexists; reflexivity|intros; reflexivity]]|].
  intros ps Hps x Hx. vm_compute in Hps, Hx. intuition subst. vm_compute. discriminate.
Qed.
Print Assumptions C130_equal_refuted.
(* a new label, even with the lowest score, lowers the mean *)
Theorem C130_new_label_refuted :
  exists eps unit ds ds' e e' t, det_input unit ds /\ det_input unit ds' /\ det_evaluator eps unit ds e /\ det_evaluator eps unit ds' e' /\
    few_det_labels ds /\ few_det_labels ds' /\ Forall distinct_pd_labels ds /\ Forall distinct_pd_labels ds' /\ (0 < t)%Z /\
    Forall2 appended ds ds' /\ ~ at_most (rep_map eps e (fun _ => true) t) (rep_map eps e' (fun _ => true) t).
Proof.
  exists 1%Z, one, ddemo, bird_late, ddemo_mem, bird_mem, 500000000%Z.
  split; [unfold det_input, ddemo; inputs|]. split; [unfold det_input, bird_late; inputs|]. split; [apply ddemo_mem_ok|]. split; [apply bird_mem_ok|]. split; [few_ok|]. split; [few_ok|].
  split; [dist_ok ddemo|]. split; [dist_ok bird_late|]. split; [reflexivity|].
  split; [repeat (apply Forall2_cons || apply Forall2_nil); (split; [reflexivity|split; [eexists; reflexivity|intros p g Hp; reflexivity || (cbn in Hp; lia)]])|].
  vm_compute. intros H. apply H. reflexivity.
Qed.
Print Assumptions C130_new_label_refuted.
