(* C28, C32 with ties; C121, C122: predictions below the score threshold, added
   predictions and ground truths.  Vocabulary: DetSpec.v, DetPickSpec.v, DetAddSpec.v;
   model: DetModel.v, DetFlowModel.v, DetReportModel.v. *)
From Verif Require Import Prelude Counting CacheModel CacheSpec ClsModel FlowModel
  DetModel DetSpec DetFlowModel DetReportModel DetEnd DetMore DetDemo DetImage DetPickSpec DetPick DetAddSpec DetAddProofs DetAddMatrix.
From Coq Require Import String QArith Lia.
Local Open Scope nat_scope.
Local Open Scope list_scope.

(* ---------------------------------------------------------------- C28, C32 *)
(* the true positives of a label are the ground truths of the label that some
   prediction with this label and a sufficient score picks: of the ground truths of the
   label it overlaps this one most, and it is the first of equals; no assumption on ties *)
Theorem C28_ties :
  forall eps unit ds, det_input unit ds -> forall sel datums, det_selects ds datums sel ->
  forall e, (0 <= unit)%Z -> det_evaluator eps unit ds e -> few_det_labels ds ->
  forall v vi, label_no e v vi -> forall t s, (0 < t)%Z -> Forall distinct_pd_labels ds ->
    rep_tp eps e datums t s (Z.of_nat vi) = gts_where sel (fun d g => picked eps t s d v g) ds v.
Proof. exact pick_end_tp. Qed.
Print Assumptions C28_ties.
(* average precision and the precision-recall curve, no assumption on ties *)
Theorem C32_ties :
  forall eps unit ds, det_input unit ds -> forall sel datums, det_selects ds datums sel ->
  forall e, (0 <= unit)%Z -> det_evaluator eps unit ds e -> few_det_labels ds ->
  forall v vi, label_no e v vi -> Forall distinct_pd_labels ds ->
    exists P, ap_ranking eps sel ds v P /\
      forall t, (0 < t)%Z -> exists hits, ap_hits_first eps t ds v P hits /\
        (rep_ap eps e datums t (Z.of_nat vi) == ap_spec (gts_with sel ds v) hits)%Q /\
        List.length (rep_pr_curve eps e datums t (Z.of_nat vi)) = 101 /\
        forall k q, nth_error (rep_pr_curve eps e datums t (Z.of_nat vi)) k = Some q -> (q == interpolated (gts_with sel ds v) hits k)%Q.
Proof. exact pick_pr_curve. Qed.
Print Assumptions C32_ties.

(* two predictions that overlap both ground truths equally pick the same one *)
Definition tied : list detection :=
  [ MkDet "img0" [gt "a" "cat"; gt "b" "cat"] [pd "x" "cat" 900000000; pd "y" "cat" 800000000]
        (iou_of [ov 0 0 600000000; ov 0 1 600000000; ov 1 0 600000000; ov 1 1 600000000]) ]%string%Z.
Definition tied_mem : deval := Eval vm_compute in get_eval (mem_eval 1 one 4 singles [tied]).
Lemma tied_mem_ok : det_evaluator 1 one tied tied_mem.
Proof. apply (mem_eval_ok 1 one 4 singles [tied]). vm_compute. reflexivity. Qed.
Lemma tied_input : det_input one tied.
Proof. unfold det_input, tied. inputs. Qed.
Example C28_ties_example :
  det_input one tied /\ det_evaluator 1 one tied tied_mem /\ few_det_labels tied /\ label_no tied_mem "cat" 0 /\ Forall distinct_pd_labels tied /\
  rep_tp 1 tied_mem (fun _ => true) 500000000 500000000 0 = 1 /\
  map (picked 1 500000000 500000000 (nth 0 tied (MkDet "" [] [] (iou_of []))) "cat") [0; 1] = [true; false].
Proof.
  split; [apply tied_input|]. split; [apply tied_mem_ok|]. split; [unfold few_det_labels, few; vm_compute; discriminate|]. split; [reflexivity|].
  split; [unfold tied, distinct_pd_labels; each; intros a Ha; cbn in Ha; intuition subst; repeat constructor; cbn; intuition discriminate|].
  split; vm_compute; reflexivity.
Qed.
Example C32_ties_example : (rep_ap 1 tied_mem (fun _ => true) 500000000 0 == 51 # 101)%Q.
Proof. vm_compute. reflexivity. Qed.

(* ---------------------------------------------------------------- C121 *)
(* counts, precision, recall and F1 of a label at score threshold [s] do not change
   when predictions all of whose scores are below [s] are left out *)
Theorem C121_counts :
  forall eps unit ds ds' sel sel' datums datums' e e', (0 <= unit)%Z -> det_input unit ds -> det_input unit ds' ->
  det_selects ds datums sel -> det_selects ds' datums' sel' -> det_evaluator eps unit ds e -> det_evaluator eps unit ds' e' ->
  few_det_labels ds -> few_det_labels ds' -> Forall distinct_pd_labels ds -> Forall distinct_pd_labels ds' ->
  forall v vi vi' t s, label_no e v vi -> label_no e' v vi' -> (0 < t)%Z ->
  Forall2 (fun d d' => without_low s d d' /\ sel d = sel' d') ds ds' ->
    rep_gts e datums (Z.of_nat vi) = rep_gts e' datums' (Z.of_nat vi') /\
    rep_tp eps e datums t s (Z.of_nat vi) = rep_tp eps e' datums' t s (Z.of_nat vi') /\
    rep_fp eps e datums t s (Z.of_nat vi) = rep_fp eps e' datums' t s (Z.of_nat vi') /\
    rep_fn eps e datums t s (Z.of_nat vi) = rep_fn eps e' datums' t s (Z.of_nat vi') /\
    rep_precision eps e datums t s (Z.of_nat vi) = rep_precision eps e' datums' t s (Z.of_nat vi') /\
    rep_recall eps e datums t s (Z.of_nat vi) = rep_recall eps e' datums' t s (Z.of_nat vi') /\
    rep_f1 eps e datums t s (Z.of_nat vi) = rep_f1 eps e' datums' t s (Z.of_nat vi').
Proof. exact low_end. Qed.
Print Assumptions C121_counts.

(* ddemo without its predictions below 0.75 *)
Definition high : list detection :=
  [ MkDet "img0" [gt "a" "cat"; gt "b" "dog"] [pd "x" "cat" 900000000; pd "z" "dog" 800000000] (iou_of [ov 0 0 800000000]);
    MkDet "img1" [gt "c" "cat"] [] (iou_of []);
    MkDet "img2" [] [] (iou_of []) ]%string%Z.
Definition high_mem : deval := Eval vm_compute in get_eval (mem_eval 1 one 4 singles [high]).
(* a prediction with two labels, one of them with a low score, and the same prediction
   without that label *)
Definition two_labels : list detection :=
  [ MkDet "img0" [gt "a" "dog"] [MkAnn "x" ["cat"; "dog"] [900000000; 200000000]%Z] (iou_of [ov 0 0 900000000]);
    MkDet "img1" [gt "b" "cat"] [] (iou_of []) ]%string%Z.
Definition one_label : list detection :=
  [ MkDet "img0" [gt "a" "dog"] [MkAnn "x" ["cat"] [900000000]%Z] (iou_of [ov 0 0 900000000]);
    MkDet "img1" [gt "b" "cat"] [] (iou_of []) ]%string%Z.
Definition two_mem : deval := Eval vm_compute in get_eval (mem_eval 1 one 4 singles [two_labels]).
Definition one_mem : deval := Eval vm_compute in get_eval (mem_eval 1 one 4 singles [one_label]).
Lemma high_mem_ok : det_evaluator 1 one high high_mem.
Proof. apply (mem_eval_ok 1 one 4 singles [high]). vm_compute. reflexivity. Qed.
Lemma two_mem_ok : det_evaluator 1 one two_labels two_mem.
Proof. apply (mem_eval_ok 1 one 4 singles [two_labels]). vm_compute. reflexivity. Qed.
Lemma one_mem_ok : det_evaluator 1 one one_label one_mem.
Proof. apply (mem_eval_ok 1 one 4 singles [one_label]). vm_compute. reflexivity. Qed.
Lemma high_input : det_input one high.
Proof. unfold det_input, high. inputs. Qed.
Lemma two_input : det_input one two_labels.
Proof. unfold det_input, two_labels. inputs. Qed.
Lemma one_input : det_input one one_label.
Proof. unfold det_input, one_label. inputs. Qed.
Ltac few_ok := unfold few_det_labels, few; vm_compute; discriminate.
Ltac dist_ok f := unfold f, distinct_pd_labels; each; intros a Ha; cbn in Ha; intuition subst; repeat constructor; cbn; intuition discriminate.
Example C121_example :
  Forall2 (fun d d' => without_low 750000000 d d' /\ true = true) high ddemo /\ List.length (t_pds (nth 0 high (MkDet "" [] [] (iou_of [])))) = 2 /\
  det_input one high /\ det_evaluator 1 one high high_mem /\ few_det_labels high /\ Forall distinct_pd_labels high /\
  label_no high_mem "cat" 0 /\ label_no ddemo_mem "cat" 0 /\
  rep_tp 1 high_mem (fun _ => true) 500000000 750000000 0 = 1 /\ rep_fp 1 ddemo_mem (fun _ => true) 500000000 750000000 0 = 0 /\
  rep_fp 1 ddemo_mem (fun _ => true) 500000000 600000000 0 = 1.
Proof.
  split; [repeat (apply Forall2_cons || apply Forall2_nil); (split; [split; vm_compute; reflexivity|reflexivity])|]. split; [reflexivity|].
  split; [apply high_input|]. split; [apply high_mem_ok|]. split; [few_ok|]. split; [dist_ok high|].
  repeat split; vm_compute; reflexivity.
Qed.
(* the confusion matrix at score threshold [s] does not change either *)
Theorem C121_matrix :
  forall eps unit ds ds' sel sel' datums datums' e e', det_input unit ds -> det_input unit ds' ->
  det_selects ds datums sel -> det_selects ds' datums' sel' -> det_evaluator eps unit ds e -> det_evaluator eps unit ds' e' ->
  few_det_labels ds -> few_det_labels ds' -> few_annotations ds -> few_annotations ds' -> Forall distinct_pd_labels ds -> Forall distinct_pd_labels ds' ->
  forall v vi vi' w wi wi' t s, label_no e v vi -> label_no e' v vi' -> label_no e w wi -> label_no e' w wi' ->
  Forall2 (fun d d' => without_low s d d' /\ sel d = sel' d') ds ds' ->
    dm (rep_matrix eps e datums t s) (Z.of_nat vi) (Z.of_nat wi) = dm (rep_matrix eps e' datums' t s) (Z.of_nat vi') (Z.of_nat wi') /\
    dm_gt (rep_matrix eps e datums t s) (Z.of_nat vi) = dm_gt (rep_matrix eps e' datums' t s) (Z.of_nat vi') /\
    dm_pd (rep_matrix eps e datums t s) (Z.of_nat vi) = dm_pd (rep_matrix eps e' datums' t s) (Z.of_nat vi').
Proof. exact low_matrix. Qed.
Print Assumptions C121_matrix.
Example C121_matrix_example :
  few_annotations high /\ few_annotations ddemo /\
  dm (rep_matrix 1 high_mem (fun _ => true) 500000000 750000000) 0 0 = 1 /\
  dm_pd (rep_matrix 1 high_mem (fun _ => true) 500000000 750000000) 0 = 0 /\
  dm_pd (rep_matrix 1 ddemo_mem (fun _ => true) 500000000 600000000) 0 = 1.
Proof. repeat split; vm_compute; reflexivity. Qed.
(* leaving out a single low-scored label of a prediction does change the counts at
   [s]: the label absorbs the other labels of its prediction *)
Theorem C121_label_refuted :
  exists eps unit ds ds' e e' v vi vi' t s, det_input unit ds /\ det_input unit ds' /\ det_evaluator eps unit ds e /\ det_evaluator eps unit ds' e' /\
    few_det_labels ds /\ few_det_labels ds' /\ Forall distinct_pd_labels ds /\ Forall distinct_pd_labels ds' /\
    label_no e v vi /\ label_no e' v vi' /\ (0 < t)%Z /\ (0 < s)%Z /\
    Forall2 (without_low_labels s) ds ds' /\
    rep_fp eps e (fun _ => true) t s (Z.of_nat vi) = 1 /\ rep_fp eps e' (fun _ => true) t s (Z.of_nat vi') = 0.
Proof.
  exists 1%Z, one, one_label, two_labels, one_mem, two_mem, "cat"%string, 1, 1, 500000000%Z, 500000000%Z.
  split; [apply one_input|]. split; [apply two_input|]. split; [apply one_mem_ok|]. split; [apply two_mem_ok|]. split; [few_ok|]. split; [few_ok|].
  split; [dist_ok one_label|]. split; [dist_ok two_labels|]. split; [reflexivity|]. split; [reflexivity|]. split; [reflexivity|]. split; [reflexivity|].
  split; [repeat (apply Forall2_cons || apply Forall2_nil); split; vm_compute; reflexivity|]. split; vm_compute; reflexivity.
Qed.
Print Assumptions C121_label_refuted.

(* ---------------------------------------------------------------- C122 *)
(* added predictions never lower the true positives or the recall of a label, at any
   IoU and score threshold *)
Theorem C122_predictions :
  forall eps unit ds ds' sel sel' datums datums' e e', (0 <= unit)%Z -> det_input unit ds -> det_input unit ds' ->
  det_selects ds datums sel -> det_selects ds' datums' sel' -> det_evaluator eps unit ds e -> det_evaluator eps unit ds' e' ->
  few_det_labels ds -> few_det_labels ds' -> Forall distinct_pd_labels ds -> Forall distinct_pd_labels ds' ->
  forall v vi vi' t s, label_no e v vi -> label_no e' v vi' -> (0 < t)%Z ->
  Forall2 (fun d d' => more_predictions d d' /\ sel d = sel' d') ds ds' ->
    rep_gts e datums (Z.of_nat vi) = rep_gts e' datums' (Z.of_nat vi') /\
    rep_tp eps e datums t s (Z.of_nat vi) <= rep_tp eps e' datums' t s (Z.of_nat vi') /\
    (rep_recall eps e datums t s (Z.of_nat vi) <= rep_recall eps e' datums' t s (Z.of_nat vi'))%Q.
Proof. exact more_end. Qed.
Print Assumptions C122_predictions.
Example C122_example :
  Forall2 (fun d d' => more_predictions d d' /\ true = true) high ddemo /\
  (rep_recall 1 high_mem (fun _ => true) 500000000 600000000 0 == 1 # 2)%Q.
Proof.
  split; [|vm_compute; reflexivity].
  repeat (apply Forall2_cons || apply Forall2_nil); (split; [split; [reflexivity|]|reflexivity]); intros x Hx; vm_compute in Hx |- *; tauto.
Qed.
(* an added ground truth can take the predictions of two others, and lower the true
   positives *)
Definition before : list detection :=
  [ MkDet "img0" [gt "a" "cat"; gt "b" "cat"] [pd "x" "cat" 900000000; pd "y" "cat" 800000000]
        (iou_of [ov 0 0 600000000; ov 1 1 600000000; ov 0 2 700000000; ov 1 2 700000000]) ]%string%Z.
Definition after : list detection :=
  [ MkDet "img0" [gt "a" "cat"; gt "b" "cat"; gt "c" "cat"] [pd "x" "cat" 900000000; pd "y" "cat" 800000000]
        (iou_of [ov 0 0 600000000; ov 1 1 600000000; ov 0 2 700000000; ov 1 2 700000000]) ]%string%Z.
Definition before_mem : deval := Eval vm_compute in get_eval (mem_eval 1 one 4 singles [before]).
Definition after_mem : deval := Eval vm_compute in get_eval (mem_eval 1 one 4 singles [after]).
Theorem C122_groundtruths_refuted :
  exists eps unit ds ds' e e' v vi vi' t s, det_input unit ds /\ det_input unit ds' /\ det_evaluator eps unit ds e /\ det_evaluator eps unit ds' e' /\
    few_det_labels ds /\ few_det_labels ds' /\ Forall single_pd_labels ds /\ Forall single_pd_labels ds' /\
    label_no e v vi /\ label_no e' v vi' /\ (0 < t)%Z /\ (0 < s)%Z /\
    Forall2 more_groundtruths ds ds' /\
    rep_tp eps e (fun _ => true) t s (Z.of_nat vi) = 2 /\ rep_fp eps e (fun _ => true) t s (Z.of_nat vi) = 0 /\
    rep_tp eps e' (fun _ => true) t s (Z.of_nat vi') = 1 /\ rep_fp eps e' (fun _ => true) t s (Z.of_nat vi') = 1.
Proof.
  exists 1%Z, one, before, after, before_mem, after_mem, "cat"%string, 0, 0, 500000000%Z, 500000000%Z.
  split; [unfold det_input, before; inputs|]. split; [unfold det_input, after; inputs|].
  split; [apply (mem_eval_ok 1 one 4 singles [before]); vm_compute; reflexivity|].
  split; [apply (mem_eval_ok 1 one 4 singles [after]); vm_compute; reflexivity|]. split; [few_ok|]. split; [few_ok|].
  split; [unfold before, single_pd_labels; each; intros a Ha; cbn in Ha; intuition subst; reflexivity|].
  split; [unfold after, single_pd_labels; each; intros a Ha; cbn in Ha; intuition subst; reflexivity|].
  split; [reflexivity|]. split; [reflexivity|]. split; [reflexivity|]. split; [reflexivity|].
  split; [repeat (apply Forall2_cons || apply Forall2_nil); split; [reflexivity|]; split; [exists [gt "c" "cat"]; reflexivity|]; intros p g _; reflexivity|].
  repeat split; vm_compute; reflexivity.
Qed.
Print Assumptions C122_groundtruths_refuted.
