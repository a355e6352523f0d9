(* C125, C126: what the report about a label depends on; replacing the scores by others in
   the same order.  Vocabulary: DetSpec.v, DetLabelSpec.v, DetCellSpec.v (matrices); model:
   DetModel.v, DetFlowModel.v, DetReportModel.v, DetCellModel.v. *)
From Verif Require Import Prelude Counting CacheModel CacheSpec ClsModel FlowModel
  DetModel DetSpec DetFlowModel DetReportModel DetEnd DetDemo DetReorderSpec ClsCellModel DetCellModel DetCellSpec DetLabelSpec DetLabelMain DetRescoreProofs.
From Coq Require Import String QArith Lia.
Local Open Scope nat_scope.
Local Open Scope list_scope.

(* ---------------------------------------------------------------- C125 *)
(* the counts, precision, recall and F1 of a label are those of the same annotations in
   any other input: the other labels, the annotations with other labels, the overlaps with
   them and the name of the label do not matter.  (For predictions with one label.) *)
Theorem C125_counts_partial :
  forall eps unit ds ds' sel sel' datums datums' e e', (0 <= unit)%Z -> det_input unit ds -> det_input unit ds' ->
  det_selects ds datums sel -> det_selects ds' datums' sel' -> det_evaluator eps unit ds e -> det_evaluator eps unit ds' e' ->
  few_det_labels ds -> few_det_labels ds' -> Forall single_pd_labels ds -> Forall single_pd_labels ds' ->
  forall v v' vi vi', label_no e v vi -> label_no e' v' vi' -> same_label sel sel' ds ds' v v' -> forall t s, (0 < t)%Z ->
    rep_gts e datums (Z.of_nat vi) = rep_gts e' datums' (Z.of_nat vi') /\
    rep_tp eps e datums t s (Z.of_nat vi) = rep_tp eps e' datums' t s (Z.of_nat vi') /\
    rep_fp eps e datums t s (Z.of_nat vi) = rep_fp eps e' datums' t s (Z.of_nat vi') /\
    rep_fn eps e datums t s (Z.of_nat vi) = rep_fn eps e' datums' t s (Z.of_nat vi') /\
    rep_precision eps e datums t s (Z.of_nat vi) = rep_precision eps e' datums' t s (Z.of_nat vi') /\
    rep_recall eps e datums t s (Z.of_nat vi) = rep_recall eps e' datums' t s (Z.of_nat vi') /\
    rep_f1 eps e datums t s (Z.of_nat vi) = rep_f1 eps e' datums' t s (Z.of_nat vi').
Proof. exact same_counts. Qed.
Print Assumptions C125_counts_partial.
Theorem C125_average_recall_partial :
  forall eps unit ds ds' sel sel' datums datums' e e', (0 <= unit)%Z -> det_input unit ds -> det_input unit ds' ->
  det_selects ds datums sel -> det_selects ds' datums' sel' -> det_evaluator eps unit ds e -> det_evaluator eps unit ds' e' ->
  few_det_labels ds -> few_det_labels ds' -> Forall single_pd_labels ds -> Forall single_pd_labels ds' ->
  forall v v' vi vi', label_no e v vi -> label_no e' v' vi' -> same_label sel sel' ds ds' v v' -> forall ious s, Forall (fun t => 0 < t)%Z ious ->
    rep_ar eps e datums ious s (Z.of_nat vi) = rep_ar eps e' datums' ious s (Z.of_nat vi').
Proof. exact same_ar. Qed.
Print Assumptions C125_average_recall_partial.
(* average precision and the precision-recall curve: if no two predictions of the label
   have the same score *)
Theorem C125_average_precision_partial :
  forall eps unit ds ds' sel sel' datums datums' e e', (0 <= unit)%Z -> det_input unit ds -> det_input unit ds' ->
  det_selects ds datums sel -> det_selects ds' datums' sel' -> det_evaluator eps unit ds e -> det_evaluator eps unit ds' e' ->
  few_det_labels ds -> few_det_labels ds' -> Forall single_pd_labels ds -> Forall single_pd_labels ds' ->
  forall v v' vi vi', label_no e v vi -> label_no e' v' vi' -> same_label sel sel' ds ds' v v' ->
  (0 < eps)%Z -> NoDup (label_scores sel ds v) -> forall t, (0 < t)%Z ->
    rep_ap eps e datums t (Z.of_nat vi) = rep_ap eps e' datums' t (Z.of_nat vi') /\
    rep_pr_curve eps e datums t (Z.of_nat vi) = rep_pr_curve eps e' datums' t (Z.of_nat vi').
Proof. exact same_ap. Qed.
Print Assumptions C125_average_precision_partial.

(* the cats of the demo under another name, without the dogs, with a bird instead *)
Definition felines : list detection :=
  [ MkDet "a" [gt "1" "feline"] [pd "2" "feline" 900000000; pd "3" "bird" 990000000; pd "4" "feline" 700000000]
               (iou_of [ov 0 0 800000000; ov 1 0 950000000; ov 2 0 600000000]);
    MkDet "b" [gt "5" "bird"; gt "6" "feline"] [] (iou_of []);
    MkDet "c" [gt "7" "bird"] [pd "8" "feline" 300000000] (iou_of [ov 0 0 900000000]) ]%string%Z.
Definition felines_mem : deval := Eval vm_compute in get_eval (mem_eval 1 one 4 singles [felines]).
Lemma felines_mem_ok : det_evaluator 1 one felines felines_mem.
Proof. apply (mem_eval_ok 1 one 4 singles [felines]). vm_compute. reflexivity. Qed.
Lemma felines_input : det_input one felines.
Proof. unfold det_input, felines. inputs. Qed.
Ltac few_ok := unfold few_det_labels, few; vm_compute; discriminate.
Ltac single_ok f := unfold f, single_pd_labels; each; intros a Ha; cbn in Ha; intuition subst; reflexivity.
Ltac dist_ok f := unfold f, distinct_pd_labels; each; intros a Ha; cbn in Ha; intuition subst; repeat constructor; cbn; intuition discriminate.
Ltac same_ok := unfold same_label; repeat (apply Forall2_cons || apply Forall2_nil); (split; [reflexivity|intros _; vm_compute; reflexivity]).
Example C125_example :
  det_input one felines /\ det_evaluator 1 one felines felines_mem /\ few_det_labels felines /\ Forall single_pd_labels felines /\
  label_no ddemo_mem "cat" 0 /\ label_no felines_mem "feline" 0 /\ same_label (fun _ => true) (fun _ => true) ddemo felines "cat" "feline" /\
  NoDup (label_scores (fun _ => true) ddemo "cat") /\
  rep_tp 1 felines_mem (fun _ => true) 500000000 500000000 0 = 1 /\ rep_fp 1 felines_mem (fun _ => true) 500000000 500000000 0 = 1 /\
  (rep_ap 1 felines_mem (fun _ => true) 500000000 0 == 51 # 101)%Q /\ (rep_ap 1 ddemo_mem (fun _ => true) 500000000 0 == 51 # 101)%Q.
Proof.
  split; [apply felines_input|]. split; [apply felines_mem_ok|]. split; [few_ok|]. split; [single_ok felines|]. split; [reflexivity|]. split; [reflexivity|].
  split; [same_ok|]. split; [vm_compute; repeat constructor; cbn; intuition discriminate|]. repeat split; vm_compute; reflexivity.
Qed.

(* with equal scores average precision does depend on the other labels: a prediction that
   overlaps a ground truth of another label is ranked by that overlap *)
Definition with_dog : list detection :=
  [ MkDet "img0" [gt "a" "cat"; gt "b" "dog"] [pd "x" "cat" 500000000; pd "y" "cat" 500000000]
               (iou_of [ov 0 0 600000000; ov 1 1 900000000]) ]%string%Z.
Definition without_dog : list detection :=
  [ MkDet "img0" [gt "a" "cat"] [pd "x" "cat" 500000000; pd "y" "cat" 500000000] (iou_of [ov 0 0 600000000]) ]%string%Z.
Definition with_mem : deval := Eval vm_compute in get_eval (mem_eval 1 one 4 singles [with_dog]).
Definition without_mem : deval := Eval vm_compute in get_eval (mem_eval 1 one 4 singles [without_dog]).
Lemma with_mem_ok : det_evaluator 1 one with_dog with_mem.
Proof. apply (mem_eval_ok 1 one 4 singles [with_dog]). vm_compute. reflexivity. Qed.
Lemma without_mem_ok : det_evaluator 1 one without_dog without_mem.
Proof. apply (mem_eval_ok 1 one 4 singles [without_dog]). vm_compute. reflexivity. Qed.
Theorem C125_average_precision_refuted :
  exists eps unit ds ds' e e' v vi vi' t, det_input unit ds /\ det_input unit ds' /\ det_evaluator eps unit ds e /\ det_evaluator eps unit ds' e' /\
    few_det_labels ds /\ few_det_labels ds' /\ Forall single_pd_labels ds /\ Forall single_pd_labels ds' /\
    label_no e v vi /\ label_no e' v vi' /\ (0 < t)%Z /\ same_label (fun _ => true) (fun _ => true) ds ds' v v /\
    (rep_ap eps e (fun _ => true) t (Z.of_nat vi) == 1 # 2)%Q /\ (rep_ap eps e' (fun _ => true) t (Z.of_nat vi') == 1)%Q.
Proof.
  exists 1%Z, one, with_dog, without_dog, with_mem, without_mem, "cat"%string, 0, 0, 500000000%Z.
  split; [unfold det_input, with_dog; inputs|]. split; [unfold det_input, without_dog; inputs|]. split; [apply with_mem_ok|]. split; [apply without_mem_ok|].
  split; [few_ok|]. split; [few_ok|]. split; [single_ok with_dog|]. split; [single_ok without_dog|]. split; [reflexivity|]. split; [reflexivity|]. split; [reflexivity|].
  split; [same_ok|]. split; vm_compute; reflexivity.
Qed.
Print Assumptions C125_average_precision_refuted.
(* and the counts of a label do if predictions have several labels: a label that overlaps
   its ground truth absorbs the others *)
Definition dog_seen : list detection :=
  [ MkDet "img0" [gt "b" "dog"] [MkAnn "x" ["cat"; "dog"] [900000000; 800000000]%Z] (iou_of [ov 0 0 900000000]) ]%string%Z.
Definition nothing_seen : list detection :=
  [ MkDet "img0" [] [MkAnn "x" ["cat"; "dog"] [900000000; 800000000]%Z] (iou_of []) ]%string%Z.
Definition seen_mem : deval := Eval vm_compute in get_eval (mem_eval 1 one 4 singles [dog_seen]).
Definition unseen_mem : deval := Eval vm_compute in get_eval (mem_eval 1 one 4 singles [nothing_seen]).
Lemma seen_mem_ok : det_evaluator 1 one dog_seen seen_mem.
Proof. apply (mem_eval_ok 1 one 4 singles [dog_seen]). vm_compute. reflexivity. Qed.
Lemma unseen_mem_ok : det_evaluator 1 one nothing_seen unseen_mem.
Proof. apply (mem_eval_ok 1 one 4 singles [nothing_seen]). vm_compute. reflexivity. Qed.
Theorem C125_several_labels_refuted :
  exists eps unit ds ds' e e' v vi vi' t s, det_input unit ds /\ det_input unit ds' /\ det_evaluator eps unit ds e /\ det_evaluator eps unit ds' e' /\
    few_det_labels ds /\ few_det_labels ds' /\ Forall distinct_pd_labels ds /\ Forall distinct_pd_labels ds' /\
    label_no e v vi /\ label_no e' v vi' /\ (0 < t)%Z /\ same_label (fun _ => true) (fun _ => true) ds ds' v v /\
    rep_fp eps e (fun _ => true) t s (Z.of_nat vi) = 0 /\ rep_fp eps e' (fun _ => true) t s (Z.of_nat vi') = 1.
Proof.
  exists 1%Z, one, dog_seen, nothing_seen, seen_mem, unseen_mem, "cat"%string, 1, 0, 500000000%Z, 500000000%Z.
  split; [unfold det_input, dog_seen; inputs|]. split; [unfold det_input, nothing_seen; inputs|]. split; [apply seen_mem_ok|]. split; [apply unseen_mem_ok|].
  split; [few_ok|]. split; [few_ok|]. split; [dist_ok dog_seen|]. split; [dist_ok nothing_seen|]. split; [reflexivity|]. split; [reflexivity|]. split; [reflexivity|].
  split; [same_ok|]. split; vm_compute; reflexivity.
Qed.
Print Assumptions C125_several_labels_refuted.

(* ---------------------------------------------------------------- C126 *)
(* replacing the scores by others in the same order, and the score threshold by one at the
   same place among them, changes none of the counts and rates of a label *)
Theorem C126_counts :
  forall eps unit ds sel sel' datums datums' e e' f, (0 < eps)%Z -> (0 <= unit)%Z -> det_input unit ds ->
  det_selects ds datums sel -> det_selects (map (rescore f) ds) datums' sel' ->
  det_evaluator eps unit ds e -> det_evaluator eps unit (map (rescore f) ds) e' ->
  few_det_labels ds -> Forall distinct_pd_labels ds -> (forall d, In d ds -> sel' (rescore f d) = sel d) ->
  increasing_on eps f (all_scores sel ds) ->
  forall v vi vi', label_no e v vi -> label_no e' v vi' -> forall t s s', (0 < t)%Z -> same_place eps s s' f (all_scores sel ds) ->
    rep_gts e datums (Z.of_nat vi) = rep_gts e' datums' (Z.of_nat vi') /\
    rep_tp eps e datums t s (Z.of_nat vi) = rep_tp eps e' datums' t s' (Z.of_nat vi') /\
    rep_fp eps e datums t s (Z.of_nat vi) = rep_fp eps e' datums' t s' (Z.of_nat vi') /\
    rep_fn eps e datums t s (Z.of_nat vi) = rep_fn eps e' datums' t s' (Z.of_nat vi') /\
    rep_precision eps e datums t s (Z.of_nat vi) = rep_precision eps e' datums' t s' (Z.of_nat vi') /\
    rep_recall eps e datums t s (Z.of_nat vi) = rep_recall eps e' datums' t s' (Z.of_nat vi') /\
    rep_f1 eps e datums t s (Z.of_nat vi) = rep_f1 eps e' datums' t s' (Z.of_nat vi').
Proof. exact rescore_counts. Qed.
Print Assumptions C126_counts.
(* nor average precision and the precision-recall curve, also with equal scores *)
Theorem C126_average_precision :
  forall eps unit ds sel sel' datums datums' e e' f, (0 < eps)%Z -> (0 <= unit)%Z -> det_input unit ds ->
  det_selects ds datums sel -> det_selects (map (rescore f) ds) datums' sel' ->
  det_evaluator eps unit ds e -> det_evaluator eps unit (map (rescore f) ds) e' ->
  few_det_labels ds -> Forall distinct_pd_labels ds -> (forall d, In d ds -> sel' (rescore f d) = sel d) ->
  increasing_on eps f (all_scores sel ds) ->
  forall v vi vi', label_no e v vi -> label_no e' v vi' -> forall t, (0 < t)%Z ->
    rep_ap eps e datums t (Z.of_nat vi) = rep_ap eps e' datums' t (Z.of_nat vi') /\
    rep_pr_curve eps e datums t (Z.of_nat vi) = rep_pr_curve eps e' datums' t (Z.of_nat vi').
Proof. exact rescore_ap. Qed.
Print Assumptions C126_average_precision.
Theorem C126_mean_average_precision :
  forall eps unit ds sel sel' datums datums' e e' f, (0 < eps)%Z -> (0 <= unit)%Z -> det_input unit ds ->
  det_selects ds datums sel -> det_selects (map (rescore f) ds) datums' sel' ->
  det_evaluator eps unit ds e -> det_evaluator eps unit (map (rescore f) ds) e' ->
  few_det_labels ds -> Forall distinct_pd_labels ds -> (forall d, In d ds -> sel' (rescore f d) = sel d) ->
  increasing_on eps f (all_scores sel ds) -> forall t, (0 < t)%Z -> same_number (rep_map eps e datums t) (rep_map eps e' datums' t).
Proof. exact rescore_map. Qed.
Print Assumptions C126_mean_average_precision.
(* nor the confusion matrix and the examples listed in its cells *)
Theorem C126_matrix :
  forall eps unit ds sel sel' datums datums' e e' f, (0 <= unit)%Z -> det_input unit ds ->
  det_selects ds datums sel -> det_selects (map (rescore f) ds) datums' sel' ->
  det_evaluator eps unit ds e -> det_evaluator eps unit (map (rescore f) ds) e' ->
  few_annotations ds -> Forall distinct_pd_labels ds -> (forall d, In d ds -> sel' (rescore f d) = sel d) ->
  increasing_on eps f (all_scores sel ds) -> forall t s s', same_place eps s s' f (all_scores sel ds) ->
  forall M M', det_cmx eps t s datums e = Some M -> det_cmx eps t s' datums' e' = Some M' ->
  forall g, (forall p, dcell_at M g p = dcell_at M' g p) /\
    lget (dx_gts M) (Some g) = lget (dx_gts M') (Some g) /\ lget (dx_pds M) (Some g) = lget (dx_pds M') (Some g).
Proof. exact rescore_cmx. Qed.
Print Assumptions C126_matrix.

(* scores below 0.5 are divided by ten, and the threshold 0.5 becomes 0.4 *)
Definition squash (x : Z) : Z := if (x <? 500000000)%Z then (x / 10)%Z else x.
Definition squashed_mem : deval := Eval vm_compute in get_eval (mem_eval 1 one 4 singles [map (rescore squash) ddemo]).
Lemma squashed_mem_ok : det_evaluator 1 one (map (rescore squash) ddemo) squashed_mem.
Proof. apply (mem_eval_ok 1 one 4 singles [map (rescore squash) ddemo]). vm_compute. reflexivity. Qed.
Lemma squash_increasing : increasing_on 1 squash (all_scores (fun _ => true) ddemo).
Proof.
  assert (E : all_scores (fun _ => true) ddemo = [900000000; 700000000; 800000000; 300000000]%Z) by reflexivity. rewrite E.
  intros x Hx. split.
  - repeat (destruct Hx as [<-|Hx]; [split; intros; reflexivity|]). destruct Hx.
  - intros y Hy. repeat (destruct Hx as [<-|Hx]; [repeat (destruct Hy as [<-|Hy]; [intros L; reflexivity || discriminate L|]); destruct Hy|]). destruct Hx.
Qed.
Lemma squash_place : same_place 1 500000000 400000000 squash (all_scores (fun _ => true) ddemo).
Proof.
  assert (E : all_scores (fun _ => true) ddemo = [900000000; 700000000; 800000000; 300000000]%Z) by reflexivity. rewrite E.
  intros x Hx. repeat (destruct Hx as [<-|Hx]; [change (squash 900000000) with 900000000%Z || idtac; split; [vm_compute; intuition discriminate|vm_compute; intuition reflexivity]|]). destruct Hx.
Qed.
Example C126_example :
  det_evaluator 1 one (map (rescore squash) ddemo) squashed_mem /\ Forall distinct_pd_labels ddemo /\
  all_scores (fun _ => true) (map (rescore squash) ddemo) = [900000000; 700000000; 800000000; 30000000]%Z /\
  increasing_on 1 squash (all_scores (fun _ => true) ddemo) /\ same_place 1 500000000 400000000 squash (all_scores (fun _ => true) ddemo) /\
  label_no squashed_mem "cat" 0 /\
  rep_tp 1 squashed_mem (fun _ => true) 500000000 400000000 0 = 1 /\ rep_fp 1 squashed_mem (fun _ => true) 500000000 400000000 0 = 1 /\
  (rep_ap 1 squashed_mem (fun _ => true) 500000000 0 == 51 # 101)%Q /\
  option_map (fun M => dcell_at M "cat" "cat") (det_cmx 1 500000000 400000000 (fun _ => true) squashed_mem)
  = option_map (fun M => dcell_at M "cat" "cat") (det_cmx 1 500000000 500000000 (fun _ => true) ddemo_mem) /\
  option_map (fun M => option_map fst (dcell_at M "cat" "cat")) (det_cmx 1 500000000 400000000 (fun _ => true) squashed_mem) = Some (Some 1).
Proof.
  split; [apply squashed_mem_ok|]. split; [apply ddemo_distinct|]. split; [reflexivity|]. split; [apply squash_increasing|]. split; [apply squash_place|].
  split; [reflexivity|]. repeat split; vm_compute; reflexivity.
Qed.
