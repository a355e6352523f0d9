(* C138 (object detection): label names and uids do not matter.
   Vocabulary: DetFilterSpec.v, ClsRenameSpec.v ([names_apart f L]: different labels of [L]
   get different names; the new uids need not be different) and DetRenameSpec.v; [shows eps unit ds L w e]: the evaluator [e],
   built from [ds] and possibly filtered, shows what the view [w] selects;
   [same_report eps e datums l e' datums' l']: the counts, average precisions and recalls of
   label number [l] of [e] are those of label number [l'] of [e'].
   Model: DetModel.v, DetFilterModel.v, DetReportModel.v, DetCellModel.v, DetExModel.v. *)
From Verif Require Import Prelude CacheModel CacheSpec ClsRenameSpec FlowModel DetModel DetExModel DetSpec DetFlowModel DetReportModel DetEnd DetDemo
  DetFilterModel DetFilterSpec DetFilterProofs DetFilterProps DetReorderSpec DetLabelAp DetTurnSpec ClsCellModel DetCellModel DetCellSpec DetRenameSpec DetRenameProofs DetRenameCell.
From Coq Require Import String QArith.
Local Open Scope nat_scope.
Local Open Scope list_scope.

Theorem C138_det_report : forall eps unit h k f ds,
  (0 < eps)%Z -> (0 <= unit)%Z -> det_input unit ds -> few_det_labels ds -> Forall distinct_pd_labels ds -> names_apart f (det_labels ds) ->
  forall L w e datums sel L' w' e' datums' sel',
  shows eps unit ds L w e -> shows eps unit (map (drename h k f) ds) L' w' e' ->
  det_selects ds datums sel -> det_selects (map (drename h k f) ds) datums' sel' ->
  renamed_dview h k f ds w w' -> (forall d, In d ds -> sel' (drename h k f d) = sel d) ->
  (forall v, In v (det_labels ds) -> exists vi vi', label_no e v vi /\ label_no e' (f v) vi') /\
  forall v vi vi', label_no e v vi -> label_no e' (f v) vi' -> same_report eps e datums (Z.of_nat vi) e' datums' (Z.of_nat vi').
Proof.
  intros eps unit h k f ds He Hu Hin Hfew Hdis Hf L w e datums sel L' w' e' datums' sel' S1 S2 D1 D2 Hw Hsel. split.
  - exact (renamed_labels eps unit h k f ds Hin L w e L' w' e' S1 S2).
  - exact (renamed_report eps unit h k f ds He Hu Hin Hfew Hdis Hf L w e datums sel L' w' e' datums' sel' S1 S2 D1 D2 Hw Hsel).
Qed.
Print Assumptions C138_det_report.
Theorem C138_det_mean_average_precision : forall eps unit h k f ds,
  (0 < eps)%Z -> (0 <= unit)%Z -> det_input unit ds -> few_det_labels ds -> Forall distinct_pd_labels ds -> names_apart f (det_labels ds) ->
  forall L w e datums sel L' w' e' datums' sel',
  shows eps unit ds L w e -> shows eps unit (map (drename h k f) ds) L' w' e' ->
  det_selects ds datums sel -> det_selects (map (drename h k f) ds) datums' sel' ->
  renamed_dview h k f ds w w' -> (forall d, In d ds -> sel' (drename h k f d) = sel d) ->
  forall t, (0 < t)%Z -> same_number (rep_map eps e datums t) (rep_map eps e' datums' t).
Proof. exact renamed_map. Qed.
Print Assumptions C138_det_mean_average_precision.
Theorem C138_det_mean_average_recall : forall eps unit h k f ds,
  (0 < eps)%Z -> (0 <= unit)%Z -> det_input unit ds -> few_det_labels ds -> Forall distinct_pd_labels ds -> names_apart f (det_labels ds) ->
  forall L w e datums sel L' w' e' datums' sel',
  shows eps unit ds L w e -> shows eps unit (map (drename h k f) ds) L' w' e' ->
  det_selects ds datums sel -> det_selects (map (drename h k f) ds) datums' sel' ->
  renamed_dview h k f ds w w' -> (forall d, In d ds -> sel' (drename h k f d) = sel d) ->
  forall ious s, (forall t, In t ious -> (0 < t)%Z) -> same_number (rep_mar eps e datums ious s) (rep_mar eps e' datums' ious s).
Proof. exact renamed_mar. Qed.
Print Assumptions C138_det_mean_average_recall.

(* the confusion matrix with its examples; every cell exists *)
Theorem C138_det_matrix : forall eps unit h k f ds,
  (0 <= unit)%Z -> det_input unit ds -> few_annotations ds -> Forall distinct_pd_labels ds -> names_apart f (det_labels ds) ->
  forall L w e datums sel L' w' e' datums' sel',
  shows eps unit ds L w e -> shows eps unit (map (drename h k f) ds) L' w' e' ->
  det_selects ds datums sel -> det_selects (map (drename h k f) ds) datums' sel' ->
  renamed_dview h k f ds w w' -> (forall d, In d ds -> sel' (drename h k f d) = sel d) ->
  forall t s, exists M M', det_cmx eps t s datums e = Some M /\ det_cmx eps t s datums' e' = Some M' /\
    (forall g p, In g (det_labels ds) -> In p (det_labels ds) -> dcell_at M' (f g) (f p) = option_map (rename_dcell h k) (dcell_at M g p) /\ exists x, dcell_at M g p = Some x) /\
    (forall g, In g (det_labels ds) -> lget (dx_gts M') (Some (f g)) = option_map (rename_dlone h k) (lget (dx_gts M) (Some g)) /\ exists x, lget (dx_gts M) (Some g) = Some x) /\
    (forall p, In p (det_labels ds) -> lget (dx_pds M') (Some (f p)) = option_map (rename_dlone h k) (lget (dx_pds M) (Some p)) /\ exists x, lget (dx_pds M) (Some p) = Some x).
Proof. exact renamed_matrix. Qed.
Print Assumptions C138_det_matrix.
(* examples name annotations, not labels: only the uids change *)
Theorem C138_det_examples : forall eps unit h k f ds,
  (0 <= unit)%Z -> det_input unit ds -> few_det_labels ds -> few_annotations ds -> Forall distinct_pd_labels ds -> names_apart f (det_labels ds) ->
  forall L w e datums sel L' w' e' datums' sel',
  shows eps unit ds L w e -> shows eps unit (map (drename h k f) ds) L' w' e' ->
  det_selects ds datums sel -> det_selects (map (drename h k f) ds) datums' sel' ->
  renamed_dview h k f ds w w' -> (forall d, In d ds -> sel' (drename h k f d) = sel d) ->
  forall ious scores limit offset, det_examples eps ious scores datums' limit offset e'
    = option_map (map (rename_dexample h k)) (det_examples eps ious scores datums limit offset e).
Proof. exact renamed_examples. Qed.
Print Assumptions C138_det_examples.

(* ------------------------------------------------ examples *)
Definition traded (l : string) : string := if String.eqb l "cat" then "dog"%string else if String.eqb l "dog" then "cat"%string else l.
(* all images and all annotations get the same uid *)
Definition one_uid (u : string) : string := "same"%string.
Definition ddemo_named : list detection := map (drename one_uid one_uid traded) ddemo.
Definition ddemo_named_mem : deval := Eval vm_compute in get_eval (mem_eval 1 one 4 singles [ddemo_named]).
Lemma ddemo_named_shows : exists L, shows 1 one ddemo_named L full_view ddemo_named_mem.
Proof.
  assert (I : det_input one ddemo_named).
  { apply input_rename. exact ddemo_input. }
  apply (evaluator_shows 1 one ddemo_named I). apply (mem_eval_ok 1 one 4 singles [ddemo_named]). vm_compute. reflexivity.
Qed.
Example C138_det_example :
  det_input one ddemo /\ few_det_labels ddemo /\ few_annotations ddemo /\ Forall distinct_pd_labels ddemo /\ names_apart traded (det_labels ddemo) /\
  shows 1 one ddemo pets full_view ddemo_file /\ (exists L, shows 1 one ddemo_named L full_view ddemo_named_mem) /\
  renamed_dview one_uid one_uid traded ddemo full_view full_view /\
  de_labels ddemo_file = [(0%Z, Some "cat"%string); (1%Z, Some "dog"%string)] /\
  de_labels ddemo_named_mem = [(0%Z, Some "dog"%string); (1%Z, Some "cat"%string)] /\
  rep_gts ddemo_file (fun _ => true) 0 = 2 /\ rep_gts ddemo_named_mem (fun _ => true) 0 = 2 /\
  rep_map 1 ddemo_file (fun _ => true) 500000000 = rep_map 1 ddemo_named_mem (fun _ => true) 500000000 /\
  (exists x y, det_examples 1 [500000000%Z] [500000000%Z] (fun _ => true) (Some 2) 0 ddemo_named_mem = Some [x; y]).
Proof.
  split; [exact ddemo_input|]. split; [exact ddemo_few|]. split; [repeat split|]. split; [exact ddemo_distinct|]. split.
  { intros a b Ha Hb. vm_compute in Ha, Hb.
    repeat (destruct Ha as [<-|Ha]; [repeat (destruct Hb as [<-|Hb]; [vm_compute; congruence|]); destruct Hb|]). destruct Ha. }
  split; [apply ddemo_shows|]. split; [exact ddemo_named_shows|]. split; [intros d _; split; reflexivity|].
  do 5 (split; [vm_compute; reflexivity|]). do 2 eexists. vm_compute. reflexivity.
Qed.
