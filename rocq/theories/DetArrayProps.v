(* C131: the arrays of compute_precision_recall; C53 again: what a second finalize does.
   Vocabulary: DetSpec.v, DetArraySpec.v; model: DetArrayModel.v, DetModel.v,
   DetFlowModel.v, DetReportModel.v, DetScoreModel.v, FloatModel.v. *)
From Verif Require Import Prelude Counting CacheModel CacheSpec ClsModel FlowModel
  DetModel DetSpec DetFlowModel DetReportModel DetScoreModel DetEnd DetMore DetDemo FloatModel DetArrayModel DetArraySpec DetArrayMain DetArrayFilter DetLocalProofs
  DetFilterModel DetFilterSpec DetFilterProps.
From Coq Require Import String QArith Qminmax Sorting.Sorted Lia.
Local Open Scope nat_scope.
Local Open Scope list_scope.

(* ---------------------------------------------------------------- C131 *)
(* computing the metrics never reads or writes outside an array: for every data set,
   filter and list of thresholds it succeeds, whatever order argsort gives to equal
   precisions, and the arrays hold one entry per label: the ground truths, the true and
   false positives of every threshold pair, and for each IoU threshold a panel of one
   precision and one score for each of 101 recall indices *)
Theorem C131_arrays :
  forall eps unit ds, det_input unit ds -> forall sel datums, det_selects ds datums sel ->
  forall e, (0 <= unit)%Z -> det_evaluator eps unit ds e -> few_det_labels ds ->
  forall order, descending order -> forall ious scores, ious <> [] -> scores <> [] ->
  exists G C P, np_precision_recall eps exact_index order ious scores e datums = AOk (G, C, P) /\
    array_of (List.length (de_labels e)) G (fun l x => x = rep_gts e datums (Z.of_nat l)) /\
    Forall2 (fun t row => Forall2 (fun s c =>
        array_of (List.length (de_labels e)) (fst c) (fun l x => x = rep_tp eps e datums t s (Z.of_nat l)) /\
        array_of (List.length (de_labels e)) (snd c) (fun l x => x = rep_fp eps e datums t s (Z.of_nat l))) scores row) ious C /\
    Forall2 (fun t p => array_of (List.length (de_labels e)) p (fun l row => array_of 101 row (fun b x =>
        (fst x == rep_curve eps e datums t (Z.of_nat l) b)%Q /\ snd x = rep_bin_score eps e datums t (Z.of_nat l) b))) ious P.
Proof. exact end_arrays. Qed.
Print Assumptions C131_arrays.

(* the same when the recall index is computed in binary64 *)
Theorem C131_arrays_float :
  forall eps unit ds, det_input unit ds -> forall sel datums, det_selects ds datums sel ->
  forall e, (0 <= unit)%Z -> det_evaluator eps unit ds e -> few_det_labels ds ->
  forall order, descending order -> forall ious scores, ious <> [] -> scores <> [] -> few_annotations ds ->
  exists G C P, np_precision_recall eps fbin order ious scores e datums = AOk (G, C, P) /\
    array_of (List.length (de_labels e)) G (fun l x => x = rep_gts e datums (Z.of_nat l)) /\
    Forall2 (fun t row => Forall2 (fun s c =>
        array_of (List.length (de_labels e)) (fst c) (fun l x => x = rep_tp eps e datums t s (Z.of_nat l)) /\
        array_of (List.length (de_labels e)) (snd c) (fun l x => x = rep_fp eps e datums t s (Z.of_nat l))) scores row) ious C /\
    Forall2 (fun t p => array_of (List.length (de_labels e)) p (fun l row => array_of 101 row (fun b x =>
        (fst x == rep_fcurve eps e datums t (Z.of_nat l) b)%Q /\
        snd x = snd (eval_fcurve eps t (rep_gts e datums) datums (de_ranked e) (Z.of_nat l) b)))) ious P.
Proof. exact end_arrays_float. Qed.
Print Assumptions C131_arrays_float.

(* and for evaluators derived by any chain of filters, where the label axis is that of
   the unfiltered evaluator *)
Theorem C131_filtered :
  forall eps unit ds L w e, (0 <= unit)%Z -> det_input unit ds -> few_det_labels ds -> shows eps unit ds L w e ->
  forall datums sel, det_selects ds datums sel ->
  forall order, descending order -> forall ious scores, ious <> [] -> scores <> [] ->
  exists G C P, np_precision_recall eps exact_index order ious scores e datums = AOk (G, C, P) /\
    array_of (List.length (de_labels e)) G (fun l x => x = rep_gts e datums (Z.of_nat l)) /\
    Forall2 (fun t row => Forall2 (fun s c =>
        array_of (List.length (de_labels e)) (fst c) (fun l x => x = rep_tp eps e datums t s (Z.of_nat l)) /\
        array_of (List.length (de_labels e)) (snd c) (fun l x => x = rep_fp eps e datums t s (Z.of_nat l))) scores row) ious C /\
    Forall2 (fun t p => array_of (List.length (de_labels e)) p (fun l row => array_of 101 row (fun b x =>
        (fst x == rep_curve eps e datums t (Z.of_nat l) b)%Q /\ snd x = rep_bin_score eps e datums t (Z.of_nat l) b))) ious P.
Proof. exact shown_arrays. Qed.
Print Assumptions C131_filtered.
Example C131_filtered_example : shows 1 one ddemo pets cat_view cats_mem /\
  match np_precision_recall 1 exact_index (fun l => l) [500000000]%Z [500000000]%Z cats_mem (fun _ => true) with
  | AOk (G, C, _) => G = [2; 0] /\ C = [[([1; 0], [1; 0])]]
  | ARaise _ => False
  end.
Proof. split; [exact cats_shows|]. vm_compute. split; reflexivity. Qed.

(* without IoU thresholds or score thresholds there is a ValueError, whatever the data *)
Theorem C131_no_thresholds : forall eps bin order ious scores e datums, ious = [] \/ scores = [] ->
  np_precision_recall eps bin order ious scores e datums = ARaise BadValue.
Proof. intros eps bin order ious scores e datums [->| ->]; [reflexivity|destruct ious; reflexivity]. Qed.
Print Assumptions C131_no_thresholds.

(* an order as argsort may give it *)
Definition by_precision (l : list (cell * Q)) : list (cell * Q) := isort (fun a b => Qle_bool (snd b) (snd a)) l.
Example C131_order : descending by_precision.
Proof.
  intros l. split; [symmetry; apply isort_perm|].
  assert (S := isort_sorted (fun a b : cell * Q => Qle_bool (snd b) (snd a))).
  eapply StronglySorted_impl; [|apply S].
  - intros a b H. apply Qle_bool_iff. exact H.
  - intros a b. destruct (Qlt_le_dec (snd a) (snd b)) as [H|H]; [right|left]; apply Qle_bool_iff; [apply Qlt_le_weak|]; exact H.
  - intros a b c H1 H2. apply Qle_bool_iff in H1, H2. apply Qle_bool_iff. eapply Qle_trans; eassumption.
Qed.
Example C131_example :
  det_input one ddemo /\ det_selects ddemo (fun _ => true) (fun _ => true) /\ det_evaluator 1 one ddemo ddemo_mem /\ few_det_labels ddemo /\ few_annotations ddemo /\
  match np_precision_recall 1 exact_index by_precision [500000000; 700000000]%Z [500000000]%Z ddemo_mem (fun _ => true) with
  | AOk (G, C, P) => G = [2; 1] /\ C = [[([1; 0], [1; 1])]; [([1; 0], [1; 1])]] /\
      match P with
      | (r0 :: _) :: _ => nth_error r0 50 = Some (1%Q, 900000000%Z) /\ nth_error r0 0 = Some (0%Q, 700000000%Z)
      | _ => False
      end
  | ARaise _ => False
  end.
Proof.
  split; [apply ddemo_input|]. split; [intros r i d _ _ _; reflexivity|]. split; [apply ddemo_mem_ok|]. split; [apply ddemo_few|]. split; [apply ddemo_ann|].
  vm_compute. repeat split; reflexivity.
Qed.

(* ---------------------------------------------------------------- C53 *)
(* in files, too, a second finalize leaves the detailed tables and the labels as they
   were; the claim for all reports is refuted here as well *)
Theorem C53_detailed_files_partial : forall unit bs rpf rb b b' labels b'' labels',
  dfb_finalize unit bs rpf rb b = (b', Done labels) -> dfb_finalize unit bs rpf rb b' = (b'', Done labels') ->
  de_detailed (dfe b'' labels') = de_detailed (dfe b' labels) /\ labels' = labels.
Proof. exact file_refinalize. Qed.
Print Assumptions C53_detailed_files_partial.
Theorem C53_files_refuted : exists b b' labels b'' labels',
  dfb_adds 1 2 1 dfb_init [ddemo] = Some b /\
  dfb_finalize one 2 1 singles b = (b', Done labels) /\ dfb_finalize one 2 1 singles b' = (b'', Done labels') /\
  rep_fp 1 (dfe b' labels) (fun _ => true) 500000000 500000000 0 = 1 /\ rep_fp 1 (dfe b'' labels') (fun _ => true) 500000000 500000000 0 = 2.
Proof.
  do 5 eexists. split; [vm_compute; reflexivity|]. split; [vm_compute; reflexivity|]. split; [vm_compute; reflexivity|]. split; vm_compute; reflexivity.
Qed.
Print Assumptions C53_files_refuted.
(* a single cat, found: after a second finalize it counts as found twice, its recall
   index is 200, and computing the metrics raises an IndexError; before, it succeeds *)
Definition one_cat : list detection := [ MkDet "img0" [gt "a" "cat"] [pd "x" "cat" 900000000] (iou_of [ov 0 0 900000000]) ]%string%Z.
Theorem C53_raises_refuted : exists b b' e b'' e',
  dmb_adds 1 4 dmb_init [one_cat] = Some b /\
  dmb_finalize one 4 singles b = (b', Done e) /\ dmb_finalize one 4 singles b' = (b'', Done e') /\
  (forall order, descending order -> exists r, np_precision_recall 1 exact_index order [500000000]%Z [500000000]%Z e (fun _ => true) = AOk r) /\
  forall order, np_precision_recall 1 exact_index order [500000000]%Z [500000000]%Z e' (fun _ => true) = ARaise OutOfBounds.
Proof.
  do 5 eexists. split; [vm_compute; reflexivity|]. split; [vm_compute; reflexivity|]. split; [vm_compute; reflexivity|]. split.
  - intros order Ho.
    match goal with |- context [np_precision_recall _ _ _ _ _ ?e0 _] => assert (He : det_evaluator 1 one one_cat e0) end.
    { apply (mem_eval_ok 1 one 4 singles [one_cat]). vm_compute. reflexivity. }
    assert (Hi : det_input one one_cat) by (unfold det_input, one_cat; inputs).
    assert (Hf : few_det_labels one_cat) by (unfold few_det_labels, few; vm_compute; discriminate).
    assert (Hs : det_selects one_cat (fun _ => true) (fun _ => true)) by (intros r i d _ _ _; reflexivity).
    destruct (end_arrays 1 one one_cat Hi _ _ Hs _ ltac:(discriminate) He Hf order Ho [500000000]%Z [500000000]%Z) as (G & C & P & E & _); [discriminate|discriminate|].
    exists (G, C, P). exact E.
  - intros order. vm_compute. reflexivity.
Qed.
Print Assumptions C53_raises_refuted.
