(* C131, C133 and C48 again, with the recall bins that binary64 numbers give, for evaluators
   derived by filters and for filtered caches that are loaded without their labels.
   Vocabulary: DetSpec.v, DetFilterSpec.v, DetUnpackSpec.v, DetLoadSpec.v; model: DetFilterModel.v,
   DetUnpackModel.v, DetArrayModel.v, DetReportModel.v, FloatModel.v. *)
From Verif Require Import Prelude Counting CacheModel CacheSpec ClsModel FlowModel
  DetModel DetSpec DetFlowModel DetReportModel DetScoreModel DetEnd DetMore DetDemo FloatModel DetArrayModel DetArraySpec DetArrayMain DetLocalProofs
  DetFilterModel DetFilterSpec DetFilterProps DetArrayProps DetUnpackModel DetUnpackSpec DetLoadSpec DetLoadProofs DetLoadProps DetUnpackFloat FloatShown.
From Coq Require Import String QArith Permutation Lia.
Local Open Scope nat_scope.
Local Open Scope list_scope.

(* ---------------------------------------------------------------- C131 *)
(* the whole call as the program performs it: no index, computed from a rounded recall,
   leaves the arrays, and every list has the value of the report functions *)
Theorem C131_metrics_float :
  forall eps unit ds L w e, det_input unit ds -> shows eps unit ds L w e -> (0 <= unit)%Z -> few_det_labels ds ->
  forall datums sel, det_selects ds datums sel ->
  forall order, descending order -> forall ious scores, ious <> [] -> scores <> [] ->
  exists m, np_metrics eps fbin order ious scores e datums = AOk m /\ float_metrics_ok eps e datums ious scores m.
Proof. exact shown_float_metrics. Qed.
Print Assumptions C131_metrics_float.
Example C131_metrics_float_example : shows 1 one ddemo pets cat_view cats_mem /\
  match np_metrics 1 fbin (fun l => l) [500000000]%Z [500000000]%Z cats_mem (fun _ => true) with
  | AOk m => map (fun x => (fst x, match snd x with Some q => Qred q | None => 0%Q end)) (um_ap m) =
        [(500000000%Z, Some "cat"%string, 51 # 101); (500000000%Z, Some "dog"%string, 0 # 1)]%Q
  | ARaise _ => False
  end.
Proof. split; [exact cats_shows|]. vm_compute. reflexivity. Qed.

(* ---------------------------------------------------------------- C133 *)
(* a filtered cache that is loaded without labels *)
Theorem C133_det_float :
  forall eps unit ds L w e, det_input unit ds -> shows eps unit ds L w e ->
  forall bs rpf rb dat gts pds sel sg sp b labels l1 l2, batching_ok rb ->
  det_selects ds dat sel -> gt_filter ds L gts sg -> pd_filter ds L pds sp ->
  det_filter_build unit bs rpf rb e dat gts pds = (b, Done labels) ->
  Permutation l1 (f_dir (dfb_detailed b)) -> Permutation l2 (f_dir (dfb_ranked b)) ->
  forall order ious scores datums sel', (0 <= unit)%Z -> few_det_labels ds -> det_selects ds datums sel' -> descending order -> ious <> [] -> scores <> [] ->
  ((exists m, np_metrics eps fbin order ious scores (det_load l1 l2 None) datums = AOk m) <->
   (exists k, lowest_left e ds (restrict w sel sg sp) k)) /\
  (forall m, np_metrics eps fbin order ious scores (det_load l1 l2 None) datums = AOk m ->
     float_metrics_ok eps (det_load l1 l2 None) datums ious scores m).
Proof. exact file_float. Qed.
Print Assumptions C133_det_float.
Example C133_det_float_example : exists b labels,
  det_filter_build one 2 1 singles ddemo_file (fun _ => true) (Some (gt_is "cat")) (Some (pd_is "cat")) = (b, Done labels) /\
  lowest_left ddemo_file ddemo cat_view 1 /\
  match np_metrics 1 fbin by_precision [500000000]%Z [500000000]%Z (det_load (f_dir (dfb_detailed b)) (f_dir (dfb_ranked b)) None) (fun _ => true) with
  | AOk m => map fst (um_ap m) = [(500000000%Z, Some "cat"%string)]
  | ARaise _ => False
  end.
Proof.
  destruct (det_filter_build one 2 1 singles ddemo_file (fun _ => true) (Some (gt_is "cat")) (Some (pd_is "cat"))) as (b, r) eqn:E.
  vm_compute in E. injection E as <- <-. eexists. eexists. split; [reflexivity|]. split; [exact cats_lowest|]. vm_compute. reflexivity.
Qed.

(* ---------------------------------------------------------------- C48 *)
(* the index of a recall is one of the 101 bins, without a bound on the counts *)
Theorem C48_index_any : forall tp n, tp <= n -> fbin tp n <= 100.
Proof. exact fbin_le. Qed.
Print Assumptions C48_index_any.
(* full claim: the curve is the one of the exact recalls.  For evaluators derived by filters,
   any selection of datums and any threshold, it is at most one level off, and only at the
   levels 29, 57 and 58 *)
Theorem C48_filtered_curve_partial :
  forall eps unit ds L w e, det_input unit ds -> shows eps unit ds L w e -> (0 <= unit)%Z -> few_det_labels ds -> few_annotations ds ->
  forall datums sel, det_selects ds datums sel -> forall v vi t, label_no e v vi ->
  List.length (rep_fpr_curve eps e datums t (Z.of_nat vi)) = 101 /\
  forall k q f, nth_error (rep_pr_curve eps e datums t (Z.of_nat vi)) k = Some q ->
    nth_error (rep_fpr_curve eps e datums t (Z.of_nat vi)) k = Some f ->
    (f <= q)%Q
    /\ (forall q', nth_error (rep_pr_curve eps e datums t (Z.of_nat vi)) (S k) = Some q' -> (q' <= f)%Q)
    /\ (k <> 29 -> k <> 57 -> k <> 58 -> (f == q)%Q).
Proof. exact shown_float_curve. Qed.
Print Assumptions C48_filtered_curve_partial.
Theorem C48_filtered_ap_partial :
  forall eps unit ds L w e, det_input unit ds -> shows eps unit ds L w e -> (0 <= unit)%Z -> few_det_labels ds -> few_annotations ds ->
  forall datums sel, det_selects ds datums sel -> forall v vi t, label_no e v vi ->
  (rep_fap eps e datums t (Z.of_nat vi) <= rep_ap eps e datums t (Z.of_nat vi)
   /\ rep_ap eps e datums t (Z.of_nat vi) <= rep_fap eps e datums t (Z.of_nat vi) + (1 # 101))%Q
  /\ ((forall j, rep_gts e datums (Z.of_nat vi) <> 50 * j) ->
      (rep_fap eps e datums t (Z.of_nat vi) == rep_ap eps e datums t (Z.of_nat vi))%Q).
Proof. exact shown_float_ap. Qed.
Print Assumptions C48_filtered_ap_partial.
Theorem C48_filtered_map_partial :
  forall eps unit ds L w e, det_input unit ds -> shows eps unit ds L w e -> (0 <= unit)%Z -> few_det_labels ds -> few_annotations ds ->
  forall datums sel, det_selects ds datums sel -> forall t,
  match rep_fmap eps e datums t, rep_map eps e datums t with
  | Some a, Some b => (a <= b /\ b <= a + (1 # 101))%Q
  | None, None => label_axis e = []
  | _, _ => False
  end.
Proof. exact shown_float_map. Qed.
Print Assumptions C48_filtered_map_partial.
Example C48_filtered_example : shows 1 one ddemo pets cat_view cats_mem /\ label_no cats_mem "cat" 0 /\
  rep_gts cats_mem (fun _ => true) 0 = 2 /\ (rep_fap 1 cats_mem (fun _ => true) 500000000 0 == 51 # 101)%Q /\
  (rep_ap 1 cats_mem (fun _ => true) 500000000 0 == 51 # 101)%Q.
Proof. split; [exact cats_shows|]. split; [vm_compute; auto|]. vm_compute. repeat split. Qed.
