(* C131 and C133 again: the arrays of compute_confusion_matrix of the object detection
   evaluator.  Vocabulary: DetSpec.v, DetFilterSpec.v, DetLoadSpec.v; model:
   DetConfArrayModel.v, DetCellModel.v, DetFilterModel.v. *)
From Verif Require Import Prelude Counting CacheModel CacheSpec ClsModel FlowModel
  DetModel DetSpec DetFlowModel DetReportModel DetEnd DetMore DetDemo FloatModel DetArrayModel DetArraySpec DetLocalProofs
  DetFilterModel DetFilterSpec DetFilterProps DetArrayMain DetCellModel DetUnpackModel DetLoadSpec DetConfArrayModel DetConfArrayProofs.
From Coq Require Import String QArith Permutation Lia.
Local Open Scope nat_scope.
Local Open Scope list_scope.

(* ---------------------------------------------------------------- C131 *)
(* computing the confusion matrices never indexes outside an array, and the dictionaries
   are the ones of C107 *)
Theorem C131_confusion :
  forall eps unit ds L w e, (0 <= eps)%Z -> det_input unit ds -> shows eps unit ds L w e ->
  forall ious scores datums, ious <> [] -> scores <> [] ->
  exists r, np_det_confusion eps ious scores e datums = AOk r /\ det_confusion_metrics eps ious scores datums e = Some r.
Proof. exact shown_confusion. Qed.
Print Assumptions C131_confusion.
Example C131_confusion_example : shows 1 one ddemo pets full_view ddemo_file /\
  match np_det_confusion 1 [500000000]%Z [500000000]%Z ddemo_file (fun _ => true) with
  | AOk [(_, _, c)] => dc_cells c = [(Some "cat", [(Some "cat", 1); (Some "dog", 0)]); (Some "dog", [(Some "cat", 0); (Some "dog", 0)])]%string /\
                       dc_gts c = [(Some "cat", 1); (Some "dog", 1)]%string /\ dc_pds c = [(Some "cat", 1); (Some "dog", 1)]%string
  | _ => False
  end.
Proof. split; [apply ddemo_shows|]. vm_compute. repeat split. Qed.
Theorem C131_confusion_no_thresholds : forall eps ious scores e datums, ious = [] \/ scores = [] ->
  np_det_confusion eps ious scores e datums = ARaise BadValue.
Proof. intros eps ious scores e datums [->| ->]; [reflexivity|destruct ious; reflexivity]. Qed.
Print Assumptions C131_confusion_no_thresholds.

(* ---------------------------------------------------------------- C133 *)
(* on a filtered cache that was loaded without labels, both computations succeed exactly if
   the labels that are left have the lowest numbers *)
Theorem C133_det_exact :
  forall eps unit ds L w e, (0 <= eps)%Z -> det_input unit ds -> shows eps unit ds L w e ->
  forall bs rpf rb dat gts pds sel sg sp b labels l1 l2, batching_ok rb ->
  det_selects ds dat sel -> gt_filter ds L gts sg -> pd_filter ds L pds sp ->
  det_filter_build unit bs rpf rb e dat gts pds = (b, Done labels) ->
  Permutation l1 (f_dir (dfb_detailed b)) -> Permutation l2 (f_dir (dfb_ranked b)) ->
  forall ious scores, ious <> [] -> scores <> [] ->
  (forall datums, (exists r, np_det_confusion eps ious scores (det_load l1 l2 None) datums = AOk r) <->
                  (exists k, lowest_left e ds (restrict w sel sg sp) k)) /\
  (forall order datums sel', (0 <= unit)%Z -> few_det_labels ds -> det_selects ds datums sel' -> descending order ->
                  ((exists m, np_metrics eps exact_index order ious scores (det_load l1 l2 None) datums = AOk m) <->
                   (exists k, lowest_left e ds (restrict w sel sg sp) k))).
Proof.
  intros eps unit ds L w e He Hin Hsh bs rpf rb dat gts pds sel sg sp b labels l1 l2 Hrb Hsel Hsg Hsp Hb H1 H2 ious scores Hi Hs. split.
  - intros datums. exact (file_confusion eps unit ds L w e He Hin Hsh bs rpf rb dat gts pds sel sg sp b labels l1 l2 Hrb Hsel Hsg Hsp Hb H1 H2 ious scores datums Hi Hs).
  - intros order datums sel' Hu Hfew Hsel' Ho.
    exact (file_metrics eps unit ds L w e Hin Hsh bs rpf rb dat gts pds sel sg sp b labels l1 l2 Hrb Hsel Hsg Hsp Hb H1 H2 order ious scores datums sel' Hu Hfew Hsel' Ho Hi Hs).
Qed.
Print Assumptions C133_det_exact.
Theorem C133_det_confusion_refuted : exists b labels,
  det_input one ddemo /\ shows 1 one ddemo pets full_view ddemo_file /\
  det_filter_build one 2 1 singles ddemo_file (fun _ => true) (Some (gt_is "dog")) (Some (pd_is "dog")) = (b, Done labels) /\
  np_det_confusion 1 [500000000]%Z [500000000]%Z (det_load (f_dir (dfb_detailed b)) (f_dir (dfb_ranked b)) None) (fun _ => true) = ARaise OutOfBounds.
Proof.
  destruct (det_filter_build one 2 1 singles ddemo_file (fun _ => true) (Some (gt_is "dog")) (Some (pd_is "dog"))) as (b, r) eqn:E.
  vm_compute in E. injection E as <- <-. eexists. eexists. split; [exact ddemo_input|]. split; [apply ddemo_shows|]. split; [reflexivity|]. vm_compute. reflexivity.
Qed.
Print Assumptions C133_det_confusion_refuted.
