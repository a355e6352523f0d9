(* C131 again: the metric lists of compute_precision_recall; C133 (object detection): loading
   a filtered cache without its labels.
   Vocabulary: DetSpec.v, DetFilterSpec.v, DetUnpackSpec.v, DetLoadSpec.v; model: DetFilterModel.v,
   DetUnpackModel.v, DetArrayModel.v, DetReportModel.v. *)
From Verif Require Import Prelude Counting CacheModel CacheSpec ClsModel FlowModel
  DetModel DetSpec DetFlowModel DetReportModel DetScoreModel DetEnd DetMore DetDemo FloatModel DetArrayModel DetArraySpec DetArrayMain DetLocalProofs
  DetFilterModel DetFilterSpec DetFilterProps DetArrayProps DetUnpackModel DetUnpackSpec DetLoadSpec DetLoadProofs.
From Coq Require Import String QArith Permutation Lia.
Local Open Scope nat_scope.
Local Open Scope list_scope.

(* ---------------------------------------------------------------- C131 *)
(* the whole call: from the tables over the arrays to the metric lists.  For every evaluator
   that was built and filtered the call ends without an error, and every list has one entry
   per threshold and label with the value that the report functions give *)
Theorem C131_metrics :
  forall eps unit ds L w e, det_input unit ds -> shows eps unit ds L w e -> (0 <= unit)%Z -> few_det_labels ds ->
  forall datums sel, det_selects ds datums sel ->
  forall order, descending order -> forall ious scores, ious <> [] -> scores <> [] ->
  exists m, np_metrics eps exact_index order ious scores e datums = AOk m /\ metrics_ok eps e datums ious scores m.
Proof. exact shown_metrics. Qed.
Print Assumptions C131_metrics.
Example C131_metrics_example : shows 1 one ddemo pets cat_view cats_mem /\
  match np_metrics 1 exact_index (fun l => l) [500000000]%Z [500000000]%Z cats_mem (fun _ => true) with
  | AOk m => map (fun x => (fst x, match snd x with Some q => Qred q | None => 0%Q end)) (um_ap m) =
        [(500000000%Z, Some "cat"%string, 51 # 101); (500000000%Z, Some "dog"%string, 0 # 1)]%Q
  | ARaise _ => False
  end.
Proof. split; [exact cats_shows|]. vm_compute. reflexivity. Qed.

(* ---------------------------------------------------------------- C133 *)
(* full claim: the metrics can be computed on a filtered cache that is loaded without labels.
   They can exactly if the labels that are left are those with the lowest numbers. *)
Theorem C133_det_works_partial :
  forall eps unit ds L w e, det_input unit ds -> shows eps unit ds L w e ->
  forall bs rpf rb dat gts pds sel sg sp b labels l1 l2, batching_ok rb ->
  det_selects ds dat sel -> gt_filter ds L gts sg -> pd_filter ds L pds sp ->
  det_filter_build unit bs rpf rb e dat gts pds = (b, Done labels) ->
  Permutation l1 (f_dir (dfb_detailed b)) -> Permutation l2 (f_dir (dfb_ranked b)) ->
  forall order ious scores datums sel' k, (0 <= unit)%Z -> few_det_labels ds -> det_selects ds datums sel' -> descending order -> ious <> [] -> scores <> [] ->
  lowest_left e ds (restrict w sel sg sp) k ->
  exists m, np_metrics eps exact_index order ious scores (det_load l1 l2 None) datums = AOk m /\ metrics_ok eps (det_load l1 l2 None) datums ious scores m.
Proof. exact file_works. Qed.
Print Assumptions C133_det_works_partial.
Theorem C133_det_needs :
  forall eps unit ds L w e, det_input unit ds -> shows eps unit ds L w e ->
  forall bs rpf rb dat gts pds sel sg sp b labels l1 l2, batching_ok rb ->
  det_selects ds dat sel -> gt_filter ds L gts sg -> pd_filter ds L pds sp ->
  det_filter_build unit bs rpf rb e dat gts pds = (b, Done labels) ->
  Permutation l1 (f_dir (dfb_detailed b)) -> Permutation l2 (f_dir (dfb_ranked b)) ->
  forall bin order ious scores datums m, np_metrics eps bin order ious scores (det_load l1 l2 None) datums = AOk m ->
  exists k, lowest_left e ds (restrict w sel sg sp) k.
Proof. exact file_needs. Qed.
Print Assumptions C133_det_needs.
(* loading without labels drops the labels without annotations; the others keep their numbers
   and, number by number, their metrics *)
Theorem C133_det_labels :
  forall eps unit ds L w e, det_input unit ds -> shows eps unit ds L w e ->
  forall bs rpf rb dat gts pds sel sg sp b labels l1 l2, batching_ok rb ->
  det_selects ds dat sel -> gt_filter ds L gts sg -> pd_filter ds L pds sp ->
  det_filter_build unit bs rpf rb e dat gts pds = (b, Done labels) ->
  Permutation l1 (f_dir (dfb_detailed b)) -> Permutation l2 (f_dir (dfb_ranked b)) ->
  (forall v vi, label_no (det_load l1 l2 None) v vi <-> label_no e v vi /\ label_left ds (restrict w sel sg sp) v) /\
  (forall datums l, same_report eps (det_load l1 l2 None) datums l (det_load l1 l2 (Some labels)) datums l).
Proof.
  intros eps unit ds L w e Hin Hsh bs rpf rb dat gts pds sel sg sp b labels l1 l2 Hrb Hsel Hsg Hsp Hb H1 H2. split.
  - exact (file_numbers eps unit ds L w e Hin Hsh bs rpf rb dat gts pds sel sg sp b labels l1 l2 Hrb Hsel Hsg Hsp Hb H1 H2).
  - exact (file_reports eps labels l1 l2).
Qed.
Print Assumptions C133_det_labels.

(* keeping the label with number 0 works, keeping only the other one does not *)
Lemma cats_lowest : lowest_left ddemo_file ddemo cat_view 1.
Proof.
  intros v vi Hv. apply (pets_no ddemo_file eq_refl) in Hv. unfold pets in Hv. cbn [index_of] in Hv.
  destruct (String.eqb_spec v "cat") as [->|N].
  - injection Hv as <-. split; [lia|]. intros _. exists (MkDet "img1" [gt "c" "cat"] [] (iou_of []))%string. split; [right; left; reflexivity|].
    left. exists 0, (gt "c" "cat")%string. repeat split. left. reflexivity.
  - destruct (String.eqb v "dog"); [|discriminate]. injection Hv as <-. split; [|lia]. intros (d & Hd & [(g & ga & Hg & Hl & V)|(p & pa & _ & _ & V)]).
    + exfalso. unfold cat_view, restrict, full_view in V. cbn [v_gt andb] in V. unfold sg_is in V. rewrite Hg in V. rewrite andb_true_r in V.
      apply existsb_exists in V. destruct V as (x & Hx & E). apply String.eqb_eq in E. subst x.
      (* each ground truth has one label *)
      assert (G : forall d0, In d0 ddemo -> In ga (t_gts d0) -> List.length (a_labels ga) = 1).
      { intros d0 [<-|[<-|[<-|[]]]]; cbn; intuition (subst; reflexivity). }
      specialize (G d Hd (nth_error_In _ _ Hg)).
      destruct (a_labels ga) as [|a [|a' t]]; try discriminate G. destruct Hl as [->|[]]. destruct Hx as [E|[]]. congruence.
    + exfalso. unfold cat_view, restrict, full_view in V. cbn [v_pd andb] in V. unfold sp_is in V. rewrite andb_true_r in V. apply String.eqb_eq in V. congruence.
Qed.
Example C133_det_example : exists b labels,
  det_filter_build one 2 1 singles ddemo_file (fun _ => true) (Some (gt_is "cat")) (Some (pd_is "cat")) = (b, Done labels) /\
  lowest_left ddemo_file ddemo cat_view 1 /\
  match np_metrics 1 exact_index by_precision [500000000]%Z [500000000]%Z (det_load (f_dir (dfb_detailed b)) (f_dir (dfb_ranked b)) None) (fun _ => true) with
  | AOk m => map fst (um_ap m) = [(500000000%Z, Some "cat"%string)]
  | ARaise _ => False
  end.
Proof.
  destruct (det_filter_build one 2 1 singles ddemo_file (fun _ => true) (Some (gt_is "cat")) (Some (pd_is "cat"))) as (b, r) eqn:E.
  vm_compute in E. injection E as <- <-. eexists. eexists. split; [reflexivity|]. split; [exact cats_lowest|]. vm_compute. reflexivity.
Qed.
Theorem C133_det_loads_refuted : exists b labels,
  det_input one ddemo /\ shows 1 one ddemo pets full_view ddemo_file /\
  det_filter_build one 2 1 singles ddemo_file (fun _ => true) (Some (gt_is "dog")) (Some (pd_is "dog")) = (b, Done labels) /\
  np_metrics 1 exact_index by_precision [500000000]%Z [500000000]%Z (det_load (f_dir (dfb_detailed b)) (f_dir (dfb_ranked b)) None) (fun _ => true)
  = ARaise OutOfBounds.
Proof.
  destruct (det_filter_build one 2 1 singles ddemo_file (fun _ => true) (Some (gt_is "dog")) (Some (pd_is "dog"))) as (b, r) eqn:E.
  vm_compute in E. injection E as <- <-. eexists. eexists. split; [exact ddemo_input|]. split; [apply ddemo_shows|]. split; [reflexivity|]. vm_compute. reflexivity.
Qed.
Print Assumptions C133_det_loads_refuted.
