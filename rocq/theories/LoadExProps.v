(* C135: the examples and the confusion matrices with examples of filtered caches that are
   loaded without their labels.
   Vocabulary: PageSpec.v, DetFilterSpec.v, DetTurnSpec.v, DetCellSpec.v, DetLoadSpec.v, ClsFilterSpec.v,
   ClsPageSpec.v, ClsCellSpec.v; model: DetFilterModel.v, DetCellModel.v, ClsFilterModel.v, ClsPageModel.v,
   ClsCellModel.v. *)
From Verif Require Import Prelude PageSpec Counting CacheModel CacheSpec ClsModel ClsSpec ClsDemo RocModel FlowModel
  ClsFilterModel ClsFilterSpec ClsFilterMain ClsFilterProps ClsArrayModel ClsArraySpec ClsArrayProps ClsPageModel ClsPageSpec ClsCellModel ClsCellSpec ClsLoadExProofs
  DetModel DetExModel DetSpec DetFlowModel DetReportModel DetEnd DetMore DetDemo DetArrayModel DetArraySpec DetArrayProps DetFilterModel DetFilterSpec DetFilterMain DetFilterProps DetTurnSpec DetCellModel DetCellSpec
  DetUnpackModel DetLoadSpec DetLoadProps DetLoadExProofs.
From Coq Require Import String Permutation.
Local Open Scope nat_scope.
Local Open Scope list_scope.

(* ---------------------------------------------------------------- object detection *)
(* every page of examples is that of the filtered data *)
Theorem C135_det_examples :
  forall eps unit ds L w e, (0 <= unit)%Z -> det_input unit ds -> few_annotations ds -> Forall distinct_pd_labels ds -> shows eps unit ds L w e ->
  forall bs rpf rb dat gts pds sel sg sp b labels l1 l2, batching_ok rb ->
  det_selects ds dat sel -> gt_filter ds L gts sg -> pd_filter ds L pds sp ->
  det_filter_build unit bs rpf rb e dat gts pds = (b, Done labels) ->
  Permutation l1 (f_dir (dfb_detailed b)) -> Permutation l2 (f_dir (dfb_ranked b)) ->
  forall ious scores datums sel' limit offset, few_det_labels ds -> det_selects ds datums sel' -> ious <> [] -> scores <> [] ->
  det_examples eps ious scores datums limit offset (det_load l1 l2 None)
  = Some (flat_map (image_examples eps ious scores) (page_of limit offset (filter shown_image (map (pruned (by_selection (restrict w sel sg sp) sel')) ds)))).
Proof. exact file_examples. Qed.
Print Assumptions C135_det_examples.
(* the matrix with examples has a row and a column for every label that is left, whatever
   its number, and no lookup fails *)
Theorem C135_det_matrix :
  forall eps unit ds L w e, (0 <= unit)%Z -> det_input unit ds -> few_annotations ds -> Forall distinct_pd_labels ds -> shows eps unit ds L w e ->
  forall bs rpf rb dat gts pds sel sg sp b labels l1 l2, batching_ok rb ->
  det_selects ds dat sel -> gt_filter ds L gts sg -> pd_filter ds L pds sp ->
  det_filter_build unit bs rpf rb e dat gts pds = (b, Done labels) ->
  Permutation l1 (f_dir (dfb_detailed b)) -> Permutation l2 (f_dir (dfb_ranked b)) ->
  exists names,
    map snd (de_labels (det_load l1 l2 None)) = map Some names /\ NoDup names /\ (forall v, In v names <-> label_left ds (restrict w sel sg sp) v) /\
    forall datums sel', det_selects ds datums sel' -> forall ious scores, ious <> [] -> scores <> [] ->
    det_confusion_examples eps ious scores datums (det_load l1 l2 None)
    = Some (flat_map (fun t => map (fun s => (t, s, Some (dcmx_of names eps t s (map (pruned (by_selection (restrict w sel sg sp) sel')) ds)))) scores) ious).
Proof. exact file_matrix. Qed.
Print Assumptions C135_det_matrix.
(* each of its cells is the cell of the same cache loaded with its labels *)
Theorem C135_det_cells :
  forall eps unit ds L w e, (0 <= unit)%Z -> det_input unit ds -> few_annotations ds -> Forall distinct_pd_labels ds -> shows eps unit ds L w e ->
  forall bs rpf rb dat gts pds sel sg sp b labels l1 l2, batching_ok rb ->
  det_selects ds dat sel -> gt_filter ds L gts sg -> pd_filter ds L pds sp ->
  det_filter_build unit bs rpf rb e dat gts pds = (b, Done labels) ->
  Permutation l1 (f_dir (dfb_detailed b)) -> Permutation l2 (f_dir (dfb_ranked b)) ->
  forall t s datums sel' M M', det_selects ds datums sel' ->
  det_cmx eps t s datums (det_load l1 l2 None) = Some M -> det_cmx eps t s datums (det_load l1 l2 (Some labels)) = Some M' ->
  forall g, label_left ds (restrict w sel sg sp) g ->
  (forall p, label_left ds (restrict w sel sg sp) p -> dcell_at M g p = dcell_at M' g p) /\
  lget (dx_gts M) (Some g) = lget (dx_gts M') (Some g) /\ lget (dx_pds M) (Some g) = lget (dx_pds M') (Some g).
Proof. exact file_same_cells. Qed.
Print Assumptions C135_det_cells.
(* keeping only the label with number 1: the metrics raise (C133), the matrix does not *)
Example C135_det_example : exists b labels,
  det_input one ddemo /\ shows 1 one ddemo pets full_view ddemo_file /\ few_annotations ddemo /\
  det_filter_build one 2 1 singles ddemo_file (fun _ => true) (Some (gt_is "dog")) (Some (pd_is "dog")) = (b, Done labels) /\
  np_metrics 1 exact_index by_precision [500000000]%Z [500000000]%Z (det_load (f_dir (dfb_detailed b)) (f_dir (dfb_ranked b)) None) (fun _ => true) = ARaise OutOfBounds /\
  det_confusion_examples 1 [500000000]%Z [500000000]%Z (fun _ => true) (det_load (f_dir (dfb_detailed b)) (f_dir (dfb_ranked b)) None)
  = Some [(500000000%Z, 500000000%Z, Some (MkDCmx [(Some "dog", [(Some "dog", (0, []))])] [(Some "dog", (1, [("img0", Some "b")]))] [(Some "dog", (1, [("img0", Some "z")]))]))]%string /\
  det_examples 1 [500000000]%Z [500000000]%Z (fun _ => true) None 0 (det_load (f_dir (dfb_detailed b)) (f_dir (dfb_ranked b)) None)
  = Some [(Some "img0", 500000000%Z, 500000000%Z, MkDEx [] [Some (Some "z")] [Some (Some "b")])]%string.
Proof.
  destruct (det_filter_build one 2 1 singles ddemo_file (fun _ => true) (Some (gt_is "dog")) (Some (pd_is "dog"))) as (b, r) eqn:E.
  vm_compute in E. injection E as <- <-. eexists. eexists. split; [exact ddemo_input|]. split; [apply ddemo_shows|].
  split; [repeat (constructor; [vm_compute; intuition congruence|]); constructor|]. split; [reflexivity|].
  split; [vm_compute; reflexivity|]. split; vm_compute; reflexivity.
Qed.

(* ---------------------------------------------------------------- classification *)
Theorem C135_cls_examples :
  forall cs, Forall distinct_candidates cs -> forall w sel sg sp e, cls_evaluator cs w e ->
  forall datums gts pds, expresses cs datums sel -> opt_expresses cs gts sg -> opt_expresses cs pds sp ->
  forall bs rpf rb b labels rows curve, batching_ok rb ->
  cls_filter_build bs rpf rb e datums gts pds = (b, Done labels) ->
  Permutation rows (f_dir (fb_writer b)) -> Permutation curve (f_dir (fb_curve b)) ->
  forall tol9 hm thrs limit offset chosen sel', few_labels cs -> expresses cs chosen sel' -> thrs <> [] ->
  cls_examples tol9 hm thrs chosen limit offset (cls_load rows curve None)
  = Some (List.concat (map (datum_entries cs (cselect (crestrict w sel sg sp) sel') tol9 hm thrs)
      (page_of limit offset (filter (visible (cselect (crestrict w sel sg sp) sel')) cs)))).
Proof. exact cls_file_examples. Qed.
Print Assumptions C135_cls_examples.
Theorem C135_cls_matrix :
  forall cs, Forall distinct_candidates cs -> forall w sel sg sp e, cls_evaluator cs w e ->
  forall datums gts pds, expresses cs datums sel -> opt_expresses cs gts sg -> opt_expresses cs pds sp ->
  forall bs rpf rb b labels rows curve, batching_ok rb ->
  cls_filter_build bs rpf rb e datums gts pds = (b, Done labels) ->
  Permutation rows (f_dir (fb_writer b)) -> Permutation curve (f_dir (fb_curve b)) ->
  let loaded := cls_load rows curve None in
  NoDup (map snd (ce_labels loaded)) /\
  (forall l, In l (map snd (ce_labels loaded)) <-> In l (labels_of (reduced (crestrict w sel sg sp) cs))) /\
  forall tol9 hm thrs chosen sel', expresses cs chosen sel' -> thrs <> [] ->
  cls_confusion_examples tol9 hm thrs chosen loaded
  = Some (map (fun kt => (snd kt, Some (cmx_of (map snd (ce_labels loaded)) (cselect (crestrict w sel sg sp) sel') hm (pass_cm tol9 (firstn (S (fst kt)) thrs)) cs)))
      (combine (seq 0 (List.length thrs)) thrs)).
Proof. exact cls_file_matrix. Qed.
Print Assumptions C135_cls_matrix.
(* the data of C132_unlabelled_example, where the metrics raise *)
Example C135_cls_example :
  Forall distinct_candidates demo /\ cls_evaluator demo all_kept (cfile demo) /\
  option_map np_rocauc (reloaded dog_row false) = Some (ARaise OutOfBounds) /\
  option_map (cls_confusion_examples 0 true [4]%Z (fun _ => true)) (reloaded dog_row false)
  = Some (Some [(4%Z, Some (MkCmx [("dog", [("dog", (1, [(Some "u2", Some 7%Z)]))])] [("dog", (1, [Some "u1"]))]))])%string /\
  option_map (cls_examples 0 true [4]%Z (fun _ => true) None 0) (reloaded dog_row false)
  = Some (Some [MkNamed (Some "u1") 4 [] [Some "dog"] []; MkNamed (Some "u2") 4 [Some "dog"] [] []])%string.
Proof.
  split; [exact demo_distinct|]. split; [apply cfile_ok; [exact demo_accepted|vm_compute; discriminate]|]. split; [vm_compute; reflexivity|]. split; vm_compute; reflexivity.
Qed.
