(* C24 (object detection), C72-C75: filtered, reloaded and summarised object detection
   evaluators.  Vocabulary: DetFilterSpec.v; [shows eps unit ds L w e]: [e] was built
   from the data [ds] and then filtered any number of times, with either back end, and
   the filters leave the view [w] of the data; [pruned w d]: the input datum [d]
   reduced to the view.  Model: DetModel.v, DetFilterModel.v. *)
From Verif Require Import Prelude Counting CacheModel CacheSpec ClsModel ClsLabelProofs FlowModel
  DetModel DetExModel DetSpec DetFlowModel DetOrderProofs DetReportModel DetEnd DetDemo
  DetFilterModel DetFilterSpec DetFilterProofs DetFilterMain DetFilterMore DetInfoProofs.
From Coq Require Import String QArith Lqa Lia.
Local Notation length := List.length (only parsing).
Local Notation concat := List.concat (only parsing).
Local Open Scope nat_scope.
Local Open Scope list_scope.

(* ------------------------------------------------ the data of the examples *)
(* the cats of [ddemo]: ground truths and predictions filtered by label *)
Definition is_label (v : string) (o : option string) : bool := match o with Some x => String.eqb x v | None => false end.
Definition gt_is (v : string) (r : drow) : bool := is_label v (d_gt_label r).
Definition pd_is (v : string) (r : drow) : bool := is_label v (d_pd_label r).
Definition sg_is (v : string) (d : detection) (g : nat) : bool :=
  match nth_error (t_gts d) g with Some a => existsb (String.eqb v) (a_labels a) | None => false end.
Definition sp_is (v : string) (d : detection) (p : nat) (l : string) : bool := String.eqb l v.
Lemma gt_is_ok ds L v : gt_filter ds L (Some (gt_is v)) (sg_is v).
Proof.
  intros d i g Hi Hg r (d' & ga & x & gi & Hi' & Hga & Hl & _ & _ & _ & _ & _ & E & _). assert (d' = d) by congruence. subst d'.
  unfold gt_is, sg_is. rewrite E, Hga, Hl. cbn. rewrite orb_false_r. apply String.eqb_sym.
Qed.
Lemma pd_is_ok ds L v : pd_filter ds L (Some (pd_is v)) (sp_is v).
Proof.
  intros d i p pa l _ _ _ r s (d' & pa' & n & pi & _ & _ & _ & _ & _ & _ & _ & _ & _ & E & _). unfold pd_is, sp_is. rewrite E. reflexivity.
Qed.
Lemma no_gt_filter ds L : gt_filter ds L None (fun _ _ => true).
Proof. intros d i g _ _. reflexivity. Qed.
Lemma no_pd_filter ds L : pd_filter ds L None (fun _ _ _ => true).
Proof. intros d i p pa v _ _ _. reflexivity. Qed.
Lemma any_gt ds L : gt_filter ds L (Some (fun _ => true)) (fun _ _ => true).
Proof. intros d i g _ _ r _. reflexivity. Qed.
Lemma any_pd ds L : pd_filter ds L (Some (fun _ => true)) (fun _ _ _ => true).
Proof. intros d i p pa v _ _ _ r s _. reflexivity. Qed.

Definition pets : list string := ["cat"; "dog"]%string.
Lemma pets_no e : de_labels e = [(0, Some "cat"); (1, Some "dog")]%string%Z -> forall v vi, label_no e v vi <-> index_of v pets = Some vi.
Proof.
  intros E v vi. unfold label_no. rewrite E. unfold pets. cbn [ldict_get index_of].
  destruct (Z.eqb_spec (Z.of_nat vi) 0), (Z.eqb_spec (Z.of_nat vi) 1), (String.eqb_spec v "cat"), (String.eqb_spec v "dog"); subst;
    cbn [option_map]; split; intros H; try discriminate; try (injection H as H); try congruence; try (f_equal; lia); try lia.
Qed.
Definition got (r : fresult deval) : deval := match r with Done e => e | _ => no_eval end.
Definition cats_mem : deval := Eval vm_compute in
  got (det_filter_mem one 4 singles ddemo_mem (fun _ => true) (Some (gt_is "cat")) (Some (pd_is "cat"))).
Definition dogs_file : deval := Eval vm_compute in
  got (det_filter_file one 2 1 singles ddemo_file (fun _ => true) (Some (gt_is "dog")) (Some (pd_is "dog"))).
Definition cat_view : dview := restrict full_view (fun _ => true) (sg_is "cat") (sp_is "cat").
Definition dog_view : dview := restrict full_view (fun _ => true) (sg_is "dog") (sp_is "dog").
Lemma ddemo_shows : shows 1 one ddemo pets full_view ddemo_mem /\ shows 1 one ddemo pets full_view ddemo_file.
Proof. split; (apply Shows_built; [apply ddemo_mem_ok || apply ddemo_file_ok|apply pets_no; reflexivity]). Qed.
Lemma cats_shows : shows 1 one ddemo pets cat_view cats_mem.
Proof.
  apply (Shows_filter_mem 1 one ddemo pets full_view ddemo_mem 4 singles (fun _ => true) (Some (gt_is "cat")) (Some (pd_is "cat"))).
  - apply ddemo_shows.
  - apply all_selects.
  - apply gt_is_ok.
  - apply pd_is_ok.
  - vm_compute. reflexivity.
Qed.
Lemma dogs_shows : shows 1 one ddemo pets dog_view dogs_file.
Proof.
  apply (Shows_filter_file 1 one ddemo pets full_view ddemo_file 2 1 singles (fun _ => true) (Some (gt_is "dog")) (Some (pd_is "dog"))).
  - exact singles_ok.
  - apply ddemo_shows.
  - apply all_selects.
  - apply gt_is_ok.
  - apply pd_is_ok.
  - vm_compute. reflexivity.
Qed.

(* ---------------------------------------------------------------- C24 *)
(* the cache of a filtered evaluator has exactly the kept ground truths, prediction
   labels and overlapping pairs, with the values of the input *)
Theorem C24_detection_rows :
  forall eps unit ds L w e, det_input unit ds -> shows eps unit ds L w e ->
  let rows := concat (de_detailed e) in
  (* what is there was kept *)
  (forall r, In r rows -> (0 <= d_gt r)%Z -> exists i d g, nth_error ds i = Some d /\ carries_gt ds L i g r /\ v_gt w d g = true) /\
  (forall r, In r rows -> (0 <= d_pd r)%Z -> exists i d p v s, nth_error ds i = Some d /\ carries_pd ds L i p v s r /\ v_pd w d p v = true) /\
  (forall r, In r rows -> (0 <= d_gt r)%Z \/ (0 <= d_pd r)%Z) /\
  (* overlaps are those of the input *)
  (forall r i d g p v s, In r rows -> nth_error ds i = Some d -> carries_gt ds L i g r -> carries_pd ds L i p v s r ->
     d_iou r = t_iou d p g /\ (eps <= t_iou d p g)%Z) /\
  (* what was kept is there *)
  (forall i d g, nth_error ds i = Some d -> g < length (t_gts d) -> v_gt w d g = true -> exists r, In r rows /\ carries_gt ds L i g r) /\
  (forall i d p pa n v s, nth_error ds i = Some d -> nth_error (t_pds d) p = Some pa -> nth_error (a_labels pa) n = Some v ->
     nth_error (a_scores pa) n = Some s -> v_pd w d p v = true -> exists r, In r rows /\ carries_pd ds L i p v s r) /\
  (forall i d g p pa n v s, nth_error ds i = Some d -> g < length (t_gts d) -> nth_error (t_pds d) p = Some pa ->
     nth_error (a_labels pa) n = Some v -> nth_error (a_scores pa) n = Some s -> (eps <= t_iou d p g)%Z ->
     v_gt w d g = true -> v_pd w d p v = true -> exists r, In r rows /\ carries_gt ds L i g r /\ carries_pd ds L i p v s r).
Proof. exact detection_rows. Qed.
Print Assumptions C24_detection_rows.
(* filtering succeeds exactly when something is left, otherwise the empty cache error *)
Theorem C24_detection_empty_mem :
  forall eps unit ds L w e bs rb datums gts pds sel sg sp, det_input unit ds ->
  shows eps unit ds L w e -> det_selects ds datums sel -> gt_filter ds L gts sg -> pd_filter ds L pds sp ->
  (det_filter_mem unit bs rb e datums gts pds = EmptyCache /\ nothing_left (restrict w sel sg sp) ds) \/
  (exists e', det_filter_mem unit bs rb e datums gts pds = Done e' /\ ~ nothing_left (restrict w sel sg sp) ds).
Proof. exact filter_mem_outcome. Qed.
Print Assumptions C24_detection_empty_mem.
Theorem C24_detection_empty_file :
  forall eps unit ds L w e bs rpf rb datums gts pds sel sg sp, det_input unit ds -> batching_ok rb ->
  shows eps unit ds L w e -> det_selects ds datums sel -> gt_filter ds L gts sg -> pd_filter ds L pds sp ->
  (det_filter_file unit bs rpf rb e datums gts pds = EmptyCache /\ nothing_left (restrict w sel sg sp) ds) \/
  (exists e', det_filter_file unit bs rpf rb e datums gts pds = Done e' /\ ~ nothing_left (restrict w sel sg sp) ds).
Proof. exact filter_file_outcome. Qed.
Print Assumptions C24_detection_empty_file.
(* the cats; there are no dogs among them *)
Example C24_detection_example :
  map (fun r => (d_uid r, d_gt r, d_gl r, d_pd r, d_pl r, d_iou r)) (concat (de_detailed cats_mem))
  = [("img0", 0, 0, 0, 0, 800000000); ("img0", 0, 0, 1, 0, 600000000); ("img0", -1, -1, 1, 0, 0);
     ("img2", -1, -1, 3, 0, 0); ("img1", 2, 0, -1, -1, 0)]%string%Z /\
  length (concat (de_detailed ddemo_mem)) = 7 /\
  det_filter_mem one 4 singles cats_mem (fun _ => true) (Some (gt_is "dog")) (Some (pd_is "dog")) = EmptyCache.
Proof. repeat split. Qed.

(* ---------------------------------------------------------------- C72 *)
(* Evaluator.load on the directory of a finalized loader gives the same evaluator, in
   whatever order the files are listed *)
Theorem C72_load_built :
  forall eps unit bs rpf rb calls b b' labels listing1 listing2, det_input unit (concat calls) -> batching_ok rb ->
  dfb_adds eps bs rpf dfb_init calls = Some b -> dfb_finalize unit bs rpf rb b = (b', Done labels) ->
  Permutation listing1 (f_dir (dfb_detailed b')) -> Permutation listing2 (f_dir (dfb_ranked b')) ->
  det_load listing1 listing2 None = dfe b' labels.
Proof. exact load_built. Qed.
Print Assumptions C72_load_built.
(* ... and on the directory of a filtered evaluator if the labels are passed along *)
Theorem C72_load_filtered_partial :
  forall unit bs rpf rb e datums gts pds b labels listing1 listing2, batching_ok rb ->
  det_filter_build unit bs rpf rb e datums gts pds = (b, Done labels) ->
  Permutation listing1 (f_dir (dfb_detailed b)) -> Permutation listing2 (f_dir (dfb_ranked b)) ->
  det_filter_file unit bs rpf rb e datums gts pds = Done (det_load listing1 listing2 (Some labels)) /\ labels = de_labels e.
Proof. exact load_filtered. Qed.
Print Assumptions C72_load_filtered_partial.
(* the ground truth counts of evaluators that were built and filtered never fail *)
Theorem C72_counts_defined :
  forall eps unit ds L w e datums, det_input unit ds -> shows eps unit ds L w e ->
  det_gt_counts datums e = Some (map (rep_gts e datums) (label_axis e)).
Proof. exact gt_counts_defined. Qed.
Print Assumptions C72_counts_defined.
(* without the labels, the reloaded evaluator of the dogs has one label, numbered 1:
   computing metrics raises IndexError *)
Theorem C72_load_filtered_refuted :
  exists b labels, det_filter_build one 2 1 singles ddemo_file (fun _ => true) (Some (gt_is "dog")) (Some (pd_is "dog")) = (b, Done labels) /\
    det_filter_file one 2 1 singles ddemo_file (fun _ => true) (Some (gt_is "dog")) (Some (pd_is "dog")) = Done dogs_file /\
    det_load (f_dir (dfb_detailed b)) (f_dir (dfb_ranked b)) None <> dogs_file /\
    det_gt_counts (fun _ => true) dogs_file = Some [0; 1] /\
    det_gt_counts (fun _ => true) (det_load (f_dir (dfb_detailed b)) (f_dir (dfb_ranked b)) None) = None.
Proof.
  destruct (det_filter_build one 2 1 singles ddemo_file (fun _ => true) (Some (gt_is "dog")) (Some (pd_is "dog"))) as (b, r) eqn:E.
  vm_compute in E. injection E as <- <-. eexists. eexists. split; [reflexivity|]. split; [vm_compute; reflexivity|].
  split; [vm_compute; discriminate|]. split; vm_compute; reflexivity.
Qed.
Print Assumptions C72_load_filtered_refuted.

(* ---------------------------------------------------------------- C73 *)
(* evaluators obtained in different ways (filters in another order, several filters at
   once or one after the other, a datum filter before or at the metric call, other
   back ends and batch sizes) report the same if they leave the same of the data *)
Theorem C73_same_metrics :
  forall eps unit ds L1 L2 w1 w2 e1 e2, (0 < eps)%Z -> (0 <= unit)%Z -> det_input unit ds -> few_det_labels ds ->
  Forall distinct_pd_labels ds ->
  shows eps unit ds L1 w1 e1 -> shows eps unit ds L2 w2 e2 ->
  forall datums1 datums2 sel1 sel2, det_selects ds datums1 sel1 -> det_selects ds datums2 sel2 ->
  same_view ds (by_selection w1 sel1) (by_selection w2 sel2) ->
  (forall v vi, label_no e1 v vi <-> label_no e2 v vi) /\
  (forall v vi, label_no e1 v vi -> same_report eps e1 datums1 (Z.of_nat vi) e2 datums2 (Z.of_nat vi)) /\
  (forall t, (0 < t)%Z -> rep_map eps e1 datums1 t = rep_map eps e2 datums2 t) /\
  (forall ious s, (forall t, In t ious -> (0 < t)%Z) -> rep_mar eps e1 datums1 ious s = rep_mar eps e2 datums2 ious s).
Proof. exact shown_all. Qed.
Print Assumptions C73_same_metrics.
(* filtering the datums first or at the metric call *)
Theorem C73_filter_or_select :
  forall eps unit ds L w e bs rb e', (0 < eps)%Z -> (0 <= unit)%Z -> det_input unit ds -> few_det_labels ds ->
  Forall distinct_pd_labels ds -> shows eps unit ds L w e ->
  forall datums sel, det_selects ds datums sel ->
  det_filter_mem unit bs rb e datums None None = Done e' ->
  forall v vi, label_no e v vi -> same_report eps e datums (Z.of_nat vi) e' (fun _ => true) (Z.of_nat vi).
Proof. exact filter_or_select. Qed.
Print Assumptions C73_filter_or_select.
(* two filters in either order *)
Theorem C73_order :
  forall eps unit ds L w e bs rb, (0 < eps)%Z -> (0 <= unit)%Z -> det_input unit ds -> few_det_labels ds ->
  Forall distinct_pd_labels ds -> shows eps unit ds L w e ->
  forall d1 g1 p1 sd1 sg1 sp1 d2 g2 p2 sd2 sg2 sp2,
  det_selects ds d1 sd1 -> gt_filter ds L g1 sg1 -> pd_filter ds L p1 sp1 ->
  det_selects ds d2 sd2 -> gt_filter ds L g2 sg2 -> pd_filter ds L p2 sp2 ->
  forall e1 e2 e12 e21,
  det_filter_mem unit bs rb e d1 g1 p1 = Done e1 -> det_filter_mem unit bs rb e1 d2 g2 p2 = Done e12 ->
  det_filter_mem unit bs rb e d2 g2 p2 = Done e2 -> det_filter_mem unit bs rb e2 d1 g1 p1 = Done e21 ->
  forall v vi, label_no e v vi -> same_report eps e12 (fun _ => true) (Z.of_nat vi) e21 (fun _ => true) (Z.of_nat vi).
Proof. exact filter_order_free. Qed.
Print Assumptions C73_order.
Definition first_cats : deval := Eval vm_compute in got (det_filter_mem one 4 singles cats_mem first_rows None None).
Definition cats_first : deval := Eval vm_compute in
  got (det_filter_mem one 4 singles (got (det_filter_mem one 4 singles ddemo_mem first_rows None None)) (fun _ => true) (Some (gt_is "cat")) (Some (pd_is "cat"))).
Example C73_example :
  rep_gts first_cats (fun _ => true) 0 = 1 /\ rep_gts cats_mem (fun _ => true) 0 = 2 /\ rep_gts ddemo_mem (fun _ => true) 1 = 1 /\ rep_gts first_cats (fun _ => true) 1 = 0 /\
  rep_ap 1 first_cats (fun _ => true) 500000000 0 = rep_ap 1 cats_first (fun _ => true) 500000000 0 /\
  rep_ap 1 first_cats (fun _ => true) 500000000 0 = rep_ap 1 cats_mem first_rows 500000000 0 /\
  ~ (rep_ap 1 first_cats (fun _ => true) 500000000 0 == rep_ap 1 cats_mem (fun _ => true) 500000000 0)%Q.
Proof. repeat split; vm_compute; congruence. Qed.

(* ---------------------------------------------------------------- C74 *)
(* every metric of a label that is left equals that of an evaluator built from the
   data reduced to what was kept *)
Theorem C74_label_metrics :
  forall eps unit ds L w e, (0 < eps)%Z -> (0 <= unit)%Z -> det_input unit ds -> few_det_labels ds ->
  Forall distinct_pd_labels ds -> shows eps unit ds L w e ->
  forall datums sel, det_selects ds datums sel ->
  forall e' v vi vi', det_evaluator eps unit (map (pruned (by_selection w sel)) ds) e' -> label_no e v vi -> label_no e' v vi' ->
  same_report eps e datums (Z.of_nat vi) e' (fun _ => true) (Z.of_nat vi').
Proof. exact filtered_report. Qed.
Print Assumptions C74_label_metrics.
(* labels of which nothing is left stay listed, with zeros *)
Theorem C74_absent_labels :
  forall eps unit ds L w e, (0 < eps)%Z -> (0 <= unit)%Z -> det_input unit ds -> few_det_labels ds ->
  Forall distinct_pd_labels ds -> shows eps unit ds L w e ->
  forall datums sel, det_selects ds datums sel ->
  forall v vi, label_no e v vi -> ~ In v (det_labels (map (pruned (by_selection w sel)) ds)) -> empty_report eps e datums (Z.of_nat vi).
Proof. exact absent_report. Qed.
Print Assumptions C74_absent_labels.
(* so mAP and mAR are those of the reduced data, scaled by the numbers of labels *)
Theorem C74_map_partial :
  forall eps unit ds L w e e', (0 < eps)%Z -> (0 <= unit)%Z -> det_input unit ds -> few_det_labels ds ->
  Forall distinct_pd_labels ds -> shows eps unit ds L w e ->
  forall datums sel, det_selects ds datums sel ->
  det_evaluator eps unit (map (pruned (by_selection w sel)) ds) e' ->
  forall t m m', (0 < t)%Z -> rep_map eps e datums t = Some m -> rep_map eps e' (fun _ => true) t = Some m' ->
  (m * qnat (length (de_labels e)) == m' * qnat (length (de_labels e')))%Q.
Proof. exact filtered_map. Qed.
Print Assumptions C74_map_partial.
Theorem C74_mar_partial :
  forall eps unit ds L w e e', (0 < eps)%Z -> (0 <= unit)%Z -> det_input unit ds -> few_det_labels ds ->
  Forall distinct_pd_labels ds -> shows eps unit ds L w e ->
  forall datums sel, det_selects ds datums sel ->
  det_evaluator eps unit (map (pruned (by_selection w sel)) ds) e' ->
  forall ious s m m', (forall t, In t ious -> (0 < t)%Z) -> rep_mar eps e datums ious s = Some m -> rep_mar eps e' (fun _ => true) ious s = Some m' ->
  (m * qnat (length (de_labels e)) == m' * qnat (length (de_labels e')))%Q.
Proof. exact filtered_mar. Qed.
Print Assumptions C74_mar_partial.
(* mAP itself differs: filtering to the cats halves it, because the dogs still count *)
Definition cats_only : list detection := map (pruned cat_view) ddemo.
Definition only_cats : deval := Eval vm_compute in get_eval (mem_eval 1 one 4 singles [cats_only]).
Lemma only_cats_ok : det_evaluator 1 one cats_only only_cats.
Proof. apply (mem_eval_ok 1 one 4 singles [cats_only]). vm_compute. reflexivity. Qed.
Theorem C74_map_refuted :
  shows 1 one ddemo pets cat_view cats_mem /\ det_evaluator 1 one (map (pruned cat_view) ddemo) only_cats /\
  exists m m', rep_map 1 cats_mem (fun _ => true) 500000000 = Some m /\ rep_map 1 only_cats (fun _ => true) 500000000 = Some m' /\ ~ (m == m')%Q.
Proof.
  split; [exact cats_shows|]. split; [exact only_cats_ok|]. eexists. eexists. split; [reflexivity|]. split; [reflexivity|]. vm_compute. discriminate.
Qed.
Print Assumptions C74_map_refuted.
Example C74_example :
  rep_gts cats_mem (fun _ => true) 0 = 2 /\ rep_tp 1 cats_mem (fun _ => true) 500000000 500000000 0 = 1 /\
  rep_fp 1 cats_mem (fun _ => true) 500000000 500000000 0 = 1 /\ rep_gts cats_mem (fun _ => true) 1 = 0 /\
  rep_fp 1 ddemo_mem (fun _ => true) 500000000 500000000 1 = 1 /\ rep_fp 1 cats_mem (fun _ => true) 500000000 500000000 1 = 0 /\
  det_labels cats_only = ["cat"; "cat"; "cat"; "cat"; "cat"]%string.
Proof. repeat split. Qed.

(* equal overlaps are allowed: both predictions overlap both ground truths equally, and
   the filter drops the dog between them *)
Definition even : list detection :=
  [ MkDet "img0" [gt "a" "cat"; gt "b" "dog"; gt "c" "cat"; gt "d" "cat"] [pd "x" "cat" 900000000; pd "y" "cat" 800000000]
        (iou_of [ov 0 0 600000000; ov 0 2 600000000; ov 0 3 600000000; ov 1 0 600000000; ov 1 2 600000000; ov 1 3 600000000]) ]%string%Z.
Definition even_mem : deval := Eval vm_compute in get_eval (mem_eval 1 one 4 singles [even]).
Definition even_cut : deval := Eval vm_compute in got (det_filter_mem one 4 singles even_mem (fun _ => true) (Some (gt_is "cat")) None).
Example C74_equal_overlaps :
  det_input one even /\ few_det_labels even /\ Forall distinct_pd_labels even /\
  shows 1 one even pets (restrict full_view (fun _ => true) (sg_is "cat") (fun _ _ _ => true)) even_cut /\
  rep_gts even_mem (fun _ => true) 0 = 3 /\ rep_gts even_cut (fun _ => true) 1 = 0 /\
  rep_tp 1 even_cut (fun _ => true) 500000000 500000000 0 = 1 /\ rep_fp 1 even_cut (fun _ => true) 500000000 500000000 0 = 1.
Proof.
  split; [unfold det_input, even; inputs|]. split; [unfold few_det_labels, few; vm_compute; discriminate|].
  split; [unfold even, distinct_pd_labels; each; intros a Ha; cbn in Ha; intuition subst; repeat constructor; cbn; intuition discriminate|].
  split; [|repeat split].
  apply (Shows_filter_mem 1 one even pets full_view even_mem 4 singles (fun _ => true) (Some (gt_is "cat")) None).
  - apply Shows_built; [apply (mem_eval_ok 1 one 4 singles [even]); vm_compute; reflexivity|apply pets_no; reflexivity].
  - apply all_selects.
  - apply gt_is_ok.
  - apply no_pd_filter.
  - vm_compute. reflexivity.
Qed.

(* ---------------------------------------------------------------- C75 *)
(* get_info counts the kept and selected ground truths and predictions, and the
   selected datums of which anything is left *)
Theorem C75_counts_partial :
  forall eps unit ds L w e, det_input unit ds -> shows eps unit ds L w e ->
  forall datums sel, det_selects ds datums sel ->
  forall gts sg pds sp, gt_filter ds L (Some gts) sg -> pd_filter ds L (Some pds) sp ->
  det_info datums gts pds (de_detailed e) =
  (countb (fun d => sel d && visible w d) ds,
   list_sum_nat (map (fun d => length (t_gts (pruned (restrict w sel sg sp) d))) ds),
   list_sum_nat (map (fun d => length (t_pds (pruned (restrict w sel sg sp) d))) ds)).
Proof. exact info_exact. Qed.
Print Assumptions C75_counts_partial.
(* without filters: every annotation of the input is counted once, and every datum
   that has one *)
Theorem C75_unfiltered_partial :
  forall eps unit ds e, det_input unit ds -> det_evaluator eps unit ds e ->
  Forall (fun d => Forall (fun a => a_labels a <> []) (t_pds d)) ds ->
  det_info (fun _ => true) (fun _ => true) (fun _ => true) (de_detailed e) =
  (countb (fun d => negb (Nat.eqb (length (t_gts d) + length (t_pds d)) 0)) ds,
   list_sum_nat (map (fun d => length (t_gts d)) ds),
   list_sum_nat (map (fun d => length (t_pds d)) ds)).
Proof. exact info_unfiltered. Qed.
Print Assumptions C75_unfiltered_partial.
(* a datum without annotations is not counted *)
Definition blank : list detection := MkDet "none" [] [] (iou_of []) :: ddemo.
Definition blank_mem : deval := Eval vm_compute in get_eval (mem_eval 1 one 4 singles [blank]).
Theorem C75_blank_datum_refuted :
  det_input one blank /\ det_evaluator 1 one blank blank_mem /\ length blank = 4 /\
  det_info (fun _ => true) (fun _ => true) (fun _ => true) (de_detailed blank_mem) = (3, 3, 4).
Proof.
  split; [|split; [|split; vm_compute; reflexivity]].
  - unfold det_input, blank. apply Forall_cons; [|exact ddemo_input]. split; [reflexivity|]. split; [intros x Hx; destruct Hx|].
    intros p g. cbn [t_iou]. apply iou_of_range; [discriminate|constructor].
  - apply (mem_eval_ok 1 one 4 singles [blank]). vm_compute. reflexivity.
Qed.
Print Assumptions C75_blank_datum_refuted.
Example C75_example :
  det_info (fun _ => true) (fun _ => true) (fun _ => true) (de_detailed ddemo_mem) = (3, 3, 4) /\
  det_info first_rows (fun _ => true) (pd_is "cat") (de_detailed ddemo_mem) = (1, 2, 2) /\
  det_info (fun _ => true) (fun _ => true) (fun _ => true) (de_detailed dogs_file) = (1, 1, 1).
Proof. repeat split. Qed.
