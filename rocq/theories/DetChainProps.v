(* C137 (object detection): several filters in any order or all at once.
   Vocabulary: DetFilterSpec.v and DetChainSpec.v; [dargs]: the arguments of one call of
   Evaluator.filter with their meaning; [det_calls unit e ys r]: calling filter with [ys]
   one after the other, each time into memory or into files, ends in [r].
   Model: DetModel.v, DetFilterModel.v, DetReportModel.v. *)
From Verif Require Import Prelude CacheModel CacheSpec FlowModel DetModel DetExModel DetSpec DetFlowModel DetReportModel DetEnd DetDemo
  DetFilterModel DetFilterSpec DetFilterProofs DetFilterProps DetChainSpec DetChainProofs.
From Coq Require Import String QArith.
Local Open Scope nat_scope.
Local Open Scope list_scope.

Theorem C137_det_any_order : forall eps unit ds L w e1 e2 xs ys r1 r2,
  (0 < eps)%Z -> (0 <= unit)%Z -> det_input unit ds -> few_det_labels ds -> Forall distinct_pd_labels ds ->
  Forall (dargs_ok ds L) xs -> Permutation xs ys ->
  shows eps unit ds L w e1 -> shows eps unit ds L w e2 -> det_calls unit e1 xs r1 -> det_calls unit e2 ys r2 ->
  (r1 = EmptyCache /\ r2 = EmptyCache /\ dnothing ds (dremains w xs))
  \/ (exists f1 f2, r1 = Done f1 /\ r2 = Done f2 /\ same_det_reports eps ds f1 f2).
Proof. exact det_any_order. Qed.
Print Assumptions C137_det_any_order.
Theorem C137_det_in_one_call : forall eps unit ds L w e1 e2 xs r1 r2,
  (0 < eps)%Z -> (0 <= unit)%Z -> det_input unit ds -> few_det_labels ds -> Forall distinct_pd_labels ds ->
  Forall (dargs_ok ds L) xs ->
  shows eps unit ds L w e1 -> shows eps unit ds L w e2 -> det_calls unit e1 xs r1 -> det_call unit e2 (dtogether xs) r2 ->
  (r1 = EmptyCache /\ r2 = EmptyCache /\ dnothing ds (dremains w xs))
  \/ (exists f1 f2, r1 = Done f1 /\ r2 = Done f2 /\ same_det_reports eps ds f1 f2).
Proof. exact det_in_one_call. Qed.
Print Assumptions C137_det_in_one_call.
(* the error is raised exactly when nothing is selected by all the calls *)
Theorem C137_det_raises : forall eps unit ds L w e ys r, det_input unit ds -> Forall (dargs_ok ds L) ys ->
  shows eps unit ds L w e -> det_calls unit e ys r ->
  (r = EmptyCache /\ dnothing ds (dremains w ys)) \/
  ((exists e', r = Done e') /\ ~ dnothing ds (dremains w ys)).
Proof.
  intros eps unit ds L w e ys r Hin Hy He R. destruct (dcalls_outcome eps unit ds L Hin e ys r R w Hy He) as [X|(e' & w' & -> & S & V)]; [left; exact X|].
  right. split; [eauto|]. apply (shows_something eps unit ds L Hin _ w' e' S V).
Qed.
Print Assumptions C137_det_raises.

(* ------------------------------------------------ examples *)
Definition only_cat : dargs := MkDargs (fun _ => true) (Some (gt_is "cat")) (Some (pd_is "cat")) (fun _ => true) (sg_is "cat") (sp_is "cat").
Definition only_dog : dargs := MkDargs (fun _ => true) (Some (gt_is "dog")) (Some (pd_is "dog")) (fun _ => true) (sg_is "dog") (sp_is "dog").
Definition only_first : dargs := MkDargs first_rows None None first_image (fun _ _ => true) (fun _ _ _ => true).
Lemma only_cat_ok : dargs_ok ddemo pets only_cat.
Proof. split; [apply all_selects|]. split; [apply gt_is_ok|apply pd_is_ok]. Qed.
Lemma only_dog_ok : dargs_ok ddemo pets only_dog.
Proof. split; [apply all_selects|]. split; [apply gt_is_ok|apply pd_is_ok]. Qed.
Lemma only_first_ok : dargs_ok ddemo pets only_first.
Proof. split; [apply first_selects|]. split; [apply no_gt_filter|apply no_pd_filter]. Qed.
(* the cats of the first image in both orders: one ground truth is left of two; cats that
   are dogs: the error *)
Example C137_det_example :
  (0 < 1)%Z /\ (0 <= one)%Z /\ det_input one ddemo /\ few_det_labels ddemo /\ Forall distinct_pd_labels ddemo /\
  Forall (dargs_ok ddemo pets) [only_cat; only_first; only_dog] /\ shows 1 one ddemo pets full_view ddemo_mem /\
  det_calls one ddemo_mem [only_cat; only_first] (Done first_cats) /\ det_calls one ddemo_mem [only_first; only_cat] (Done cats_first) /\
  same_det_reports 1 ddemo first_cats cats_first /\ rep_gts first_cats (fun _ => true) 0 = 1 /\ rep_gts ddemo_mem (fun _ => true) 0 = 2 /\
  det_calls one ddemo_mem [only_cat; only_dog; only_first] EmptyCache.
Proof.
  assert (A : det_calls one ddemo_mem [only_cat; only_first] (Done first_cats)).
  { eapply dcalls_cons; [|eapply dcalls_cons; [|constructor]].
    - assert (E : Done cats_mem = det_filter_mem one 4 singles ddemo_mem (y_datums only_cat) (y_gts only_cat) (y_pds only_cat)) by (vm_compute; reflexivity).
      rewrite E. apply dcall_mem.
    - assert (E : Done first_cats = det_filter_mem one 4 singles cats_mem (y_datums only_first) (y_gts only_first) (y_pds only_first)) by (vm_compute; reflexivity).
      rewrite E. apply dcall_mem. }
  assert (B : det_calls one ddemo_mem [only_first; only_cat] (Done cats_first)).
  { eapply dcalls_cons; [exact (dcall_mem one ddemo_mem only_first 4 singles)|eapply dcalls_cons; [|constructor]].
    assert (E : Done cats_first = det_filter_mem one 4 singles (got (det_filter_mem one 4 singles ddemo_mem first_rows None None)) (y_datums only_cat) (y_gts only_cat) (y_pds only_cat))
      by (vm_compute; reflexivity).
    rewrite E. apply dcall_mem. }
  assert (O : Forall (dargs_ok ddemo pets) [only_cat; only_first; only_dog]) by (repeat constructor; apply only_cat_ok || apply only_first_ok || apply only_dog_ok).
  split; [reflexivity|]. split; [discriminate|]. split; [exact ddemo_input|]. split; [exact ddemo_few|]. split; [exact ddemo_distinct|].
  split; [exact O|]. split; [apply ddemo_shows|]. split; [exact A|]. split; [exact B|]. split; [|split; [vm_compute; reflexivity|split; [vm_compute; reflexivity|]]].
  - assert (O2 : Forall (dargs_ok ddemo pets) [only_cat; only_first]) by (repeat constructor; apply only_cat_ok || apply only_first_ok).
    destruct (C137_det_any_order 1 one ddemo pets full_view ddemo_mem ddemo_mem _ _ _ _ eq_refl ltac:(discriminate) ddemo_input ddemo_few ddemo_distinct O2
      (perm_swap only_first only_cat []) (proj1 ddemo_shows) (proj1 ddemo_shows) A B) as [(E & _)|(f1 & f2 & E1 & E2 & S)]; [discriminate|].
    injection E1 as <-. injection E2 as <-. exact S.
  - eapply dcalls_cons; [exact (dcall_mem one ddemo_mem only_cat 4 singles)|].
    apply dcalls_raise; [exact (dcall_mem one _ only_dog 4 singles)|discriminate].
Qed.
