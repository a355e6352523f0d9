(* C78-C82: filtered, reloaded and summarised classification evaluators.
   Vocabulary: ClsFilterSpec.v; [cls_evaluator cs w e]: [e] was built from the data [cs]
   and then filtered any number of times, with either back end; [w c l] says that the
   candidate [l] of datum [c] remains; [reduced w cs]: the input restricted to the
   remaining candidates and datums.  Model: ClsModel.v, RocModel.v, ClsFilterModel.v. *)
From Verif Require Import Prelude Counting CacheModel CacheSpec ClsModel ClsSpec ClsLabelProofs ClsProofs ClsConfProofs RocModel RocProofs RocMain RocCurve
  FlowModel FlowProofs FlowMore ClsLemmas ClsMore ClsDemo ClsFilterModel ClsFilterSpec ClsFilterProofs ClsFilterCounts ClsFilterMain ClsFilterRoc.
From Coq Require Import String QArith.
Local Notation length := List.length (only parsing).
Local Notation concat := List.concat (only parsing).
Local Open Scope nat_scope.
Local Open Scope list_scope.

(* ------------------------------------------------ the data of the examples *)
Definition one_by_one {A} (l : list A) : list (list A) := map (fun x => [x]) l.
Lemma one_by_one_ok {A} : batching_ok (@one_by_one A).
Proof.
  intros l. unfold one_by_one. split; [induction l as [|a l IH]; cbn; [|rewrite IH]; reflexivity|].
  apply Forall_forall. intros x Hx. apply in_map_iff in Hx. destruct Hx as (y & <- & _). discriminate.
Qed.
Definition no_ceval : ceval := MkCE [] [] [].
Definition cmem (cs : list classification) : ceval :=
  match snd (mb_finalize 10 one_by_one (fold_left (mb_call 10 one_by_one) [Add cs] mb_init)) with Done e => ce_mem e | _ => no_ceval end.
Definition cfile (cs : list classification) : ceval :=
  match fb_finalize 3 2 one_by_one (fold_left (fb_call 3 2 one_by_one) [Add cs] fb_init) with (b, Done m) => ce_file b m | _ => no_ceval end.
Definition cgot (r : fresult ceval) : ceval := match r with Done e => e | _ => no_ceval end.
Lemma one_call cs : Forall accepted cs -> wellformed_calls [Add cs] /\ data_of [Add cs] = cs.
Proof.
  intros Ha. split.
  - constructor; [|constructor]. eapply Forall_impl; [|exact Ha]. intros c [_ H]. exact H.
  - unfold data_of, added, adds_of. cbn. rewrite app_nil_r. induction Ha as [|c t [Hc _] _ IH]; [reflexivity|].
    cbn. destruct (c_predictions c); [congruence|]. rewrite IH. reflexivity.
Qed.
Lemma cmem_ok cs : Forall accepted cs -> ce_labels (cmem cs) <> [] -> cls_evaluator cs all_kept (cmem cs).
Proof.
  intros Ha Hn. unfold cmem in *.
  destruct (mb_finalize 10 one_by_one (fold_left (mb_call 10 one_by_one) [Add cs] mb_init)) as [b [e| | |]] eqn:E; cbn [snd] in *; try (exfalso; apply Hn; reflexivity).
  apply (cls_built_mem cs 10 one_by_one [Add cs] b e); [apply one_call; exact Ha|apply one_call; exact Ha|exact E].
Qed.
Lemma cfile_ok cs : Forall accepted cs -> ce_labels (cfile cs) <> [] -> cls_evaluator cs all_kept (cfile cs).
Proof.
  intros Ha Hn. unfold cfile in *.
  destruct (fb_finalize 3 2 one_by_one (fold_left (fb_call 3 2 one_by_one) [Add cs] fb_init)) as [b [m| | |]] eqn:E; try (exfalso; apply Hn; reflexivity).
  apply (cls_built_file cs 3 2 one_by_one [Add cs] b m); [apply one_by_one_ok|apply one_call; exact Ha|apply one_call; exact Ha|exact E].
Qed.

(* the "cat" candidates of [demo] *)
Definition cat_row (r : crow) : bool := String.eqb (r_pd_label r) "cat".
Definition cat_cand : cview := fun _ l => String.eqb l "cat".
Lemma cat_expresses cs : expresses cs cat_row cat_cand.
Proof. intros r d c _ _ _. reflexivity. Qed.
Definition cats_view : cview := crestrict all_kept all_kept all_kept cat_cand.
Definition cats_cmem : ceval := Eval vm_compute in cgot (cls_filter_mem 10 one_by_one (cmem demo) (fun _ => true) None (Some cat_row)).
Definition cats_cfile : ceval := Eval vm_compute in cgot (cls_filter_file 3 2 one_by_one (cfile demo) (fun _ => true) None (Some cat_row)).
Lemma all_absent cs : opt_expresses cs None all_kept.
Proof. intros c l. reflexivity. Qed.
Lemma cats_cmem_ok : cls_evaluator demo cats_view cats_cmem.
Proof.
  apply (cls_filtered_mem demo all_kept (cmem demo) 10 one_by_one (fun _ => true) None (Some cat_row)).
  - apply cmem_ok; [exact demo_accepted|vm_compute; discriminate].
  - apply expresses_all.
  - apply all_absent.
  - apply cat_expresses.
  - vm_compute. reflexivity.
Qed.
Lemma cats_cfile_ok : cls_evaluator demo cats_view cats_cfile.
Proof.
  apply (cls_filtered_file demo all_kept (cfile demo) 3 2 one_by_one (fun _ => true) None (Some cat_row)); [apply one_by_one_ok| | | | |].
  - apply cfile_ok; [exact demo_accepted|vm_compute; discriminate].
  - apply expresses_all.
  - apply all_absent.
  - apply cat_expresses.
  - vm_compute. reflexivity.
Qed.
Lemma pet_number e : ce_labels e = [(0, "cat"); (1, "dog")]%string%Z -> has_number e "cat" 0 /\ has_number e "dog" 1.
Proof. intros E. unfold has_number. rewrite E. split; reflexivity. Qed.

(* ---------------------------------------------------------------- C78 *)
(* what remains is reported: the counts of a label, from the remaining candidates; the
   winner of a datum is that of the unfiltered input *)
Theorem C78_filtered_counts :
  forall cs w e, Forall distinct_candidates cs -> few_labels cs -> cls_evaluator cs w e ->
  forall tol hm thrs datums sel k thr l i,
  expresses cs datums sel -> nth_error thrs k = Some thr -> has_number e l i ->
  exists row, nth_error (cls_counts tol hm thrs datums e) k = Some row /\
    let u := cselect w sel in let pass := pass_counts tol thr in
    nth_error row i = Some (MkCounts (countb (v_tp u hm pass l) cs) (countb (v_fp u hm pass l) cs)
                                     (countb (v_fn u hm pass l) cs) (countb (v_tn u hm pass l) cs)).
Proof. intros cs w e Hd Hf He tol hm thrs datums sel k thr l i. exact (fun H => ev_counts cs Hd w e He tol hm thrs datums sel k thr l i Hf H). Qed.
Print Assumptions C78_filtered_counts.
(* the confusion matrix *)
Theorem C78_filtered_confusion :
  forall cs w e, Forall distinct_candidates cs -> cls_evaluator cs w e ->
  forall tol9 hm thrs datums sel k thr,
  expresses cs datums sel -> nth_error thrs k = Some thr ->
  exists M, nth_error (cls_confusion tol9 hm thrs datums e) k = Some M /\
    let u := cselect w sel in let pass := pass_cm tol9 (firstn (S k) thrs) in
    (forall g p i j, has_number e g i -> has_number e p j ->
       cm M (Z.of_nat i) (Z.of_nat j) = countb (fun c => String.eqb (c_groundtruth c) g && smem p (vpositives u hm pass c)) cs) /\
    (forall g i, has_number e g i ->
       cm_unmatched M (Z.of_nat i) = countb (fun c => visible u c && (String.eqb (c_groundtruth c) g
          && match vpositives u hm pass c with [] => true | _ => false end)) cs).
Proof. intros cs w e Hd He. exact (ev_confusion cs Hd w e He). Qed.
Print Assumptions C78_filtered_confusion.
(* the accuracy: correct remaining datums over remaining datums (of the evaluator, not of
   the datum expression) *)
Theorem C78_filtered_accuracy :
  forall cs w e, Forall distinct_candidates cs -> few_labels cs -> cls_evaluator cs w e ->
  forall tol hm thr datums sel, expresses cs datums sel ->
  (cls_accuracy tol hm thr datums e
   == inject_Z (Z.of_nat (countb (fun c => smem (c_groundtruth c) (vpositives (cselect w sel) hm (pass_counts tol thr) c)) cs))
      / inject_Z (Z.of_nat (countb (visible w) cs)))%Q.
Proof. intros cs w e Hd Hf He tol hm thr datums sel. exact (ev_accuracy cs Hd w e He tol hm thr datums sel Hf). Qed.
Print Assumptions C78_filtered_accuracy.
(* the labels and their numbers never change *)
Theorem C78_labels_stay :
  forall cs w e, Forall distinct_candidates cs -> cls_evaluator cs w e ->
  length (ce_labels e) = length (labels_of cs) /\ forall i l, has_number e l i <-> nth_error (labels_of cs) i = Some l.
Proof. intros cs w e Hd He. split; [exact (ev_n cs Hd w e He)|exact (ev_labels cs Hd w e He)]. Qed.
Print Assumptions C78_labels_stay.
Example C78_example :
  cls_evaluator demo cats_view cats_cmem /\ cls_evaluator demo cats_view cats_cfile /\
  Forall distinct_candidates demo /\ few_labels demo /\ expresses demo (fun _ => true) all_kept /\
  has_number cats_cmem "cat" 0 /\ has_number cats_cfile "dog" 1 /\
  (* the winners of u0, u1 and u3 remain; that of u2 was filtered out *)
  cls_counts 0 true [4]%Z (fun _ => true) cats_cmem = [[MkCounts 2 1 0 1; MkCounts 0 0 1 0]] /\
  cls_counts 0 true [4]%Z (fun _ => true) cats_cfile = cls_counts 0 true [4]%Z (fun _ => true) cats_cmem /\
  (cls_accuracy 0 true 4 (fun _ => true) cats_cmem == 1 # 2)%Q /\
  map (fun M => (cm M 0%Z 0%Z, cm M 1%Z 0%Z, cm_unmatched M 1%Z)) (cls_confusion 0 true [4]%Z (fun _ => true) cats_cmem) = [(2, 1, 1)].
Proof.
  split; [exact cats_cmem_ok|]. split; [exact cats_cfile_ok|]. split; [exact demo_distinct|]. split; [exact demo_few|]. split; [apply expresses_all|].
  repeat split; vm_compute; reflexivity.
Qed.

(* ---------------------------------------------------------------- C79 *)
(* Full claim: a filtered evaluator reports, for every label, what an evaluator of the
   input without the filtered candidates reports.  It holds without hardmax, and with
   hardmax when the winners of the remaining datums remain. *)
Theorem C79_reduced_counts_partial :
  forall cs w e e', Forall distinct_candidates cs -> few_labels cs ->
  cls_evaluator cs w e -> cls_evaluator (reduced w cs) all_kept e' ->
  forall tol hm thrs k thr l i i', hm = false \/ winners_kept w cs ->
  nth_error thrs k = Some thr -> has_number e l i -> has_number e' l i' ->
  exists row row' c, nth_error (cls_counts tol hm thrs (fun _ => true) e) k = Some row /\
    nth_error (cls_counts tol hm thrs (fun _ => true) e') k = Some row' /\ nth_error row i = Some c /\ nth_error row' i' = Some c.
Proof. exact reduced_counts. Qed.
Print Assumptions C79_reduced_counts_partial.
Theorem C79_reduced_confusion_partial :
  forall cs w e e', Forall distinct_candidates cs -> cls_evaluator cs w e -> cls_evaluator (reduced w cs) all_kept e' ->
  forall tol9 hm thrs k thr, hm = false \/ winners_kept w cs -> nth_error thrs k = Some thr ->
  exists M M', nth_error (cls_confusion tol9 hm thrs (fun _ => true) e) k = Some M /\
    nth_error (cls_confusion tol9 hm thrs (fun _ => true) e') k = Some M' /\
    (forall g p i j i' j', has_number e g i -> has_number e p j -> has_number e' g i' -> has_number e' p j' ->
       cm M (Z.of_nat i) (Z.of_nat j) = cm M' (Z.of_nat i') (Z.of_nat j')) /\
    (forall g i i', has_number e g i -> has_number e' g i' -> cm_unmatched M (Z.of_nat i) = cm_unmatched M' (Z.of_nat i')).
Proof. exact reduced_confusion. Qed.
Print Assumptions C79_reduced_confusion_partial.
Theorem C79_reduced_accuracy_partial :
  forall cs w e e', Forall distinct_candidates cs -> few_labels cs ->
  cls_evaluator cs w e -> cls_evaluator (reduced w cs) all_kept e' ->
  forall tol hm thr, hm = false \/ winners_kept w cs ->
  (cls_accuracy tol hm thr (fun _ => true) e == cls_accuracy tol hm thr (fun _ => true) e')%Q.
Proof. exact reduced_accuracy. Qed.
Print Assumptions C79_reduced_accuracy_partial.
(* labels of which nothing is left stay listed, with zeros *)
Theorem C79_absent_labels :
  forall cs w e, Forall distinct_candidates cs -> few_labels cs -> cls_evaluator cs w e ->
  forall tol hm thrs k thr l i, nth_error thrs k = Some thr -> has_number e l i -> ~ In l (labels_of (reduced w cs)) ->
  exists row, nth_error (cls_counts tol hm thrs (fun _ => true) e) k = Some row /\ nth_error row i = Some (MkCounts 0 0 0 0).
Proof. exact absent_counts. Qed.
Print Assumptions C79_absent_labels.
(* With hardmax the claim is false: when the winning candidate of a datum is filtered
   out, the runner-up is not promoted. *)
Definition cats_only : list classification := Eval vm_compute in reduced cats_view demo.
Definition only_cats : ceval := Eval vm_compute in cmem cats_only.
Lemma only_cats_ok : cls_evaluator (reduced cats_view demo) all_kept only_cats.
Proof.
  change only_cats with (cmem (reduced cats_view demo)) || (replace only_cats with (cmem (reduced cats_view demo)) by (vm_compute; reflexivity)).
  apply cmem_ok; [apply reduced_accepted, demo_accepted|vm_compute; discriminate].
Qed.
Theorem C79_hardmax_refuted :
  exists cs w e e' c c', Forall distinct_candidates cs /\ few_labels cs /\ cls_evaluator cs w e /\ cls_evaluator (reduced w cs) all_kept e' /\
  has_number e "cat" 0 /\ has_number e' "cat" 0 /\
  cls_counts 0 true [2]%Z (fun _ => true) e = [c] /\ cls_counts 0 true [2]%Z (fun _ => true) e' = [c'] /\
  option_map n_fp (nth_error c 0) = Some 1 /\ option_map n_fp (nth_error c' 0) = Some 2.
Proof.
  exists demo, cats_view, cats_cmem, only_cats. eexists. eexists.
  split; [exact demo_distinct|]. split; [exact demo_few|]. split; [exact cats_cmem_ok|]. split; [exact only_cats_ok|].
  split; [reflexivity|]. split; [reflexivity|]. split; [vm_compute; reflexivity|]. split; [vm_compute; reflexivity|]. split; reflexivity.
Qed.
Print Assumptions C79_hardmax_refuted.
Example C79_example :
  cls_counts 0 false [4]%Z (fun _ => true) cats_cmem = [[MkCounts 2 1 0 1; MkCounts 0 0 1 0]] /\
  cls_counts 0 false [4]%Z (fun _ => true) only_cats = [[MkCounts 2 1 0 1; MkCounts 0 0 1 0]] /\
  winners_kept (crestrict all_kept all_kept all_kept (fun c l => match top c with Some (x, _) => String.eqb x l | None => false end)) demo.
Proof.
  split; [vm_compute; reflexivity|]. split; [vm_compute; reflexivity|].
  intros c [<-|[<-|[<-|[<-|[]]]]] _; vm_compute; reflexivity.
Qed.

(* ---------------------------------------------------------------- C80 *)
(* Evaluator.load of a file based evaluator, in whatever order the directories list
   their files: the same evaluator *)
Theorem C80_load_built :
  forall bs rpf rb h b labels rows curve, batching_ok rb -> wellformed_calls h ->
  fb_finalize bs rpf rb (fold_left (fb_call bs rpf rb) h fb_init) = (b, Done labels) ->
  Permutation rows (f_dir (fb_writer b)) -> Permutation curve (f_dir (fb_curve b)) ->
  cls_load rows curve None = ce_file b labels.
Proof. exact load_built. Qed.
Print Assumptions C80_load_built.
(* of a filtered one: with the labels given *)
Theorem C80_load_filtered_partial :
  forall bs rpf rb e datums gts pds b labels rows curve, batching_ok rb ->
  cls_filter_build bs rpf rb e datums gts pds = (b, Done labels) ->
  Permutation rows (f_dir (fb_writer b)) -> Permutation curve (f_dir (fb_curve b)) ->
  labels = ce_labels e /\ cls_load rows curve (Some labels) = ce_file b labels /\ cls_filter_file bs rpf rb e datums gts pds = Done (ce_file b labels).
Proof. exact load_filtered. Qed.
Print Assumptions C80_load_filtered_partial.
(* an evaluator that was built or filtered can count its labels *)
Theorem C80_label_counts :
  forall cs w e, Forall distinct_candidates cs -> cls_evaluator cs w e ->
  cls_label_counts e = Some (map (fun l => (countb (fun c => visible w c && String.eqb (c_groundtruth c) l) cs,
                                            countb (fun c => smem l (c_predictions (viewed w c))) cs)) (labels_of cs)).
Proof. intros cs w e Hd He. exact (ev_label_counts cs Hd w e He). Qed.
Print Assumptions C80_label_counts.
(* Reloading a filtered cache without giving the labels keeps only the labels present in
   it, under their old numbers: compute_rocauc then raises IndexError. *)
Definition dog_row (r : crow) : bool := String.eqb (r_gt_label r) "dog" && String.eqb (r_pd_label r) "dog".
Theorem C80_load_filtered_refuted :
  exists b labels, Forall accepted demo /\ cls_evaluator demo all_kept (cfile demo) /\
  cls_filter_build 3 2 one_by_one (cfile demo) dog_row None None = (b, Done labels) /\
  cls_label_counts (ce_file b labels) = Some [(0, 0); (2, 2)] /\
  cls_load (f_dir (fb_writer b)) (f_dir (fb_curve b)) None <> ce_file b labels /\
  cls_label_counts (cls_load (f_dir (fb_writer b)) (f_dir (fb_curve b)) None) = None.
Proof.
  eexists. eexists. split; [exact demo_accepted|]. split; [apply cfile_ok; [exact demo_accepted|vm_compute; discriminate]|].
  split; [vm_compute; reflexivity|]. split; [vm_compute; reflexivity|]. split; [vm_compute; discriminate|vm_compute; reflexivity].
Qed.
Print Assumptions C80_load_filtered_refuted.
Example C80_example :
  exists b labels, fb_finalize 3 2 one_by_one (fold_left (fb_call 3 2 one_by_one) [Add demo] fb_init) = (b, Done labels) /\
  1 < length (f_dir (fb_writer b)) /\ 1 < length (f_dir (fb_curve b)) /\
  cls_load (rev (f_dir (fb_writer b))) (rev (f_dir (fb_curve b))) None = ce_file b labels.
Proof. eexists. eexists. split; [vm_compute; reflexivity|]. split; [vm_compute; lia|]. split; [vm_compute; lia|]. vm_compute. reflexivity. Qed.

(* ---------------------------------------------------------------- C81 *)
(* EvaluatorInfo: rows = remaining candidates, labels = labels of the original input,
   datums = datums with a remaining selected candidate *)
Theorem C81_info :
  forall cs w e, Forall distinct_candidates cs -> cls_evaluator cs w e ->
  forall datums sel, expresses cs datums sel ->
  cls_info datums e = (list_sum_nat (map (fun c => countb (w c) (c_predictions c)) cs), length (labels_of cs), countb (visible (cselect w sel)) cs).
Proof. intros cs w e Hd He. exact (ev_info cs Hd w e He). Qed.
Print Assumptions C81_info.
(* filtering raises EmptyCacheError exactly when no candidate remains; it never fails
   otherwise *)
Theorem C81_filter_memory :
  forall cs w sel sg sp e, Forall distinct_candidates cs -> cls_evaluator cs w e ->
  forall datums gts pds, expresses cs datums sel -> opt_expresses cs gts sg -> opt_expresses cs pds sp ->
  forall bs rb,
    (cls_filter_mem bs rb e datums gts pds = EmptyCache /\ forall c l, In c cs -> In l (c_predictions c) -> crestrict w sel sg sp c l = false)
    \/ (exists e', cls_filter_mem bs rb e datums gts pds = Done e' /\ exists c l, In c cs /\ In l (c_predictions c) /\ crestrict w sel sg sp c l = true).
Proof. intros cs w sel sg sp e Hd He datums gts pds H1 H2 H3 bs rb. exact (filter_mem_outcome cs Hd w sel sg sp e He datums gts pds H1 H2 H3 bs rb). Qed.
Print Assumptions C81_filter_memory.
Theorem C81_filter_files :
  forall cs w sel sg sp e, Forall distinct_candidates cs -> cls_evaluator cs w e ->
  forall datums gts pds, expresses cs datums sel -> opt_expresses cs gts sg -> opt_expresses cs pds sp ->
  forall bs rpf rb, batching_ok rb ->
    (cls_filter_file bs rpf rb e datums gts pds = EmptyCache /\ forall c l, In c cs -> In l (c_predictions c) -> crestrict w sel sg sp c l = false)
    \/ (exists e', cls_filter_file bs rpf rb e datums gts pds = Done e' /\ exists c l, In c cs /\ In l (c_predictions c) /\ crestrict w sel sg sp c l = true).
Proof. intros cs w sel sg sp e Hd He datums gts pds H1 H2 H3 bs rpf rb. exact (filter_file_outcome cs Hd w sel sg sp e He datums gts pds H1 H2 H3 bs rpf rb). Qed.
Print Assumptions C81_filter_files.
Example C81_example :
  cls_info (fun _ => true) (cmem demo) = (8, 2, 4) /\ cls_info (fun _ => true) cats_cmem = (4, 2, 4) /\
  cls_info (fun r => String.eqb (r_uid r) "u0") cats_cfile = (4, 2, 1) /\
  cls_filter_mem 10 one_by_one cats_cmem dog_row None None = EmptyCache /\
  cls_filter_file 3 2 one_by_one cats_cfile dog_row None None = EmptyCache.
Proof. repeat split; vm_compute; reflexivity. Qed.

(* ---------------------------------------------------------------- C82 *)
(* the ROCAUC of a label left by the filters is that of the reduced input, under the
   condition of C22 on the files of the curves only ([origin_kept] holds of every evaluator
   in memory) *)
Theorem C82_reduced_rocauc :
  forall cs w e e', Forall distinct_candidates cs -> cls_evaluator cs w e -> cls_evaluator (reduced w cs) all_kept e' ->
  forall l i i', has_number e l i -> has_number e' l i' ->
  (origin_kept i (ce_curve e) /\ origin_kept i' (ce_curve e')) \/ unmixed_top (outcomes l (reduced w cs)) ->
  exists v v', nth_error (cls_rocauc e) i = Some v /\ nth_error (cls_rocauc e') i' = Some v' /\ (v == v')%Q.
Proof. intros cs w e e' Hd He He'. exact (reduced_rocauc cs Hd w e e' He He'). Qed.
Print Assumptions C82_reduced_rocauc.
(* it is the Mann-Whitney statistic of the remaining candidates when the remaining datums
   of the label keep the candidate of their ground truth *)
Theorem C82_filtered_mann_whitney :
  forall cs w e, Forall distinct_candidates cs -> cls_evaluator cs w e ->
  forall l i, let o := outcomes l (reduced w cs) in
  has_number e l i -> origin_kept i (ce_curve e) \/ unmixed_top o -> top_nonzero o -> keeps_truth cs w l ->
  (Z.of_nat (length cs) < 2 ^ 64)%Z -> pos_of o <> [] -> neg_of o <> [] ->
  exists v, nth_error (cls_rocauc e) i = Some v
    /\ (v == inject_Z (twice_mann_whitney o) / (2 * inject_Z (Z.of_nat (length (neg_of o))) * inject_Z (Z.of_nat (length (pos_of o)))))%Q
    /\ (0 <= v <= 1)%Q.
Proof. intros cs w e Hd He l i. exact (covered_rocauc cs Hd w e He l i). Qed.
Print Assumptions C82_filtered_mann_whitney.
(* a label of which nothing is left reports 0, and the mean is scaled accordingly *)
Theorem C82_absent_labels :
  forall cs w e, Forall distinct_candidates cs -> cls_evaluator cs w e ->
  forall l i, has_number e l i -> ~ In l (labels_of (reduced w cs)) ->
  exists v, nth_error (cls_rocauc e) i = Some v /\ (v == 0)%Q.
Proof.
  intros cs w e Hd He l i Hi Hn. apply (absent_rocauc cs Hd w e He l i Hi). left. apply absent_outcomes; [exact (ev_acc cs w e He)|exact Hn].
Qed.
Print Assumptions C82_absent_labels.
Theorem C82_mean_partial :
  forall cs w e e' m m', Forall distinct_candidates cs -> cls_evaluator cs w e -> cls_evaluator (reduced w cs) all_kept e' ->
  (forall l i i', has_number e l i -> has_number e' l i' ->
     (origin_kept i (ce_curve e) /\ origin_kept i' (ce_curve e')) \/ unmixed_top (outcomes l (reduced w cs))) ->
  mean (cls_rocauc e) = Some m -> mean (cls_rocauc e') = Some m' ->
  (m * inject_Z (Z.of_nat (length (ce_labels e))) == m' * inject_Z (Z.of_nat (length (ce_labels e'))))%Q.
Proof. exact reduced_mean. Qed.
Print Assumptions C82_mean_partial.
(* The mean itself differs: the labels that vanished still count. *)
Definition zoo : list classification := demo ++ [MkCls "u4" "bird" ["bird"; "cat"] [8; 2]%Z]%string.
Lemma zoo_distinct : Forall distinct_candidates zoo.
Proof. unfold zoo, demo, distinct_candidates. cbn [app]. repeat (apply Forall_cons || apply Forall_nil); cbn; repeat constructor; cbn; intuition discriminate. Qed.
Lemma zoo_accepted : Forall accepted zoo.
Proof. unfold zoo, demo. cbn [app]. repeat (apply Forall_cons || apply Forall_nil); (split; [discriminate|reflexivity]). Qed.
Definition not_bird_row (r : crow) : bool := negb (String.eqb (r_gt_label r) "bird").
Definition not_bird : cview := fun c _ => negb (String.eqb (c_groundtruth c) "bird").
Lemma not_bird_expresses : expresses zoo not_bird_row not_bird.
Proof.
  intros r d c Hr Hd Hc. unfold not_bird_row, not_bird. f_equal. f_equal.
  assert (H : In (r_datum r, r_gt_label r) (map (fun r => (r_datum r, r_gt_label r)) (concat (writes_of zoo)))) by (apply in_map_iff; eauto).
  rewrite Hd in H. clear Hr Hd. revert H. generalize (r_gt_label r). intros g H. destruct d as [|[|[|[|[|d]]]]]; cbn in Hc; try (destruct d; discriminate); injection Hc as <-; vm_compute in H;
    cbn [c_groundtruth c_uid]; repeat (destruct H as [H|H]; [congruence|]); destruct H.
Qed.
Definition zoo_view : cview := crestrict all_kept not_bird all_kept all_kept.
Definition zoo_mem : ceval := Eval vm_compute in cgot (cls_filter_mem 10 one_by_one (cmem zoo) not_bird_row None None).
Lemma zoo_mem_ok : cls_evaluator zoo zoo_view zoo_mem.
Proof.
  apply (cls_filtered_mem zoo all_kept (cmem zoo) 10 one_by_one not_bird_row None None).
  - apply cmem_ok; [exact zoo_accepted|vm_compute; discriminate].
  - apply not_bird_expresses.
  - apply all_absent.
  - apply all_absent.
  - vm_compute. reflexivity.
Qed.
Theorem C82_mean_refuted :
  exists cs w e e' m m', Forall distinct_candidates cs /\ cls_evaluator cs w e /\ cls_evaluator (reduced w cs) all_kept e' /\
  (exists f f', ce_curve e = [f] /\ ce_curve e' = [f']) /\
  mean (cls_rocauc e) = Some m /\ mean (cls_rocauc e') = Some m' /\ (m == 1 # 2)%Q /\ (m' == 3 # 4)%Q.
Proof.
  exists zoo, zoo_view, zoo_mem, (cmem demo). eexists. eexists.
  split; [exact zoo_distinct|]. split; [exact zoo_mem_ok|].
  split. { replace (reduced zoo_view zoo) with demo by (vm_compute; reflexivity). apply cmem_ok; [exact demo_accepted|vm_compute; discriminate]. }
  split; [eexists; eexists; split; vm_compute; reflexivity|].
  split; [vm_compute; reflexivity|]. split; [vm_compute; reflexivity|]. split; vm_compute; reflexivity.
Qed.
Print Assumptions C82_mean_refuted.

(* the value in general, also for ground truths without their candidate: pairs of the
   remaining candidates over the counts of the remaining datums *)
Theorem C82_filtered_value_partial :
  forall cs w e, Forall distinct_candidates cs -> cls_evaluator cs w e ->
  forall l i, let o := outcomes l (reduced w cs) in has_number e l i -> origin_kept i (ce_curve e) \/ unmixed_top o -> top_nonzero o ->
  let G := Z.of_nat (countb (fun c => visible w c && String.eqb (c_groundtruth c) l) cs) in
  let N := ((Z.of_nat (length o) - G) mod 2 ^ 64)%Z in
  (0 < G)%Z -> (0 < N)%Z ->
  exists v, nth_error (cls_rocauc e) i = Some v /\ (v == inject_Z (twice_mann_whitney o) / (2 * inject_Z N * inject_Z G))%Q.
Proof. intros cs w e Hd He l i. exact (general_rocauc cs Hd w e He l i). Qed.
Print Assumptions C82_filtered_value_partial.
(* Such a value need not be a rate: filtering the candidate "cat" of one of three cats
   out of a perfectly ranked data set reports 4/3 instead of 1. *)
Definition ranked : list classification :=
  [ MkCls "u0" "cat" ["cat"; "dog"] [9; 1]%Z; MkCls "u1" "cat" ["cat"; "dog"] [8; 2]%Z; MkCls "u2" "cat" ["cat"; "dog"] [7; 3]%Z;
    MkCls "u3" "dog" ["cat"; "dog"] [2; 8]%Z; MkCls "u4" "dog" ["cat"; "dog"] [1; 9]%Z ]%string.
Lemma ranked_distinct : Forall distinct_candidates ranked.
Proof. unfold ranked, distinct_candidates. repeat (apply Forall_cons || apply Forall_nil); cbn; repeat constructor; cbn; intuition discriminate. Qed.
Lemma ranked_accepted : Forall accepted ranked.
Proof. unfold ranked. repeat (apply Forall_cons || apply Forall_nil); (split; [discriminate|reflexivity]). Qed.
Definition drop_row (r : crow) : bool := negb (String.eqb (r_uid r) "u2" && String.eqb (r_pd_label r) "cat").
Definition drop_one : cview := fun c l => negb (String.eqb (c_uid c) "u2" && String.eqb l "cat").
Lemma drop_expresses : expresses ranked drop_row drop_one.
Proof.
  intros r d c Hr Hd Hc. unfold drop_row, drop_one. f_equal. f_equal. f_equal.
  assert (H : In (r_datum r, r_uid r) (map (fun r => (r_datum r, r_uid r)) (concat (writes_of ranked)))) by (apply in_map_iff; eauto).
  rewrite Hd in H. clear Hr Hd. revert H. generalize (r_uid r). intros g H. destruct d as [|[|[|[|[|d]]]]]; cbn in Hc; try (destruct d; discriminate); injection Hc as <-; vm_compute in H;
    cbn [c_groundtruth c_uid]; repeat (destruct H as [H|H]; [congruence|]); destruct H.
Qed.
Definition ranked_view : cview := crestrict all_kept all_kept all_kept drop_one.
Definition ranked_mem : ceval := Eval vm_compute in cgot (cls_filter_mem 10 one_by_one (cmem ranked) (fun _ => true) None (Some drop_row)).
Lemma ranked_mem_ok : cls_evaluator ranked ranked_view ranked_mem.
Proof.
  apply (cls_filtered_mem ranked all_kept (cmem ranked) 10 one_by_one (fun _ => true) None (Some drop_row)).
  - apply cmem_ok; [exact ranked_accepted|vm_compute; discriminate].
  - apply expresses_all.
  - apply all_absent.
  - exact drop_expresses.
  - vm_compute. reflexivity.
Qed.
Theorem C82_above_one_refuted :
  exists cs w e v v0, Forall distinct_candidates cs /\ Forall covered cs /\ cls_evaluator cs w e /\ has_number e "cat" 0 /\
  nth_error (cls_rocauc (cmem cs)) 0 = Some v0 /\ (v0 == 1)%Q /\ nth_error (cls_rocauc e) 0 = Some v /\ (v == 4 # 3)%Q.
Proof.
  exists ranked, ranked_view, ranked_mem. eexists. eexists. split; [exact ranked_distinct|].
  split; [unfold ranked, covered; repeat (apply Forall_cons || apply Forall_nil); cbn; auto|].
  split; [exact ranked_mem_ok|]. split; [reflexivity|].
  split; [vm_compute; reflexivity|]. split; [vm_compute; reflexivity|]. split; [vm_compute; reflexivity|vm_compute; reflexivity].
Qed.
Print Assumptions C82_above_one_refuted.
Example C82_example :
  origin_kept 0 (ce_curve cats_cmem) /\ origin_kept 0 (ce_curve cats_cfile) /\ length (ce_curve cats_cfile) = 2 /\
  keeps_truth demo cats_view "cat" /\ outcomes "cat" (reduced cats_view demo) = [(9, true); (6, false); (3, false); (5, true)]%Z /\
  Forall2 Qeq (cls_rocauc cats_cmem) [3 # 4; 0]%Q /\ Forall2 Qeq (cls_rocauc cats_cfile) [3 # 4; 0]%Q /\ Forall2 Qeq (cls_rocauc zoo_mem) [3 # 4; 3 # 4; 0]%Q.
Proof.
  split; [left; eexists; vm_compute; reflexivity|].
  split; [right; intros f [<-|[<-|[]]]; vm_compute; discriminate|].
  split; [reflexivity|].
  split; [intros c [<-|[<-|[<-|[<-|[]]]]] _ E; try discriminate E; vm_compute; auto|].
  repeat split; vm_compute; repeat (constructor; try reflexivity).
Qed.
