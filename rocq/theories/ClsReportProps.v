(* C83-C85: the classification reports: what they list, that they do not depend on the
   order of the data nor on the storage, and how reports of parts add up.
   Vocabulary: ClsFilterSpec.v, ClsReportSpec.v.  Model: ClsReportModel.v. *)
From Verif Require Import Prelude Counting CacheModel CacheSpec ClsModel ClsSpec ClsLabelProofs ClsProofs ClsConfProofs RocModel RocProofs RocMain RocCurve
  FlowModel FlowProofs FlowMore ClsLemmas ClsMore ClsDemo ClsFilterModel ClsFilterSpec ClsFilterProofs ClsFilterCounts ClsFilterMain ClsFilterRoc ClsFilterProps
  ClsReportModel ClsReportSpec ClsReportProofs ClsReportMore.
From Coq Require Import String QArith Lqa.
Local Notation length := List.length (only parsing).
Local Notation concat := List.concat (only parsing).
Local Open Scope nat_scope.
Local Open Scope list_scope.

(* ---------------------------------------------------------------- C83 *)
(* without thresholds the functions raise; otherwise the five lists of
   compute_precision_recall are as follows: one accuracy per threshold, in order, and for
   each label and threshold exactly one entry with the counts of the data *)
Theorem C83_metrics :
  forall cs w e, Forall distinct_candidates cs -> cls_evaluator cs w e -> few_labels cs ->
  forall tol hm thrs datums sel, expresses cs datums sel ->
  (thrs = [] -> report_metrics e tol hm thrs datums = None) /\
  (thrs <> [] -> exists ls, Permutation ls (labels_of cs) /\ ls = map snd (ce_labels e) /\
    let u := cselect w sel in let c l t := data_counts u hm (pass_counts tol t) cs l in
    report_metrics e tol hm thrs datums = Some (MkMetrics
      (map (fun t => (t, data_accuracy w u hm (pass_counts tol t) cs)) thrs)
      (table_of ls thrs c)
      (table_of ls thrs (fun l t => precision (c l t)))
      (table_of ls thrs (fun l t => recall (c l t)))
      (table_of ls thrs (fun l t => f1 (precision (c l t)) (recall (c l t)))))).
Proof.
  intros cs w e Hd He Hf tol hm thrs datums sel Hs. split; [intros ->; reflexivity|].
  exact (metrics_report cs Hd w e He Hf tol hm thrs datums sel Hs).
Qed.
Print Assumptions C83_metrics.

(* each label and threshold is listed once *)
Theorem C83_listed_once :
  forall cs w e, Forall distinct_candidates cs -> cls_evaluator cs w e -> few_labels cs ->
  forall tol hm thrs datums sel m, expresses cs datums sel -> NoDup thrs -> report_metrics e tol hm thrs datums = Some m ->
  NoDup (map fst (mt_counts m)) /\ length (mt_counts m) = length (labels_of cs) * length thrs /\
  (forall l t, In (l, t) (map fst (mt_counts m)) <-> In l (labels_of cs) /\ In t thrs) /\
  map fst (mt_precision m) = map fst (mt_counts m) /\ map fst (mt_recall m) = map fst (mt_counts m) /\ map fst (mt_f1 m) = map fst (mt_counts m).
Proof. exact listed_once. Qed.
Print Assumptions C83_listed_once.

Theorem C83_ranges :
  forall cs w e, Forall distinct_candidates cs -> cls_evaluator cs w e -> few_labels cs ->
  forall tol hm thrs datums sel m, expresses cs datums sel -> report_metrics e tol hm thrs datums = Some m ->
  (forall l t q, In (l, t, q) (mt_precision m ++ mt_recall m ++ mt_f1 m) -> exists v, q = Some v /\ (0 <= v <= 1)%Q) /\
  (forall t a, In (t, a) (mt_accuracy m) -> (0 <= a)%Q /\ (hm = true -> a <= 1)%Q).
Proof. exact report_ranges. Qed.
Print Assumptions C83_ranges.

(* compute_rocauc lists every label once, with the area of its curve, and their mean *)
Theorem C83_rocauc :
  forall cs w e, Forall distinct_candidates cs -> cls_evaluator cs w e ->
  exists ls, Permutation ls (labels_of cs) /\ ls = map snd (ce_labels e) /\ map fst (fst (report_rocauc e)) = ls /\
  (forall l q, In (l, q) (fst (report_rocauc e)) -> exists i v, has_number e l i /\ q = Some v /\ nth_error (cls_rocauc e) i = Some v) /\
  snd (report_rocauc e) = mean (cls_rocauc e).
Proof. intros cs w e Hd He. exact (rocauc_report cs Hd w e He). Qed.
Print Assumptions C83_rocauc.

(* compute_confusion_matrix: one pair of dictionaries per threshold, in order, with an
   entry for every pair of labels and every label *)
Theorem C83_confusion :
  forall cs w e, Forall distinct_candidates cs -> cls_evaluator cs w e ->
  forall tol9 hm thrs datums sel, expresses cs datums sel ->
  (thrs = [] -> report_confusion e tol9 hm thrs datums = None) /\
  (thrs <> [] -> exists ls, Permutation ls (labels_of cs) /\ ls = map snd (ce_labels e) /\
    exists out, report_confusion e tol9 hm thrs datums = Some out /\ map fst out = thrs /\
    forall k thr, nth_error thrs k = Some thr ->
      let u := cselect w sel in let pass := pass_cm tol9 (firstn (S k) thrs) in
      nth_error out k = Some (thr, (map (fun g => (g, map (fun p => (p, data_cell u hm pass cs g p)) ls)) ls,
                                    map (fun g => (g, data_missed u hm pass cs g)) ls))).
Proof.
  intros cs w e Hd He tol9 hm thrs datums sel Hs. split; [intros ->; reflexivity|].
  exact (confusion_report cs Hd w e He tol9 hm thrs datums sel Hs).
Qed.
Print Assumptions C83_confusion.

Example C83_example :
  cls_evaluator demo all_kept (cmem demo) /\ Forall distinct_candidates demo /\ few_labels demo /\ expresses demo (fun _ => true) all_kept /\
  (exists m, report_metrics (cmem demo) 0 true [4; 8]%Z (fun _ => true) = Some m /\
    mt_counts m = [("cat", 4, Some (MkCounts 2 1 0 1)); ("cat", 8, Some (MkCounts 1 0 1 2)); ("dog", 4, Some (MkCounts 1 0 1 2)); ("dog", 8, Some (MkCounts 0 0 2 2))]%string%Z /\
    Forall2 (fun a b => fst a = fst b /\ (snd a == snd b)%Q) (mt_accuracy m) [(4%Z, 3 # 4); (8%Z, 1 # 4)]%Q) /\
  report_confusion (cmem demo) 0 true [4]%Z (fun _ => true)
  = Some [(4%Z, ([("cat", [("cat", 2); ("dog", 0)]); ("dog", [("cat", 1); ("dog", 1)])], [("cat", 0); ("dog", 0)]))]%string.
Proof.
  split; [apply cmem_ok; [exact demo_accepted|vm_compute; discriminate]|]. split; [exact demo_distinct|]. split; [exact demo_few|].
  split; [apply expresses_all|]. split; [|vm_compute; reflexivity].
  eexists. split; [vm_compute; reflexivity|]. split; [vm_compute; reflexivity|].
  repeat constructor.
Qed.

(* ---------------------------------------------------------------- C84 *)
(* [e1] and [e2] hold the same data added in different orders, in whichever storage *)
Theorem C84_metrics :
  forall cs1 cs2 w e1 e2, Permutation cs1 cs2 -> Forall distinct_candidates cs1 -> cls_evaluator cs1 w e1 -> cls_evaluator cs2 w e2 ->
  forall tol hm thrs d1 d2 sel, few_labels cs1 -> expresses cs1 d1 sel -> expresses cs2 d2 sel -> thrs <> [] ->
  exists m1 m2, report_metrics e1 tol hm thrs d1 = Some m1 /\ report_metrics e2 tol hm thrs d2 = Some m2 /\
    mt_accuracy m1 = mt_accuracy m2 /\ Permutation (mt_counts m1) (mt_counts m2) /\ Permutation (mt_precision m1) (mt_precision m2) /\
    Permutation (mt_recall m1) (mt_recall m2) /\ Permutation (mt_f1 m1) (mt_f1 m2).
Proof. intros cs1 cs2 w e1 e2 HP Hd H1 H2. exact (order_metrics cs1 cs2 HP Hd w e1 e2 H1 H2). Qed.
Print Assumptions C84_metrics.

Theorem C84_confusion :
  forall cs1 cs2 w e1 e2, Permutation cs1 cs2 -> Forall distinct_candidates cs1 -> cls_evaluator cs1 w e1 -> cls_evaluator cs2 w e2 ->
  forall tol9 hm thrs d1 d2 sel, expresses cs1 d1 sel -> expresses cs2 d2 sel -> thrs <> [] ->
  exists o1 o2, report_confusion e1 tol9 hm thrs d1 = Some o1 /\ report_confusion e2 tol9 hm thrs d2 = Some o2 /\
    length o1 = length o2 /\
    forall k t1 C1 U1 t2 C2 U2, nth_error o1 k = Some (t1, (C1, U1)) -> nth_error o2 k = Some (t2, (C2, U2)) ->
      t1 = t2 /\ (forall g p, cell C1 g p = cell C2 g p) /\ (forall g, sget U1 g = sget U2 g).
Proof. intros cs1 cs2 w e1 e2 HP Hd H1 H2. exact (order_confusion cs1 cs2 HP Hd w e1 e2 H1 H2). Qed.
Print Assumptions C84_confusion.

Theorem C84_info :
  forall cs1 cs2 w e1 e2, Permutation cs1 cs2 -> Forall distinct_candidates cs1 -> cls_evaluator cs1 w e1 -> cls_evaluator cs2 w e2 ->
  forall d1 d2 sel, expresses cs1 d1 sel -> expresses cs2 d2 sel -> cls_info d1 e1 = cls_info d2 e2.
Proof. intros cs1 cs2 w e1 e2 HP Hd H1 H2. exact (order_info cs1 cs2 HP Hd w e1 e2 H1 H2). Qed.
Print Assumptions C84_info.

(* ROC AUC: see C22 for the curves cut behind their origin *)
Theorem C84_rocauc :
  forall cs1 cs2 w e1 e2, Permutation cs1 cs2 -> Forall distinct_candidates cs1 -> cls_evaluator cs1 w e1 -> cls_evaluator cs2 w e2 ->
  forall l, In l (labels_of cs1) -> safe_curve w cs1 e1 l -> safe_curve w cs2 e2 l ->
  exists v1 v2, sget (fst (report_rocauc e1)) l = Some (Some v1) /\ sget (fst (report_rocauc e2)) l = Some (Some v2) /\ (v1 == v2)%Q.
Proof. intros cs1 cs2 w e1 e2 HP Hd H1 H2. exact (order_rocauc cs1 cs2 HP Hd w e1 e2 H1 H2). Qed.
Print Assumptions C84_rocauc.

Theorem C84_mean_rocauc :
  forall cs1 cs2 w e1 e2, Permutation cs1 cs2 -> Forall distinct_candidates cs1 -> cls_evaluator cs1 w e1 -> cls_evaluator cs2 w e2 ->
  (forall l, In l (labels_of cs1) -> safe_curve w cs1 e1 l /\ safe_curve w cs2 e2 l) ->
  exists m1 m2, snd (report_rocauc e1) = Some m1 /\ snd (report_rocauc e2) = Some m2 /\ (m1 == m2)%Q.
Proof. intros cs1 cs2 w e1 e2 HP Hd H1 H2. exact (order_mean_rocauc cs1 cs2 HP Hd w e1 e2 H1 H2). Qed.
Print Assumptions C84_mean_rocauc.

Definition zoo' : list classification := rev zoo.
Lemma zoo'_accepted : Forall accepted zoo'.
Proof. apply (accepted_perm zoo zoo' (Permutation_rev zoo) zoo_accepted). Qed.
Example C84_example :
  Permutation zoo zoo' /\ cls_evaluator zoo all_kept (cmem zoo) /\ cls_evaluator zoo' all_kept (cfile zoo') /\ few_labels zoo /\
  map snd (ce_labels (cmem zoo)) <> map snd (ce_labels (cfile zoo')) /\ 1 < length (ce_tables (cfile zoo')) /\
  (forall l, safe_curve all_kept zoo (cmem zoo) l) /\ safe_curve all_kept zoo' (cfile zoo') "cat" /\
  (exists a b, sget (fst (report_rocauc (cmem zoo))) "cat" = Some (Some a) /\ sget (fst (report_rocauc (cfile zoo'))) "cat" = Some (Some b)
     /\ (a == b)%Q /\ (a == 5 # 6)%Q).
Proof.
  split; [apply Permutation_rev|]. split; [apply cmem_ok; [exact zoo_accepted|vm_compute; discriminate]|].
  split; [apply cfile_ok; [exact zoo'_accepted|vm_compute; discriminate]|]. split; [unfold few_labels; vm_compute; discriminate|].
  split; [vm_compute; discriminate|]. split; [vm_compute; lia|].
  split; [intros l i _; left; left; eexists; vm_compute; reflexivity|].
  split.
  - intros i _. right. unfold unmixed_top. intros s Hs [A B].
    change (outcomes "cat" (reduced all_kept zoo')) with [(2, false); (5, true); (3, false); (6, false); (9, true)]%Z in *.
    cbn in A, B. intuition congruence.
  - eexists. eexists. split; [vm_compute; reflexivity|]. split; [vm_compute; reflexivity|]. split; vm_compute; reflexivity.
Qed.

(* ---------------------------------------------------------------- C85 *)
(* [e1], [e2] and [e] hold the first part of the data, the second, and both *)
Theorem C85_counts :
  forall cs1 cs2 w e1 e2 e, Forall distinct_candidates (cs1 ++ cs2) -> few_labels (cs1 ++ cs2) ->
  cls_evaluator cs1 w e1 -> cls_evaluator cs2 w e2 -> cls_evaluator (cs1 ++ cs2) w e ->
  forall d1 d2 d sel, expresses cs1 d1 sel -> expresses cs2 d2 sel -> expresses (cs1 ++ cs2) d sel ->
  forall tol hm thrs m1 m2 m l t,
  report_metrics e1 tol hm thrs d1 = Some m1 -> report_metrics e2 tol hm thrs d2 = Some m2 ->
  report_metrics e tol hm thrs d = Some m -> In t thrs ->
  counts_at (mt_counts m) l t = counts_sum (counts_at (mt_counts m1) l t) (counts_at (mt_counts m2) l t).
Proof.
  intros cs1 cs2 w e1 e2 e Hd Hf H1 H2 He d1 d2 d sel S1 S2 S tol hm thrs m1 m2 m l t.
  exact (additive_counts cs1 cs2 w Hd e1 e2 e H1 H2 He d1 d2 d sel S1 S2 S tol hm thrs m1 m2 m l t Hf).
Qed.
Print Assumptions C85_counts.

Theorem C85_accuracy :
  forall cs1 cs2 w e1 e2 e, Forall distinct_candidates (cs1 ++ cs2) -> few_labels (cs1 ++ cs2) ->
  cls_evaluator cs1 w e1 -> cls_evaluator cs2 w e2 -> cls_evaluator (cs1 ++ cs2) w e ->
  forall d1 d2 d sel, expresses cs1 d1 sel -> expresses cs2 d2 sel -> expresses (cs1 ++ cs2) d sel ->
  forall tol hm thrs m1 m2 m k t1 a1 t2 a2 t a,
  report_metrics e1 tol hm thrs d1 = Some m1 -> report_metrics e2 tol hm thrs d2 = Some m2 -> report_metrics e tol hm thrs d = Some m ->
  nth_error (mt_accuracy m1) k = Some (t1, a1) -> nth_error (mt_accuracy m2) k = Some (t2, a2) -> nth_error (mt_accuracy m) k = Some (t, a) ->
  let n x := inject_Z (Z.of_nat (snd (cls_info (fun _ => true) x))) in
  t1 = t /\ t2 = t /\ (a * n e == a1 * n e1 + a2 * n e2)%Q.
Proof.
  intros cs1 cs2 w e1 e2 e Hd Hf H1 H2 He d1 d2 d sel S1 S2 S tol hm thrs m1 m2 m k t1 a1 t2 a2 t a.
  exact (additive_accuracy cs1 cs2 w Hd e1 e2 e H1 H2 He d1 d2 d sel S1 S2 S tol hm thrs m1 m2 m k t1 a1 t2 a2 t a Hf).
Qed.
Print Assumptions C85_accuracy.

Theorem C85_confusion :
  forall cs1 cs2 w e1 e2 e, Forall distinct_candidates (cs1 ++ cs2) ->
  cls_evaluator cs1 w e1 -> cls_evaluator cs2 w e2 -> cls_evaluator (cs1 ++ cs2) w e ->
  forall d1 d2 d sel, expresses cs1 d1 sel -> expresses cs2 d2 sel -> expresses (cs1 ++ cs2) d sel ->
  forall tol9 hm thrs o1 o2 o k t1 C1 U1 t2 C2 U2 t C U,
  report_confusion e1 tol9 hm thrs d1 = Some o1 -> report_confusion e2 tol9 hm thrs d2 = Some o2 -> report_confusion e tol9 hm thrs d = Some o ->
  nth_error o1 k = Some (t1, (C1, U1)) -> nth_error o2 k = Some (t2, (C2, U2)) -> nth_error o k = Some (t, (C, U)) ->
  t1 = t /\ t2 = t /\ (forall g p, or0 (cell C g p) = or0 (cell C1 g p) + or0 (cell C2 g p)) /\
  (forall g, or0 (sget U g) = or0 (sget U1 g) + or0 (sget U2 g)).
Proof.
  intros cs1 cs2 w e1 e2 e Hd H1 H2 He d1 d2 d sel S1 S2 S.
  exact (additive_confusion cs1 cs2 w Hd e1 e2 e H1 H2 He d1 d2 d sel S1 S2 S).
Qed.
Print Assumptions C85_confusion.

(* rows and datums add up; the number of labels is at least that of each part *)
Theorem C85_info :
  forall cs1 cs2 w e1 e2 e, Forall distinct_candidates (cs1 ++ cs2) ->
  cls_evaluator cs1 w e1 -> cls_evaluator cs2 w e2 -> cls_evaluator (cs1 ++ cs2) w e ->
  forall d1 d2 d sel, expresses cs1 d1 sel -> expresses cs2 d2 sel -> expresses (cs1 ++ cs2) d sel ->
  exists r1 r2 l1 l2 l n1 n2,
    cls_info d1 e1 = (r1, l1, n1) /\ cls_info d2 e2 = (r2, l2, n2) /\ cls_info d e = (r1 + r2, l, n1 + n2) /\ l1 <= l /\ l2 <= l /\ l <= l1 + l2.
Proof.
  intros cs1 cs2 w e1 e2 e Hd H1 H2 He d1 d2 d sel S1 S2 S.
  exact (additive_info cs1 cs2 w Hd e1 e2 e H1 H2 He d1 d2 d sel S1 S2 S).
Qed.
Print Assumptions C85_info.

Definition bird_part : list classification := [MkCls "u4" "bird" ["bird"; "cat"] [8; 2]%Z]%string.
Example C85_example :
  zoo = demo ++ bird_part /\ cls_evaluator demo all_kept (cmem demo) /\ cls_evaluator bird_part all_kept (cfile bird_part) /\
  cls_evaluator zoo all_kept (cmem zoo) /\ Forall distinct_candidates zoo /\ few_labels zoo /\
  (exists m1 m2 m, report_metrics (cmem demo) 0 true [4]%Z (fun _ => true) = Some m1 /\ report_metrics (cfile bird_part) 0 true [4]%Z (fun _ => true) = Some m2 /\
     report_metrics (cmem zoo) 0 true [4]%Z (fun _ => true) = Some m /\
     counts_at (mt_counts m1) "bird" 4 = MkCounts 0 0 0 0 /\ counts_at (mt_counts m2) "bird" 4 = MkCounts 1 0 0 0 /\ counts_at (mt_counts m) "bird" 4 = MkCounts 1 0 0 0 /\
     counts_at (mt_counts m1) "cat" 4 = MkCounts 2 1 0 1 /\ counts_at (mt_counts m2) "cat" 4 = MkCounts 0 0 0 1 /\ counts_at (mt_counts m) "cat" 4 = MkCounts 2 1 0 2) /\
  cls_info (fun _ => true) (cmem zoo) = (10, 3, 5).
Proof.
  split; [reflexivity|]. split; [apply cmem_ok; [exact demo_accepted|vm_compute; discriminate]|].
  split; [apply cfile_ok; [repeat constructor; discriminate|vm_compute; discriminate]|].
  split; [apply cmem_ok; [exact zoo_accepted|vm_compute; discriminate]|]. split; [exact zoo_distinct|].
  split; [unfold few_labels; vm_compute; discriminate|].
  split; [|vm_compute; reflexivity].
  do 3 eexists. do 3 (split; [vm_compute; reflexivity|]). repeat split; vm_compute; reflexivity.
Qed.
