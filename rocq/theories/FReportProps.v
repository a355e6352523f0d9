(* C112-C114: the metric values as binary64 numbers.
   Vocabulary: FReportSpec.v, FReportSegSpec.v; [rounded q v]: v is the double nearest to
   q; [nearly k q v]: the relative error is at most k * 2^-53, and v is 0 or 1 exactly
   when q is; [within k q v]: |v - q| <= k * 2^-53; [summation nsum]: nsum adds up in some
   order with one rounding per addition.  Model: FReportModel.v. *)
From Verif Require Import Prelude Counting CacheModel CacheSpec ClsModel ClsSpec RocModel RocProofs RocMain RocCurve FlowModel ClsDemo ClsFilterModel ClsFilterSpec ClsFilterProofs
  ClsFilterRoc ClsFilterProps ClsReportModel ClsReportSpec DetModel DetSpec DetFlowModel DetReportModel DetEnd DetDemo SegModel SegSpec SegDemo
  FloatModel FloatProofs RndProofs FReportModel FReportSpec FReportSegSpec FReportProofs FReportMain FReportCls FReportDet FReportSeg FReportRoc FReportRocMain FReportDemo.
From Coq Require Import String QArith Qabs Lqa Lia Permutation.
Local Notation length := List.length (only parsing).
Local Notation concat := List.concat (only parsing).
Local Open Scope Z_scope.
Local Open Scope list_scope.

(* ---------------------------------------------------------------- C112 *)
(* the classification report in terms of the data: the accuracies, precisions and recalls
   are the exact fractions rounded once, F1 is off by at most 5 half ulps *)
Theorem C112_classification :
  forall cs w e, Forall distinct_candidates cs -> cls_evaluator cs w e -> few_labels cs ->
  forall tol hm thrs datums sel, expresses cs datums sel -> thrs <> [] -> 2 * Z.of_nat (length cs) <= 2 ^ 53 ->
  exists ls f, Permutation ls (labels_of cs) /\ ls = map snd (ce_labels e) /\ report_fmetrics e tol hm thrs datums = Some f /\
  let u := cselect w sel in let pass := pass_counts tol in
  let tp l t := countb (v_tp u hm (pass t) l) cs in let fp l t := countb (v_fp u hm (pass t) l) cs in let fn l t := countb (v_fn u hm (pass t) l) cs in
  (exists g, mt_accuracy f = map (fun t => (t, g t)) thrs /\
     forall t, rounded (share (countb (fun c => smem (c_groundtruth c) (vpositives u hm (pass t) c)) cs) (countb (visible w) cs)) (g t)) /\
  mt_counts f = table_of ls thrs (fun l t => data_counts u hm (pass t) cs l) /\
  ftable ls thrs (fun l t => rounded (share (tp l t) (tp l t + fp l t))) (mt_precision f) /\
  ftable ls thrs (fun l t => rounded (share (tp l t) (tp l t + fn l t))) (mt_recall f) /\
  (2 * Z.of_nat (length cs) <= 1000000000 -> ftable ls thrs (fun l t => nearly 5 (f1_share (tp l t) (fp l t) (fn l t))) (mt_f1 f)).
Proof. intros cs w e Hd He Hf. exact (fmetrics_report cs Hd w e He Hf). Qed.
Print Assumptions C112_classification.

(* detection: precision and recall are the exact ones rounded once, F1 is off by at most
   5 half ulps *)
Theorem C112_detection :
  forall eps unit ds, det_input unit ds -> forall sel datums, det_selects ds datums sel ->
  forall e, 0 <= unit -> det_evaluator eps unit ds e -> few_det_labels ds -> few_annotations ds -> ranked_rows e <= 2 ^ 53 ->
  forall v vi, label_no e v vi -> forall t s, 0 < t -> let l := Z.of_nat vi in
  rounded (rep_precision eps e datums t s l) (frep_precision eps e datums t s l) /\
  rounded (rep_recall eps e datums t s l) (frep_recall eps e datums t s l) /\
  (ranked_rows e <= 1000000000 -> Z.of_nat (rep_gts e datums l) <= 1000000000 ->
   nearly 5 (rep_f1 eps e datums t s l) (frep_f1 eps e datums t s l)).
Proof.
  intros eps unit ds Hin sel datums Hsel e Hu He Hf Ha Hr v vi Hv t s Ht. split; [exact (det_precision_rounded eps datums e Hr vi t s)|].
  split; [exact (det_recall_rounded eps unit ds Hin sel datums Hsel e Hu He Hf Ha v vi Hv t s Ht)|].
  exact (det_f1_nearly eps unit ds Hin sel datums Hsel e Hu He Hf v vi Hv t s Ht).
Qed.
Print Assumptions C112_detection.

(* segmentation: all entries of the report in terms of the pixels *)
Theorem C112_segmentation :
  forall nsum, summation nsum -> forall ss v e ed sel,
  obtained ss v e -> Forall clean ss -> total_pixels ss <= 2 ^ 53 -> Z.of_nat (length (seg_labels ss)) <= 2 ^ 53 -> datum_expr ss ed sel ->
  exists rep, seg_fcompute nsum e ed = Some rep /\ freport_ok ss (with_datums v sel) (seg_labels ss) rep.
Proof. exact fcompute_correct. Qed.
Print Assumptions C112_segmentation.

(* whatever the sizes, a quotient of counts and the three F1 functions lie in [0, 1] *)
Theorem C112_range :
  forall a b c d, (a <= b)%nat -> (c <= d)%nat ->
  (0 <= fdiv a b <= 1)%Q /\ (0 <= ff1 (fdiv a b) (fdiv c d) <= 1)%Q /\ (0 <= fdet_f1 (fdiv a b) (fdiv c d) <= 1)%Q /\
  (0 <= fseg_f1 (fdiv a b) (fdiv c d) <= 1)%Q.
Proof.
  intros a b c d H1 H2. split; [apply fdivz_range; lia|]. destruct (ff1_range (Z.of_nat a) (Z.of_nat b) (Z.of_nat c) (Z.of_nat d)) as (A & B & C); [lia|lia|].
  split; [exact A|]. split; [exact B|exact C].
Qed.
Print Assumptions C112_range.

(* rounding keeps the order: a smaller fraction is not reported as a larger one, and up
   to 2^26 counts different fractions are reported as different numbers *)
Theorem C112_order :
  forall a b c d, (a <= b)%nat -> (0 < b)%nat -> (c <= d)%nat -> (0 < d)%nat ->
  (Z.of_nat b <= 2 ^ 53 -> Z.of_nat d <= 2 ^ 53 -> (a * d <= c * b)%nat -> (fdiv a b <= fdiv c d)%Q) /\
  (Z.of_nat b <= 2 ^ 26 -> Z.of_nat d <= 2 ^ 26 -> ((a * d < c * b)%nat <-> (fdiv a b < fdiv c d)%Q)).
Proof.
  intros a b c d H1 H2 H3 H4. split; [intros; apply fdivz_mono; lia|]. intros B D. split; [intros; apply fdivz_strict; lia|].
  intros H. destruct (Nat.lt_ge_cases (a * d) (c * b)) as [L|L]; [exact L|]. exfalso.
  assert (fdiv c d <= fdiv a b)%Q by (apply fdivz_mono; lia). lra.
Qed.
Print Assumptions C112_order.
(* 1/3 is reported as a double below 1/3; F1 of one third and one half is 0.4 *)
Example C112_example :
  (fdiv 1 3 == 6004799503160661 # 18014398509481984)%Q /\ ~ (fdiv 1 3 == 1 # 3)%Q /\ rounded (1 # 3) (fdiv 1 3) /\
  (ff1 (fdiv 1 3) (fdiv 1 2) == rnd (2 # 5))%Q /\
  (exists f, report_fmetrics (cmem demo) 0 true [4; 8] (fun _ => true) = Some f /\
     nth_error (mt_precision f) 0 = Some ("cat"%string, 4, Some (rnd (2 # 3)))) /\
  (2 * Z.of_nat (length demo) <= 1000000000) /\ ranked_rows ddemo_mem <= 1000000000.
Proof.
  split; [vm_compute; reflexivity|]. split; [vm_compute; discriminate|]. split; [apply (rounded_wd (share 1 3)); [reflexivity|apply share_rounded; cbn; lia]|].
  split; [vm_compute; reflexivity|]. split; [eexists; split; [vm_compute; reflexivity|]; vm_compute; reflexivity|].
  split; vm_compute; discriminate.
Qed.

(* ---------------------------------------------------------------- C113 *)
(* average precision: the float mean of the 101 reported precisions, each the precision
   of C48's curve rounded once *)
Theorem C113_average_precision_partial :
  forall eps (e : deval) datums, ranked_rows e <= 2 ^ 53 -> forall t l,
  Forall2 (fun q v => (v == rnd q)%Q) (rep_fpr_curve eps e datums t l) (frep_pr_curve eps e datums t l) /\
  reports_mean (frep_pr_curve eps e datums t l) (frep_ap eps e datums t l) /\
  within 102 (rep_fap eps e datums t l) (frep_ap eps e datums t l).
Proof.
  intros eps e datums Hr t l. split; [exact (levels_rounded eps e datums Hr t l)|]. split; [exact (proj1 (ap_reports eps e datums Hr t l))|exact (ap_near eps e datums Hr t l)].
Qed.
Print Assumptions C113_average_precision_partial.
(* all averages of the detection report: the reported average is the float mean of the
   reported values, and near the exact average *)
Theorem C113_detection_averages_partial :
  forall nsum, summation nsum ->
  forall eps unit ds, det_input unit ds -> forall sel datums, det_selects ds datums sel ->
  forall e, 0 <= unit -> det_evaluator eps unit ds e -> few_det_labels ds -> few_annotations ds -> ranked_rows e <= 2 ^ 53 ->
  let n := Z.of_nat (length (de_labels e)) in n <= 2 ^ 53 ->
  forall ious scores, Forall (fun t => 0 < t) ious -> let k := Z.of_nat (length ious) in let m := Z.of_nat (length scores) in k <= 2 ^ 53 -> m <= 2 ^ 53 ->
  (forall t, 0 < t -> near_average (102 + n) (rep_fmap eps e datums t) (frep_map nsum eps e datums t) /\
    average_of (map (fun l => Some (frep_ap eps e datums t l)) (label_axis e)) (frep_map nsum eps e datums t)) /\
  (forall l, near_average (102 + k) (DetModel.qmean (map (fun t => rep_fap eps e datums t l) ious)) (frep_ap_over_ious nsum eps e datums ious l) /\
    average_of (map (fun t => Some (frep_ap eps e datums t l)) ious) (frep_ap_over_ious nsum eps e datums ious l)) /\
  (near_average (102 + n + k) (DetModel.qmean (concat (map (fun t => match rep_fmap eps e datums t with Some q => [q] | None => [] end) ious))) (frep_map_over_ious nsum eps e datums ious) /\
    average_of (map (frep_map nsum eps e datums) ious) (frep_map_over_ious nsum eps e datums ious)) /\
  (forall s l, In l (label_axis e) -> near_average (1 + k) (rep_ar eps e datums ious s l) (frep_ar nsum eps e datums ious s l) /\
    average_of (map (fun t => Some (frep_recall eps e datums t s l)) ious) (frep_ar nsum eps e datums ious s l)) /\
  (forall s, near_average (1 + k + n) (rep_mar eps e datums ious s) (frep_mar nsum eps e datums ious s) /\
    average_of (map (frep_ar nsum eps e datums ious s) (label_axis e)) (frep_mar nsum eps e datums ious s)) /\
  (forall l, In l (label_axis e) ->
    near_average (1 + k + m) (DetModel.qmean (concat (map (fun s => match rep_ar eps e datums ious s l with Some q => [q] | None => [] end) scores))) (frep_ar_over_scores nsum eps e datums ious scores l) /\
    average_of (map (fun s => frep_ar nsum eps e datums ious s l) scores) (frep_ar_over_scores nsum eps e datums ious scores l)) /\
  (near_average (1 + k + n + m) (DetModel.qmean (concat (map (fun s => match rep_mar eps e datums ious s with Some q => [q] | None => [] end) scores))) (frep_mar_over_scores nsum eps e datums ious scores) /\
    average_of (map (frep_mar nsum eps e datums ious) scores) (frep_mar_over_scores nsum eps e datums ious scores)).
Proof.
  intros nsum Hs eps unit ds Hin sel datums Hsel e Hu He Hf Ha Hr n Hn ious scores Hi k m Hk Hm.
  split; [intros t Ht; split; [eapply det_map|eapply (det_map nsum Hs eps unit ds)]; eassumption|].
  split; [intros l; eapply det_ap_over_ious; eassumption|].
  split; [eapply det_map_over_ious; eassumption|].
  split; [intros s l Hl; split; [eapply det_ar|eapply (det_ar nsum Hs eps unit ds)]; eassumption|].
  split; [intros s; split; [eapply det_mar|eapply (det_mar nsum Hs eps unit ds)]; eassumption|].
  split; [intros l Hl; eapply det_ar_over_scores; eassumption|].
  eapply det_mar_over_scores; eassumption.
Qed.
Print Assumptions C113_detection_averages_partial.
(* the natural claim that an average lies between the smallest and the largest value is
   false of the reported numbers: recalls of 0.1 at three IoU thresholds are averaged to
   0.10000000000000002 (numpy adds three numbers from left to right) *)
Theorem C113_refuted :
  exists nsum eps unit ds e ious s a, summation nsum /\ det_input unit ds /\ det_evaluator eps unit ds e /\ label_no e "cat"%string 0 /\
  frep_ar nsum eps e (fun _ => true) ious s 0 = Some a /\ ious <> [] /\
  (forall t, In t ious -> (frep_recall eps e (fun _ => true) t s 0 == rnd (1 # 10))%Q) /\ (rnd (1 # 10) < a)%Q /\
  (a == 7205759403792795 # 72057594037927936)%Q.
Proof.
  exists np_sum, 1, one, tenth, tenth_mem, [500000000; 600000000; 700000000], 500000000. eexists.
  split; [exact np_sum_ok|]. split.
  { constructor; [|constructor]. split; [reflexivity|]. split.
    - intros a Ha. cbn [t_gts] in Ha. repeat (destruct Ha as [<-|Ha]; [reflexivity|]). destruct Ha.
    - intros p g. apply iou_of_range; [vm_compute; discriminate|]. constructor; [|constructor]. cbn. unfold one. lia. }
  split; [exact tenth_mem_ok|]. split; [vm_compute; auto|]. split; [vm_compute; reflexivity|]. split; [discriminate|].
  split; [|split; vm_compute; reflexivity]. intros t [<-|[<-|[<-|[]]]]; vm_compute; reflexivity.
Qed.
Print Assumptions C113_refuted.
Example C113_example :
  summation np_sum /\ ranked_rows ddemo_mem <= 2 ^ 53 /\
  (exists v, frep_map np_sum 1 ddemo_mem (fun _ => true) 500000000 = Some v /\ ~ (v == 0)%Q).
Proof.
  split; [exact np_sum_ok|]. split; [vm_compute; discriminate|]. eexists. split; [vm_compute; reflexivity|]. vm_compute. discriminate.
Qed.

(* ---------------------------------------------------------------- C114 *)
(* ROC AUC of a label whose remaining ground truths kept their candidates: 22 half ulps
   per datum from the exact area, wherever the curve is cut into files *)
Theorem C114_rocauc_partial :
  forall nsum, summation nsum -> forall cs, Forall distinct_candidates cs -> forall w e, cls_evaluator cs w e -> Z.of_nat (length cs) < 2 ^ 47 ->
  forall l i, has_number e l i -> keeps_truth cs w l ->
  exists q v, nth_error (cls_rocauc e) i = Some q /\ nth_error (cls_frocauc nsum e) i = Some v /\
    within (22 * (1 + Z.of_nat (length cs))) q v /\ (0 <= v)%Q /\ (0 <= q <= 1)%Q.
Proof.
  intros nsum Hs cs Hd w e He Hsz l i Hi Hk. destruct (float_rocauc nsum Hs cs Hd w e He Hsz l i Hi Hk) as (q & v & A & B & C & D & E).
  exists q, v. split; [exact A|]. split; [exact B|]. split; [exact C|]. split; [apply fl_nonneg; exact D|exact E].
Qed.
Print Assumptions C114_rocauc_partial.
(* in terms of the data: the share of the pairs ranked correctly *)
Theorem C114_pairs_partial :
  forall nsum, summation nsum -> forall cs, Forall distinct_candidates cs -> forall w e, cls_evaluator cs w e -> Z.of_nat (length cs) < 2 ^ 47 ->
  forall l i, let o := outcomes l (reduced w cs) in has_number e l i -> keeps_truth cs w l ->
  origin_kept i (ce_curve e) \/ unmixed_top o -> top_nonzero o -> pos_of o <> [] -> neg_of o <> [] ->
  exists v, nth_error (cls_frocauc nsum e) i = Some v /\
    within (22 * (1 + Z.of_nat (length cs)))
      (inject_Z (twice_mann_whitney o) / (2 * inject_Z (Z.of_nat (length (neg_of o))) * inject_Z (Z.of_nat (length (pos_of o)))))%Q v.
Proof.
  intros nsum Hs cs Hd w e He Hsz l i o Hi Hk Ho Ht Hp Hn. destruct (float_rocauc nsum Hs cs Hd w e He Hsz l i Hi Hk) as (q & v & A & B & C & _ & _).
  destruct (covered_rocauc cs Hd w e He l i Hi Ho Ht Hk ltac:(lia) Hp Hn) as (q' & A' & V & _). rewrite A in A'. injection A' as <-.
  exists v. split; [exact B|]. unfold within in *. eapply Qle_trans; [|exact C]. apply Qle_lteq. right. apply Qabs_wd. fold o in V. rewrite V. reflexivity.
Qed.
Print Assumptions C114_pairs_partial.
Theorem C114_mean_partial :
  forall nsum, summation nsum -> forall cs, Forall distinct_candidates cs -> forall w e, cls_evaluator cs w e -> Z.of_nat (length cs) < 2 ^ 47 ->
  (forall l, In l (labels_of cs) -> keeps_truth cs w l) -> cs <> [] -> Z.of_nat (length (labels_of cs)) < 2 ^ 49 ->
  exists q v, snd (report_rocauc e) = Some q /\ snd (report_frocauc nsum e) = Some v /\
    within (22 * (1 + Z.of_nat (length cs)) + 3 * Z.of_nat (length (labels_of cs)) + 2) q v /\ (0 <= v)%Q.
Proof. intros nsum Hs cs Hd w e He Hsz. exact (float_mrocauc nsum Hs cs Hd w e He Hsz). Qed.
Print Assumptions C114_mean_partial.

(* false of the reported numbers: a perfect ranking is reported as 1 (one cat before six
   dogs: 0.9999999999999999), and the value is at most 1 (35 dogs: 1.0000000000000002) *)
Definition well_formed (c : classification) : bool := match c_predictions c, c_scores c with [_], [_] => true | _, _ => false end.
Lemma well_formed_ok cs : forallb well_formed cs = true -> Forall accepted cs /\ Forall distinct_candidates cs.
Proof.
  intros H. rewrite forallb_forall in H. split; apply Forall_forall; intros c Hc; specialize (H c Hc); unfold well_formed in H; destruct c as [u g p s]; cbn in H;
    destruct p as [|a [|b p]]; try discriminate; destruct s as [|x [|y s]]; try discriminate; [split; [discriminate|reflexivity]|].
  unfold distinct_candidates. cbn. repeat constructor. intros [].
Qed.
Definition six_mem : ceval := Eval vm_compute in cmem six.
Definition many_mem : ceval := Eval vm_compute in cmem many.
Theorem C114_perfect_refuted :
  exists nsum cs e q v, summation nsum /\ Forall distinct_candidates cs /\ cls_evaluator cs all_kept e /\ has_number e "cat"%string 0 /\
  nth_error (cls_rocauc e) 0 = Some q /\ (q == 1)%Q /\ nth_error (cls_frocauc nsum e) 0 = Some v /\ (v == 1 - (1 # 9007199254740992))%Q.
Proof.
  destruct (well_formed_ok six) as [Ha Hd]; [vm_compute; reflexivity|].
  exists np_sum, six, six_mem. eexists. eexists. split; [exact np_sum_ok|]. split; [exact Hd|].
  split; [replace six_mem with (cmem six) by (vm_compute; reflexivity); apply cmem_ok; [exact Ha|vm_compute; discriminate]|].
  split; [vm_compute; reflexivity|]. split; [vm_compute; reflexivity|]. split; [vm_compute; reflexivity|]. split; vm_compute; reflexivity.
Qed.
Print Assumptions C114_perfect_refuted.
Theorem C114_above_one_refuted :
  exists nsum cs e q v, summation nsum /\ Forall distinct_candidates cs /\ cls_evaluator cs all_kept e /\ has_number e "cat"%string 0 /\
  nth_error (cls_rocauc e) 0 = Some q /\ (q == 1)%Q /\ nth_error (cls_frocauc nsum e) 0 = Some v /\ (v == 1 + (1 # 4503599627370496))%Q.
Proof.
  destruct (well_formed_ok many) as [Ha Hd]; [vm_compute; reflexivity|].
  exists np_sum, many, many_mem. eexists. eexists. split; [exact np_sum_ok|]. split; [exact Hd|].
  split; [replace many_mem with (cmem many) by (vm_compute; reflexivity); apply cmem_ok; [exact Ha|vm_compute; discriminate]|].
  split; [vm_compute; reflexivity|]. split; [vm_compute; reflexivity|]. split; [vm_compute; reflexivity|]. split; vm_compute; reflexivity.
Qed.
Print Assumptions C114_above_one_refuted.
Example C114_example :
  keeps_truth demo all_kept "cat"%string /\ has_number (cmem demo) "cat"%string 0 /\ Z.of_nat (length demo) < 2 ^ 47 /\
  (exists v, nth_error (cls_frocauc np_sum (cmem demo)) 0 = Some v /\ (v == 3 # 4)%Q).
Proof.
  split. { intros c Hc _ _. repeat (destruct Hc as [<-|Hc]; [vm_compute; auto|]). destruct Hc. }
  split; [vm_compute; reflexivity|]. split; [vm_compute; reflexivity|]. eexists. split; vm_compute; reflexivity.
Qed.
