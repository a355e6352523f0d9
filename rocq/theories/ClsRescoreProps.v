(* C127: only the order of the scores of a classification matters, where they lie with
   respect to the thresholds, and which of them are zero.
   Vocabulary: ClsFilterSpec.v, ClsReportSpec.v, ClsRescoreSpec.v. *)
From Verif Require Import Prelude Counting CacheModel CacheSpec ClsModel ClsSpec ClsLabelProofs ClsProofs ClsConfProofs RocModel RocProofs RocMain RocCurve
  FlowModel FlowProofs FlowMore ClsLemmas ClsMore ClsDemo ClsFilterModel ClsFilterSpec ClsFilterProofs ClsFilterCounts ClsFilterMain ClsFilterRoc ClsFilterProps
  ClsReportModel ClsReportSpec ClsReportProofs ClsReportMore ClsReportProps ClsRescoreSpec ClsRescoreProofs ClsRescoreMain.
From Coq Require Import String QArith.
Local Notation length := List.length (only parsing).
Local Notation concat := List.concat (only parsing).
Local Open Scope nat_scope.
Local Open Scope list_scope.

(* ---------------------------------------------------------------- C127 *)
(* [e] holds the data, [e'] the data with every score [s] replaced by [f s]; the filters
   and the datum expressions select the same candidates in both *)
Theorem C127_metrics :
  forall f cs, keeps_order f (scores_in cs) -> Forall distinct_candidates cs ->
  forall w w', same_view f cs w w' -> forall e e', cls_evaluator cs w e -> cls_evaluator (map (crescore f) cs) w' e' ->
  forall tol hm thrs thrs' d d' sel sel', few_labels cs -> thrs <> [] ->
  expresses cs d sel -> expresses (map (crescore f) cs) d' sel' -> same_view f cs sel sel' ->
  keeps_near tol f (scores_in cs) -> Forall2 (same_cut f (scores_in cs)) thrs thrs' ->
  exists m m', report_metrics e tol hm thrs d = Some m /\ report_metrics e' tol hm thrs' d' = Some m' /\
    map snd (mt_accuracy m) = map snd (mt_accuracy m') /\
    forall k t t', nth_error thrs k = Some t -> nth_error thrs' k = Some t' ->
      (forall l v, In (l, t, v) (mt_counts m) <-> In (l, t', v) (mt_counts m')) /\
      (forall l v, In (l, t, v) (mt_precision m) <-> In (l, t', v) (mt_precision m')) /\
      (forall l v, In (l, t, v) (mt_recall m) <-> In (l, t', v) (mt_recall m')) /\
      (forall l v, In (l, t, v) (mt_f1 m) <-> In (l, t', v) (mt_f1 m')).
Proof. exact rescored_metrics. Qed.
Print Assumptions C127_metrics.

Theorem C127_confusion :
  forall f cs, keeps_order f (scores_in cs) -> Forall distinct_candidates cs ->
  forall w w', same_view f cs w w' -> forall e e', cls_evaluator cs w e -> cls_evaluator (map (crescore f) cs) w' e' ->
  forall tol9 hm thrs thrs' d d' sel sel', thrs <> [] ->
  expresses cs d sel -> expresses (map (crescore f) cs) d' sel' -> same_view f cs sel sel' ->
  keeps_positive tol9 f (scores_in cs) -> Forall2 (same_cut f (scores_in cs)) thrs thrs' ->
  exists o o', report_confusion e tol9 hm thrs d = Some o /\ report_confusion e' tol9 hm thrs' d' = Some o' /\
    map fst o = thrs /\ map fst o' = thrs' /\
    forall k t1 C1 U1 t2 C2 U2, nth_error o k = Some (t1, (C1, U1)) -> nth_error o' k = Some (t2, (C2, U2)) ->
      (forall g p, cell C1 g p = cell C2 g p) /\ (forall g, sget U1 g = sget U2 g).
Proof. exact rescored_confusion. Qed.
Print Assumptions C127_confusion.

(* no threshold is involved in ROC AUC *)
Theorem C127_rocauc :
  forall f cs, keeps_order f (scores_in cs) -> Forall distinct_candidates cs ->
  forall w w', same_view f cs w w' -> forall e e', cls_evaluator cs w e -> cls_evaluator (map (crescore f) cs) w' e' ->
  keeps_zero f (scores_in cs) ->
  forall l, In l (labels_of cs) -> safe_curve w cs e l -> safe_curve w' (map (crescore f) cs) e' l ->
  exists v v', sget (fst (report_rocauc e)) l = Some (Some v) /\ sget (fst (report_rocauc e')) l = Some (Some v') /\ (v == v')%Q.
Proof. exact rescored_rocauc. Qed.
Print Assumptions C127_rocauc.

Theorem C127_mean_rocauc :
  forall f cs, keeps_order f (scores_in cs) -> Forall distinct_candidates cs ->
  forall w w', same_view f cs w w' -> forall e e', cls_evaluator cs w e -> cls_evaluator (map (crescore f) cs) w' e' ->
  keeps_zero f (scores_in cs) ->
  (forall l, In l (labels_of cs) -> safe_curve w cs e l /\ safe_curve w' (map (crescore f) cs) e' l) ->
  exists m m', snd (report_rocauc e) = Some m /\ snd (report_rocauc e') = Some m' /\ (m == m')%Q.
Proof. exact rescored_mean_rocauc. Qed.
Print Assumptions C127_mean_rocauc.

Definition square (x : Z) : Z := (x * x)%Z.
Definition demo2 : list classification := map (crescore square) demo.
Lemma demo2_accepted : Forall accepted demo2.
Proof. unfold demo2, demo. repeat (apply Forall_cons || apply Forall_nil); (split; [discriminate|reflexivity]). Qed.
Example C127_example :
  keeps_order square (scores_in demo) /\ keeps_zero square (scores_in demo) /\ keeps_near 0 square (scores_in demo) /\
  keeps_positive 0 square (scores_in demo) /\ Forall2 (same_cut square (scores_in demo)) [4; 8]%Z [11; 50]%Z /\
  same_view square demo all_kept all_kept /\
  cls_evaluator demo all_kept (cmem demo) /\ cls_evaluator demo2 all_kept (cfile demo2) /\ Forall distinct_candidates demo /\ few_labels demo /\
  (forall l, safe_curve all_kept demo (cmem demo) l) /\ (forall l, safe_curve all_kept demo2 (cfile demo2) l) /\
  demo2 <> demo.
Proof.
  assert (S : forall x, In x (scores_in demo) -> (1 <= x)%Z).
  { intros x H. cbn in H. intuition (subst; lia). }
  split; [intros x y Hx Hy Hl; apply S in Hx, Hy; unfold square; nia|].
  split; [intros x Hx; apply S in Hx; unfold square; nia|].
  split; [intros x Hx; apply S in Hx; unfold square; nia|].
  split; [intros x Hx; apply S in Hx; unfold square; nia|].
  split.
  { repeat constructor; cbn in H; unfold square; intuition (subst; lia). }
  split; [intros c l _; reflexivity|].
  split; [apply cmem_ok; [exact demo_accepted|vm_compute; discriminate]|].
  split; [apply cfile_ok; [exact demo2_accepted|vm_compute; discriminate]|].
  split; [exact demo_distinct|]. split; [exact demo_few|].
  split; [intros l i _; left; left; eexists; vm_compute; reflexivity|].
  split; [|vm_compute; discriminate].
  intros l i Hi. right.
  assert (Hl : In l (labels_of demo2)).
  { unfold has_number in Hi. apply dict_get_In in Hi. change (labels_of demo2) with (map snd (ce_labels (cfile demo2))). exact (in_map snd _ _ Hi). }
  change (labels_of demo2) with ["cat"; "dog"]%string in Hl.
  unfold unmixed_top. intros s Hs [A B]. destruct Hl as [<-|[<-|[]]].
  - change (outcomes "cat" (reduced all_kept demo2)) with [(81, true); (36, false); (9, false); (25, true)]%Z in *.
    cbn in A, B. intuition congruence.
  - change (outcomes "dog" (reduced all_kept demo2)) with [(1, false); (16, true); (49, true); (25, false)]%Z in *.
    cbn in A, B. intuition congruence.
Qed.
(* the reports of the example, before and after *)
Example C127_values :
  (exists m m', report_metrics (cmem demo) 0 true [4; 8]%Z (fun _ => true) = Some m /\
     report_metrics (cfile demo2) 0 true [11; 50]%Z (fun _ => true) = Some m' /\
     In ("cat", 4, Some (MkCounts 2 1 0 1))%string%Z (mt_counts m) /\ In ("cat", 11, Some (MkCounts 2 1 0 1))%string%Z (mt_counts m')) /\
  (exists a b, sget (fst (report_rocauc (cmem demo))) "cat" = Some (Some a) /\ sget (fst (report_rocauc (cfile demo2))) "cat" = Some (Some b) /\ (a == 3 # 4)%Q /\ (a == b)%Q).
Proof.
  split; do 2 eexists; (split; [vm_compute; reflexivity|]); (split; [vm_compute; reflexivity|]); split; vm_compute; tauto || reflexivity.
Qed.

(* zero is special: a label that gets the score 0 from every datum has the area 0, and
   with every score raised by the same amount it has the area 1/2 *)
Definition flat : list classification :=
  [ MkCls "u0" "cat" ["cat"; "dog"] [0; 4]%Z; MkCls "u1" "dog" ["cat"; "dog"] [0; 6]%Z ]%string.
Theorem C127_zero_matters :
  exists f cs, keeps_order f (scores_in cs) /\ Forall distinct_candidates cs /\
    cls_evaluator cs all_kept (cmem cs) /\ cls_evaluator (map (crescore f) cs) all_kept (cmem (map (crescore f) cs)) /\
    (forall l, safe_curve all_kept cs (cmem cs) l /\ safe_curve all_kept (map (crescore f) cs) (cmem (map (crescore f) cs)) l) /\
    exists a b, sget (fst (report_rocauc (cmem cs))) "cat" = Some (Some a) /\
      sget (fst (report_rocauc (cmem (map (crescore f) cs)))) "cat" = Some (Some b) /\ (a == 0)%Q /\ (b == 1 # 2)%Q.
Proof.
  exists (fun x => x + 1)%Z, flat.
  split; [intros x y _ _ H; lia|].
  split. { unfold flat, distinct_candidates. repeat (apply Forall_cons || apply Forall_nil); cbn; repeat constructor; cbn; intuition discriminate. }
  split. { apply cmem_ok; [|vm_compute; discriminate]. unfold flat. repeat (apply Forall_cons || apply Forall_nil); (split; [discriminate|reflexivity]). }
  split. { apply cmem_ok; [|vm_compute; discriminate]. unfold flat. repeat (apply Forall_cons || apply Forall_nil); (split; [discriminate|reflexivity]). }
  split; [intros l; split; intros i _; left; left; eexists; vm_compute; reflexivity|].
  eexists. eexists. split; [vm_compute; reflexivity|]. split; [vm_compute; reflexivity|]. split; vm_compute; reflexivity.
Qed.
Print Assumptions C127_zero_matters.
