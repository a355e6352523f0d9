(* C138: the names of the labels and the uids do not matter to a classification evaluator.
   Vocabulary: ClsFilterSpec.v, ClsReportSpec.v, ClsRenameSpec.v. *)
From Verif Require Import Prelude Counting CacheModel CacheSpec ClsModel ClsSpec ClsLabelProofs ClsProofs ClsConfProofs RocModel RocProofs RocMain RocCurve
  ClsPageModel ClsCellModel ClsCellSpec FlowModel FlowProofs FlowMore ClsLemmas ClsMore ClsDemo ClsFilterModel ClsFilterSpec ClsFilterProofs ClsFilterCounts ClsFilterMain ClsFilterRoc ClsFilterProps
  ClsReportModel ClsReportSpec ClsReportProofs ClsReportMore ClsReportProps ClsRenameSpec ClsRenameProofs ClsRenameCell.
From Coq Require Import String QArith.
Local Notation length := List.length (only parsing).
Local Notation concat := List.concat (only parsing).
Local Open Scope nat_scope.
Local Open Scope list_scope.

(* ---------------------------------------------------------------- C138 *)
(* [e] holds the data, [e'] the data with every label [l] replaced by [f l] and every
   uid [u] by [h u], which need not keep uids apart; the filters and the datum expressions
   select the same candidates in both *)
Theorem C138_cls_metrics :
  forall h f cs, names_apart f (labels_of cs) -> Forall distinct_candidates cs ->
  forall w w', renamed_view h f cs w w' -> forall e e', cls_evaluator cs w e -> cls_evaluator (map (crename h f) cs) w' e' ->
  forall tol hm thrs d d' sel sel', few_labels cs -> thrs <> [] ->
  expresses cs d sel -> expresses (map (crename h f) cs) d' sel' -> renamed_view h f cs sel sel' ->
  exists m m', report_metrics e tol hm thrs d = Some m /\ report_metrics e' tol hm thrs d' = Some m' /\
    mt_accuracy m' = mt_accuracy m /\
    Permutation (mt_counts m') (map (rename_entry f) (mt_counts m)) /\ Permutation (mt_precision m') (map (rename_entry f) (mt_precision m)) /\
    Permutation (mt_recall m') (map (rename_entry f) (mt_recall m)) /\ Permutation (mt_f1 m') (map (rename_entry f) (mt_f1 m)).
Proof. exact renamed_metrics. Qed.
Print Assumptions C138_cls_metrics.

Theorem C138_cls_confusion :
  forall h f cs, names_apart f (labels_of cs) -> Forall distinct_candidates cs ->
  forall w w', renamed_view h f cs w w' -> forall e e', cls_evaluator cs w e -> cls_evaluator (map (crename h f) cs) w' e' ->
  forall tol9 hm thrs d d' sel sel', thrs <> [] ->
  expresses cs d sel -> expresses (map (crename h f) cs) d' sel' -> renamed_view h f cs sel sel' ->
  exists o o', report_confusion e tol9 hm thrs d = Some o /\ report_confusion e' tol9 hm thrs d' = Some o' /\
    map fst o = thrs /\ map fst o' = thrs /\
    forall k t1 C1 U1 t2 C2 U2, nth_error o k = Some (t1, (C1, U1)) -> nth_error o' k = Some (t2, (C2, U2)) ->
      (forall g p, In g (labels_of cs) -> In p (labels_of cs) -> cell C2 (f g) (f p) = cell C1 g p /\ exists n, cell C1 g p = Some n) /\
      (forall g, In g (labels_of cs) -> sget U2 (f g) = sget U1 g /\ exists n, sget U1 g = Some n).
Proof. exact renamed_confusion. Qed.
Print Assumptions C138_cls_confusion.

Theorem C138_cls_rocauc :
  forall h f cs, names_apart f (labels_of cs) -> Forall distinct_candidates cs ->
  forall w w', renamed_view h f cs w w' -> forall e e', cls_evaluator cs w e -> cls_evaluator (map (crename h f) cs) w' e' ->
  (forall l, In l (labels_of cs) -> safe_curve w cs e l -> safe_curve w' (map (crename h f) cs) e' (f l) ->
    exists v v', sget (fst (report_rocauc e)) l = Some (Some v) /\ sget (fst (report_rocauc e')) (f l) = Some (Some v') /\ (v == v')%Q) /\
  ((forall l, In l (labels_of cs) -> safe_curve w cs e l /\ safe_curve w' (map (crename h f) cs) e' (f l)) ->
    exists m m', snd (report_rocauc e) = Some m /\ snd (report_rocauc e') = Some m' /\ (m == m')%Q).
Proof.
  intros h f cs Hf Hd w w' Hw e e' He He'.
  split; [exact (renamed_rocauc h f cs Hf Hd w w' Hw e e' He He')|exact (renamed_mean_rocauc h f cs Hf Hd w w' Hw e e' He He')].
Qed.
Print Assumptions C138_cls_rocauc.

Theorem C138_cls_info :
  forall h f cs, names_apart f (labels_of cs) -> Forall distinct_candidates cs ->
  forall w w', renamed_view h f cs w w' -> forall e e', cls_evaluator cs w e -> cls_evaluator (map (crename h f) cs) w' e' ->
  forall d d' sel sel', expresses cs d sel -> expresses (map (crename h f) cs) d' sel' -> renamed_view h f cs sel sel' ->
  cls_info d' e' = cls_info d e.
Proof. exact renamed_info. Qed.
Print Assumptions C138_cls_info.

(* the examples, page by page: the same entries with the new names *)
Theorem C138_cls_examples :
  forall h f cs, names_apart f (labels_of cs) -> Forall distinct_candidates cs ->
  forall w w', renamed_view h f cs w w' -> forall e e', cls_evaluator cs w e -> cls_evaluator (map (crename h f) cs) w' e' ->
  forall tol9 hm thrs d d' sel sel', expresses cs d sel -> expresses (map (crename h f) cs) d' sel' -> renamed_view h f cs sel sel' ->
  forall limit offset, few_labels cs ->
  cls_examples tol9 hm thrs d' limit offset e' = option_map (map (rename_example h f)) (cls_examples tol9 hm thrs d limit offset e).
Proof. exact renamed_examples. Qed.
Print Assumptions C138_cls_examples.
(* the confusion matrix with examples; every cell exists *)
Theorem C138_cls_matrix :
  forall h f cs, names_apart f (labels_of cs) -> Forall distinct_candidates cs ->
  forall w w', renamed_view h f cs w w' -> forall e e', cls_evaluator cs w e -> cls_evaluator (map (crename h f) cs) w' e' ->
  forall tol9 hm thrs d d' sel sel', expresses cs d sel -> expresses (map (crename h f) cs) d' sel' -> renamed_view h f cs sel sel' -> thrs <> [] ->
  exists o o', cls_confusion_examples tol9 hm thrs d e = Some o /\ cls_confusion_examples tol9 hm thrs d' e' = Some o' /\
    map fst o = thrs /\ map fst o' = thrs /\
    forall k x x', nth_error o k = Some x -> nth_error o' k = Some x' -> exists M M', snd x = Some M /\ snd x' = Some M' /\
      (forall g p, In g (labels_of cs) -> In p (labels_of cs) -> cell_at M' (f g) (f p) = option_map (rename_cell h) (cell_at M g p) /\ exists n, cell_at M g p = Some n) /\
      (forall g, In g (labels_of cs) ->
        ClsCellSpec.sget (cx_unmatched M') (f g) = option_map (rename_unmatched h) (ClsCellSpec.sget (cx_unmatched M) g) /\ exists n, ClsCellSpec.sget (cx_unmatched M) g = Some n).
Proof. exact renamed_matrix. Qed.
Print Assumptions C138_cls_matrix.

(* the names of the demo data exchanged: what was a cat is a dog; and all datums get the same
   uid *)
Definition one_uid (u : string) : string := "same"%string.
Definition exchange (l : string) : string := if String.eqb l "cat" then "dog"%string else if String.eqb l "dog" then "cat"%string else l.
Definition demo_named : list classification := map (crename one_uid exchange) demo.
Lemma demo_named_accepted : Forall accepted demo_named.
Proof. unfold demo_named, demo. repeat (apply Forall_cons || apply Forall_nil); (split; [discriminate|reflexivity]). Qed.
Example C138_cls_example :
  names_apart exchange (labels_of demo) /\ renamed_view one_uid exchange demo all_kept all_kept /\
  cls_evaluator demo all_kept (cmem demo) /\ cls_evaluator demo_named all_kept (cmem demo_named) /\ Forall distinct_candidates demo /\ few_labels demo /\
  (forall l, safe_curve all_kept demo (cmem demo) l) /\ (forall l, safe_curve all_kept demo_named (cmem demo_named) l) /\
  demo_named <> demo.
Proof.
  split.
  { intros a b Ha Hb. change (labels_of demo) with ["cat"; "dog"]%string in Ha, Hb.
    destruct Ha as [<-|[<-|[]]], Hb as [<-|[<-|[]]]; vm_compute; congruence. }
  split; [intros c l _ _; reflexivity|].
  split; [apply cmem_ok; [exact demo_accepted|vm_compute; discriminate]|].
  split; [apply cmem_ok; [exact demo_named_accepted|vm_compute; discriminate]|].
  split; [exact demo_distinct|]. split; [exact demo_few|].
  split; [intros l i _; left; left; eexists; vm_compute; reflexivity|].
  split; [intros l i _; left; left; eexists; vm_compute; reflexivity|].
  vm_compute. discriminate.
Qed.
Example C138_cls_values :
  exists m m', report_metrics (cmem demo) 0 true [4; 8]%Z (fun _ => true) = Some m /\
    report_metrics (cmem demo_named) 0 true [4; 8]%Z (fun _ => true) = Some m' /\
    In ("cat", 4, Some (MkCounts 2 1 0 1))%string%Z (mt_counts m) /\ In ("dog", 4, Some (MkCounts 2 1 0 1))%string%Z (mt_counts m') /\
    ~ In ("dog", 4, Some (MkCounts 2 1 0 1))%string%Z (mt_counts m).
Proof.
  do 2 eexists. split; [vm_compute; reflexivity|]. split; [vm_compute; reflexivity|].
  split; [vm_compute; tauto|]. split; [vm_compute; tauto|]. vm_compute. intuition congruence.
Qed.

Example C138_cls_pages :
  exists a b, cls_examples 0 true [4]%Z (fun _ => true) (Some 1) 0 (cmem demo) = Some [a] /\
    cls_examples 0 true [4]%Z (fun _ => true) (Some 1) 0 (cmem demo_named) = Some [b] /\ nx_tp a = [Some "cat"%string] /\ nx_tp b = [Some "dog"%string].
Proof. do 2 eexists. split; [vm_compute; reflexivity|]. split; [vm_compute; reflexivity|]. split; reflexivity. Qed.

(* two labels that get one name are a different question: here nothing is right before,
   and everything after *)
Definition crossed : list classification :=
  [ MkCls "u0" "cat" ["dog"] [4]%Z; MkCls "u1" "dog" ["cat"] [6]%Z ]%string.
Theorem C138_cls_merging_matters :
  exists h f cs, Forall distinct_candidates cs /\ Forall distinct_candidates (map (crename h f) cs) /\ few_labels cs /\
    cls_evaluator cs all_kept (cmem cs) /\ cls_evaluator (map (crename h f) cs) all_kept (cmem (map (crename h f) cs)) /\
    renamed_view h f cs all_kept all_kept /\ ~ names_apart f (labels_of cs) /\
    exists m m' a b, report_metrics (cmem cs) 0 true [4]%Z (fun _ => true) = Some m /\
      report_metrics (cmem (map (crename h f) cs)) 0 true [4]%Z (fun _ => true) = Some m' /\
      mt_accuracy m = [(4%Z, a)] /\ mt_accuracy m' = [(4%Z, b)] /\ (a == 0)%Q /\ (b == 1)%Q.
Proof.
  exists (fun u => u), (fun _ => "animal"%string), crossed.
  split; [unfold crossed, distinct_candidates; repeat (apply Forall_cons || apply Forall_nil); (constructor; [intros []|constructor])|].
  split; [unfold crossed, distinct_candidates; repeat (apply Forall_cons || apply Forall_nil); (constructor; [intros []|constructor])|].
  split; [vm_compute; discriminate|].
  split; [apply cmem_ok; [unfold crossed; repeat (apply Forall_cons || apply Forall_nil); (split; [discriminate|reflexivity])|vm_compute; discriminate]|].
  split; [apply cmem_ok; [unfold crossed; repeat (apply Forall_cons || apply Forall_nil); (split; [discriminate|reflexivity])|vm_compute; discriminate]|].
  split; [intros c l _ _; reflexivity|].
  split. { intros H. assert (E : "cat"%string = "dog"%string) by (apply H; [vm_compute; tauto|vm_compute; tauto|reflexivity]). discriminate. }
  do 4 eexists. do 4 (split; [vm_compute; reflexivity|]). split; vm_compute; reflexivity.
Qed.
Print Assumptions C138_cls_merging_matters.
