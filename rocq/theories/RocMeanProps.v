(* C148, classification: what a mean ROC AUC of 1 or 0 means.
   Vocabulary: ClsSpec.v, ClsFilterSpec.v. *)
From Verif Require Import Prelude Counting CacheModel CacheSpec ClsModel ClsSpec RocModel RocProofs RocMain RocCurve
  FlowModel FlowMore ClsLemmas ClsMore ClsDemo ClsFilterModel ClsFilterSpec ClsFilterProofs ClsFilterMain ClsFilterRoc ClsFilterProps ClsReportModel
  RocPerfectProofs RocPerfectProps RocMeanProofs.
From Coq Require Import String QArith.
Local Notation length := List.length (only parsing).
Local Open Scope list_scope.

(* ---------------------------------------------------------------- C148 *)
(* as in C144 for every label: positive and negative candidates remain, the highest
   score is not 0 and the curve keeps its origin *)
Theorem C148_mean_rocauc :
  forall cs w e m, Forall distinct_candidates cs -> cls_evaluator cs w e -> (Z.of_nat (length cs) < 2 ^ 64)%Z ->
  let kept := reduced w cs in
  (forall l i, has_number e l i -> let o := outcomes l kept in
     (origin_kept i (ce_curve e) \/ unmixed_top o) /\ top_nonzero o /\ keeps_truth cs w l /\ pos_of o <> [] /\ neg_of o <> []) ->
  snd (report_rocauc e) = Some m ->
  ((m == 1)%Q <-> forall l, In l (labels_of cs) -> forall c d x y, In c kept -> In d kept -> c_groundtruth c = l -> c_groundtruth d <> l ->
     In (l, x) (candidates c) -> In (l, y) (candidates d) -> (y < x)%Z) /\
  ((m == 0)%Q <-> forall l, In l (labels_of cs) -> forall c d x y, In c kept -> In d kept -> c_groundtruth c = l -> c_groundtruth d <> l ->
     In (l, x) (candidates c) -> In (l, y) (candidates d) -> (x < y)%Z).
Proof. exact mean_roc_extremes. Qed.
Print Assumptions C148_mean_rocauc.
Definition told : list classification :=
  [ MkCls "t0" "cat" ["cat"; "dog"] [9; 1]%Z; MkCls "t1" "dog" ["cat"; "dog"] [2; 8]%Z ]%string.
Definition mistold : list classification :=
  [ MkCls "t0" "cat" ["cat"; "dog"] [1; 9]%Z; MkCls "t1" "dog" ["cat"; "dog"] [8; 2]%Z ]%string.
Definition judged (cs : list classification) (e : ceval) : Prop :=
  forall l i, has_number e l i -> let o := outcomes l (reduced all_kept cs) in
    (origin_kept i (ce_curve e) \/ unmixed_top o) /\ top_nonzero o /\ keeps_truth cs all_kept l /\ pos_of o <> [] /\ neg_of o <> [].
Ltac judged_tac cs Hd He :=
  intros l i Hn; apply (ev_labels cs Hd all_kept _ He) in Hn; destruct i as [|[|i]];
  [vm_compute in Hn; injection Hn as <-|vm_compute in Hn; injection Hn as <-|cbn in Hn; destruct i; discriminate Hn];
  cbn zeta; (split; [left; left; eexists; vm_compute; reflexivity|]);
    (split; [left; eexists; split; [left; reflexivity|vm_compute; reflexivity]|]);
    (split; [intros c [<-|[<-|[]]] _ E; try discriminate E; vm_compute; auto|]); split; vm_compute; discriminate.
Lemma told_distinct : Forall distinct_candidates told.
Proof. unfold told, distinct_candidates; repeat (apply Forall_cons || apply Forall_nil); cbn; repeat constructor; cbn; intuition discriminate. Qed.
Lemma told_ok : cls_evaluator told all_kept (cmem told).
Proof. apply cmem_ok; [unfold told; repeat (apply Forall_cons || apply Forall_nil); (split; [discriminate|reflexivity])|vm_compute; discriminate]. Qed.
Example C148_mean_rocauc_one :
  Forall distinct_candidates told /\ cls_evaluator told all_kept (cmem told) /\ judged told (cmem told) /\
  exists m, snd (report_rocauc (cmem told)) = Some m /\ (m == 1)%Q.
Proof.
  split; [exact told_distinct|]. split; [exact told_ok|]. split; [judged_tac told told_distinct told_ok|].
  eexists. split; [vm_compute; reflexivity|reflexivity].
Qed.
Lemma mistold_distinct : Forall distinct_candidates mistold.
Proof. unfold mistold, distinct_candidates; repeat (apply Forall_cons || apply Forall_nil); cbn; repeat constructor; cbn; intuition discriminate. Qed.
Lemma mistold_ok : cls_evaluator mistold all_kept (cmem mistold).
Proof. apply cmem_ok; [unfold mistold; repeat (apply Forall_cons || apply Forall_nil); (split; [discriminate|reflexivity])|vm_compute; discriminate]. Qed.
Example C148_mean_rocauc_zero :
  Forall distinct_candidates mistold /\ cls_evaluator mistold all_kept (cmem mistold) /\ judged mistold (cmem mistold) /\
  exists m, snd (report_rocauc (cmem mistold)) = Some m /\ (m == 0)%Q.
Proof.
  split; [exact mistold_distinct|]. split; [exact mistold_ok|]. split; [judged_tac mistold mistold_distinct mistold_ok|].
  eexists. split; [vm_compute; reflexivity|reflexivity].
Qed.
Example C148_mean_rocauc_between : exists m, snd (report_rocauc (cmem ranked)) = Some m /\ (m == 1 # 2)%Q.
Proof. eexists. split; [vm_compute; reflexivity|reflexivity]. Qed.
