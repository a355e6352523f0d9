(* C144: what ROC AUC 1, 0 and 1/2 mean.  Vocabulary: ClsSpec.v, ClsFilterSpec.v. *)
From Verif Require Import Prelude Counting CacheModel CacheSpec ClsModel ClsSpec ClsLabelProofs ClsProofs ClsConfProofs RocModel RocProofs RocMain RocCurve
  FlowModel FlowProofs FlowMore ClsLemmas ClsMore ClsDemo ClsFilterModel ClsFilterSpec ClsFilterProofs ClsFilterCounts ClsFilterMain ClsFilterRoc ClsFilterProps
  RocPerfectProofs.
From Coq Require Import String QArith.
Local Notation length := List.length (only parsing).
Local Open Scope list_scope.

(* ---------------------------------------------------------------- C144 *)
(* [kept]: the remaining datums with their remaining candidates *)
Theorem C144_rocauc :
  forall cs w e, Forall distinct_candidates cs -> cls_evaluator cs w e ->
  forall l i, let kept := reduced w cs in let o := outcomes l kept in
  has_number e l i -> origin_kept i (ce_curve e) \/ unmixed_top o -> top_nonzero o -> keeps_truth cs w l ->
  (Z.of_nat (length cs) < 2 ^ 64)%Z -> pos_of o <> [] -> neg_of o <> [] ->
  exists v, nth_error (cls_rocauc e) i = Some v /\
    ((v == 1)%Q <-> forall c d x y, In c kept -> In d kept -> c_groundtruth c = l -> c_groundtruth d <> l ->
       In (l, x) (candidates c) -> In (l, y) (candidates d) -> (y < x)%Z) /\
    ((v == 0)%Q <-> forall c d x y, In c kept -> In d kept -> c_groundtruth c = l -> c_groundtruth d <> l ->
       In (l, x) (candidates c) -> In (l, y) (candidates d) -> (x < y)%Z) /\
    ((forall c d x y, In c kept -> In d kept -> In (l, x) (candidates c) -> In (l, y) (candidates d) -> x = y) -> (v == 1 # 2)%Q).
Proof. exact roc_extremes. Qed.
Print Assumptions C144_rocauc.
(* "cat" is ranked perfectly, "dog" the wrong way round, "fox" not at all *)
Definition ranked : list classification :=
  [ MkCls "r0" "cat" ["cat"; "dog"; "fox"] [9; 6; 1]%Z;
    MkCls "r1" "dog" ["cat"; "dog"; "fox"] [3; 2; 1]%Z;
    MkCls "r2" "fox" ["cat"; "dog"; "fox"] [1; 5; 1]%Z ]%string.
Lemma ranked_accepted : Forall accepted ranked.
Proof. unfold ranked. repeat (apply Forall_cons || apply Forall_nil); (split; [discriminate|reflexivity]). Qed.
Example C144_example :
  Forall distinct_candidates ranked /\ cls_evaluator ranked all_kept (cmem ranked) /\
  (forall l i, In (l, i) [("cat", 0); ("dog", 1); ("fox", 2)]%string%nat ->
     let o := outcomes l (reduced all_kept ranked) in
     has_number (cmem ranked) l i /\ origin_kept i (ce_curve (cmem ranked)) /\ top_nonzero o /\ keeps_truth ranked all_kept l /\ pos_of o <> [] /\ neg_of o <> []) /\
  Forall2 Qeq (cls_rocauc (cmem ranked)) [1; 0; 1 # 2]%Q.
Proof.
  split; [unfold ranked, distinct_candidates; repeat (apply Forall_cons || apply Forall_nil); cbn; repeat constructor; cbn; intuition discriminate|].
  split; [apply cmem_ok; [exact ranked_accepted|vm_compute; discriminate]|].
  split; [|vm_compute; repeat (constructor; try reflexivity)].
  intros l i [E|[E|[E|[]]]]; injection E as <- <-; cbn zeta; (split; [vm_compute; reflexivity|]); (split; [left; eexists; vm_compute; reflexivity|]);
    (split; [left; eexists; split; [left; reflexivity|vm_compute; reflexivity]|]);
    (split; [intros c [<-|[<-|[<-|[]]]] _ E; try discriminate E; vm_compute; auto|]); split; vm_compute; discriminate.
Qed.
