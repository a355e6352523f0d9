(* C145: how the metrics of one label of a segmentation report are related.
   Vocabulary: SegSpec.v. *)
From Verif Require Import Prelude Counting CacheModel CacheSpec ClsModel ClsSpec FlowModel DetFlowModel SegModel SegSpec SegMore SegDemo
  SegPerfectProofs SegRelateProofs.
From Coq Require Import QArith String.
Local Open Scope string_scope.
Local Open Scope nat_scope.
Local Open Scope list_scope.

(* ---------------------------------------------------------------- C145 *)
Theorem C145_relations : forall ss v e ed sel r, Forall clean ss -> countable ss -> obtained ss v e -> datum_expr ss ed sel -> seg_compute e ed = Some r ->
  forall l pr rc f i un_p un_g,
  In (Some l, pr) (sr_precision r) -> In (Some l, rc) (sr_recall r) -> In (Some l, f) (sr_f1 r) -> In (Some l, i) (sr_iou r) ->
  In (Some l, un_p) (sr_unmatched_pd r) -> In (Some l, un_g) (sr_unmatched_gt r) ->
  (f * (1 + i) == 2 * i)%Q /\ (i <= pr)%Q /\ (i <= rc)%Q /\ (i <= f)%Q /\ ((pr <= f <= rc)%Q \/ (rc <= f <= pr)%Q) /\ (pr + un_p <= 1)%Q /\ (rc + un_g <= 1)%Q.
Proof. intros ss v e ed sel r Hc Hk Ho Hd Hr. exact (relations ss (with_datums v sel) _ r (seg_perfect ss v e ed sel r Hc Hk Ho Hd Hr)). Qed.
Print Assumptions C145_relations.
Example C145_example : Forall clean sdemo /\ countable sdemo /\ obtained sdemo all_view sdemo_mem /\ datum_expr sdemo None (fun _ => true) /\
  (exists r, seg_compute sdemo_mem None = Some r /\
     map (fun x => (fst x, Qred (snd x))) (sr_recall r) = [(Some "cat", 1 # 3); (Some "dog", 1); (Some "fox", 0)]%Q /\
     map (fun x => (fst x, Qred (snd x))) (sr_precision r) = [(Some "cat", 1); (Some "dog", 1 # 2); (Some "fox", 0)]%Q /\
     map (fun x => (fst x, Qred (snd x))) (sr_f1 r) = [(Some "cat", 1 # 2); (Some "dog", 2 # 3); (Some "fox", 0)]%Q /\
     map (fun x => (fst x, Qred (snd x))) (sr_iou r) = [(Some "cat", 1 # 3); (Some "dog", 1 # 2); (Some "fox", 0)]%Q).
Proof.
  split; [exact sdemo_clean|]. split; [exact sdemo_countable|]. split; [exact sdemo_mem_ok|]. split; [apply none_datum|].
  eexists; split; [vm_compute; reflexivity|]; repeat split; reflexivity.
Qed.
