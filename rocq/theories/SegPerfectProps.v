(* C142, semantic segmentation: which scores are equal to one.
   Vocabulary: SegSpec.v, SegPerfectSpec.v. *)
From Verif Require Import Prelude Counting CacheModel CacheSpec ClsModel ClsSpec FlowModel DetFlowModel SegModel SegSpec SegMore SegDemo
  SegPerfectSpec SegPerfectProofs.
From Coq Require Import QArith String.
Local Open Scope string_scope.
Local Open Scope nat_scope.
Local Open Scope list_scope.

(* ---------------------------------------------------------------- C142 *)
Theorem C142_seg : forall ss v e ed sel r, Forall clean ss -> countable ss -> obtained ss v e -> datum_expr ss ed sel -> seg_compute e ed = Some r ->
  let u := with_datums v sel in
  ((sr_accuracy r == 1)%Q <-> (exists s p, vpixel ss u s p) /\ forall s p, vpixel ss u s p -> vgt u s p = vpd u s p) /\
  (forall l q, In (Some l, q) (sr_precision r) -> (q == 1)%Q <->
     (exists s p, vpixel ss u s p /\ vpd u s p = Some l) /\ forall s p, vpixel ss u s p -> vpd u s p = Some l -> vgt u s p = Some l) /\
  (forall l q, In (Some l, q) (sr_recall r) -> (q == 1)%Q <->
     (exists s p, vpixel ss u s p /\ vgt u s p = Some l) /\ forall s p, vpixel ss u s p -> vgt u s p = Some l -> vpd u s p = Some l) /\
  (forall l q, In (Some l, q) (sr_f1 r) -> (q == 1)%Q <-> alike ss u l) /\
  (forall l q, In (Some l, q) (sr_iou r) -> (q == 1)%Q <-> alike ss u l).
Proof. intros ss v e ed sel r Hc Hk Ho Hd Hr u. exact (scores_one ss u _ r (seg_perfect ss v e ed sel r Hc Hk Ho Hd Hr)). Qed.
Print Assumptions C142_seg.
(* "dog" has recall 1 and precision 1/2 *)
Example C142_seg_example : Forall clean sdemo /\ countable sdemo /\ obtained sdemo all_view sdemo_mem /\ datum_expr sdemo None (fun _ => true) /\
  (exists r, seg_compute sdemo_mem None = Some r /\
     map (fun x => (fst x, Qred (snd x))) (sr_recall r) = [(Some "cat", 1 # 3); (Some "dog", 1); (Some "fox", 0)]%Q /\
     map (fun x => (fst x, Qred (snd x))) (sr_precision r) = [(Some "cat", 1); (Some "dog", 1 # 2); (Some "fox", 0)]%Q) /\
  vpd all_view img1 1 = Some "dog" /\ vgt all_view img1 1 = Some "cat".
Proof.
  split; [exact sdemo_clean|]. split; [exact sdemo_countable|]. split; [exact sdemo_mem_ok|]. split; [apply none_datum|].
  split; [eexists; split; [vm_compute; reflexivity|]; split; reflexivity|]. split; reflexivity.
Qed.
