(* C143, semantic segmentation: which scores are equal to zero.
   Vocabulary: SegSpec.v, SegPerfectSpec.v. *)
From Verif Require Import Prelude Counting CacheModel CacheSpec ClsModel ClsSpec FlowModel DetFlowModel SegModel SegSpec SegMore SegDemo
  SegPerfectSpec SegPerfectProofs SegZeroProofs.
From Coq Require Import QArith String.
Local Open Scope string_scope.
Local Open Scope nat_scope.
Local Open Scope list_scope.

(* ---------------------------------------------------------------- C143 *)
Theorem C143_seg : forall ss v e ed sel r, Forall clean ss -> countable ss -> obtained ss v e -> datum_expr ss ed sel -> seg_compute e ed = Some r ->
  let u := with_datums v sel in
  let apart l := forall s p, vpixel ss u s p -> ~ (vgt u s p = Some l /\ vpd u s p = Some l) in
  ((sr_accuracy r == 0)%Q <-> forall s p, vpixel ss u s p -> vgt u s p <> vpd u s p) /\
  (forall l q, In (Some l, q) (sr_precision r) -> (q == 0)%Q <-> apart l) /\
  (forall l q, In (Some l, q) (sr_recall r) -> (q == 0)%Q <-> apart l) /\
  (forall l q, In (Some l, q) (sr_f1 r) -> (q == 0)%Q <-> apart l) /\
  (forall l q, In (Some l, q) (sr_iou r) -> (q == 0)%Q <-> apart l).
Proof. intros ss v e ed sel r Hc Hk Ho Hd Hr u. exact (scores_zero ss u _ r (seg_perfect ss v e ed sel r Hc Hk Ho Hd Hr)). Qed.
Print Assumptions C143_seg.
(* "cat" is found on one pixel, "fox" on none *)
Example C143_seg_example : Forall clean sdemo /\ countable sdemo /\ obtained sdemo all_view sdemo_mem /\ datum_expr sdemo None (fun _ => true) /\
  (exists r, seg_compute sdemo_mem None = Some r /\
     map (fun x => (fst x, Qeq_bool (snd x) 0)) (sr_f1 r) = [(Some "cat", false); (Some "dog", false); (Some "fox", true)] /\
     map (fun x => (fst x, Qeq_bool (snd x) 0)) (sr_iou r) = [(Some "cat", false); (Some "dog", false); (Some "fox", true)]).
Proof.
  split; [exact sdemo_clean|]. split; [exact sdemo_countable|]. split; [exact sdemo_mem_ok|]. split; [apply none_datum|].
  eexists; split; [vm_compute; reflexivity|]; split; reflexivity.
Qed.
