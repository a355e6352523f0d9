(* C140, semantic segmentation: every image evaluated n times.
   Vocabulary: RepeatSpec.v ([copies n ss ss'] lists every image of ss n times, in any
   order), SegSpec.v, SegReorderSpec.v. *)
From Verif Require Import Prelude Counting CacheModel CacheSpec ClsModel ClsSpec FlowModel DetFlowModel SegModel SegSpec SegMore SegDemo
  SegReorderSpec SegReorderProofs RepeatSpec RepeatProofs SegRepeatProofs.
From Coq Require Import QArith String.
Local Open Scope string_scope.
Local Open Scope nat_scope.
Local Open Scope list_scope.

(* ---------------------------------------------------------------- C140 *)
Theorem C140_seg_reports : forall n ss ss', 0 < n -> copies n ss ss' ->
  forall v e e' ed ed' sel, Forall clean ss -> countable ss -> countable ss' ->
  obtained ss v e -> obtained ss' v e' -> datum_expr ss ed sel -> datum_expr ss' ed' sel ->
  exists r r', seg_compute e ed = Some r /\ seg_compute e' ed' = Some r' /\ report_alike r r'.
Proof. exact seg_copies. Qed.
Print Assumptions C140_seg_reports.
Theorem C140_seg_info : forall n ss ss', 0 < n -> copies n ss ss' ->
  forall v w e e' ed eg ep ed' eg' ep', Forall clean ss -> countable ss -> countable ss' ->
  obtained ss v e -> obtained ss' v e' ->
  datum_expr ss ed (v_datum w) -> gt_expr ss eg (v_gt w) -> pd_expr ss ep (v_pd w) ->
  datum_expr ss' ed' (v_datum w) -> gt_expr ss' eg' (v_gt w) -> pd_expr ss' ep' (v_pd w) ->
  let i := seg_info e ed eg ep in let i' := seg_info e' ed' eg' ep' in
  si_labels i' = si_labels i /\ si_datums i' = n * si_datums i /\ si_pixels i' = (Z.of_nat n * si_pixels i)%Z /\
  si_gt_pixels i' = (Z.of_nat n * si_gt_pixels i)%Z /\ si_pd_pixels i' = (Z.of_nat n * si_pd_pixels i)%Z.
Proof. exact seg_copies_info. Qed.
Print Assumptions C140_seg_info.
Definition stwice : seval := get_eval (snd (smb_finalize None (smb_run 3 [SAdd (sdemo ++ sdemo)]))).
Example C140_seg_example : copies 2 sdemo (sdemo ++ sdemo) /\ Forall clean sdemo /\ countable sdemo /\ countable (sdemo ++ sdemo) /\
  obtained sdemo all_view sdemo_mem /\ obtained (sdemo ++ sdemo) all_view stwice /\
  option_map (fun r => map (fun x => (fst x, Qred (snd x))) (sr_recall r)) (seg_compute sdemo_mem None) = Some [(Some "cat", 1 # 3); (Some "dog", 1); (Some "fox", 0)]%Q /\
  option_map (fun r => map (fun x => (fst x, Qred (snd x))) (sr_recall r)) (seg_compute stwice None) = Some [(Some "cat", 1 # 3); (Some "dog", 1); (Some "fox", 0)]%Q /\
  si_gt_pixels (seg_info sdemo_mem None None None) = 4%Z /\ si_gt_pixels (seg_info stwice None None None) = 8%Z.
Proof.
  split; [unfold copies; cbn [repeat List.concat]; rewrite app_nil_r; reflexivity|]. split; [exact sdemo_clean|]. split; [exact sdemo_countable|]. split; [reflexivity|].
  split; [exact sdemo_mem_ok|]. split; [apply (ob_memory 3 [SAdd (sdemo ++ sdemo)]); vm_compute; reflexivity|]. vm_compute. auto.
Qed.
