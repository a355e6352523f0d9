(* C141: segmentation with ground truths and predictions exchanged.
   Vocabulary: SegSpec.v, SegReorderSpec.v, SegSwapSpec.v. *)
From Verif Require Import Prelude Counting CacheModel CacheSpec ClsModel ClsSpec FlowModel DetFlowModel SegModel SegSpec SegMore SegDemo
  SegReorderSpec SegReorderProofs SegSwapSpec SegSwapProofs.
From Coq Require Import QArith String.
Local Open Scope string_scope.
Local Open Scope nat_scope.
Local Open Scope list_scope.

(* ---------------------------------------------------------------- C141 *)
Theorem C141_reports : forall ss v v', exchanged_view ss v v' -> Forall clean ss -> countable ss ->
  forall e e' ed ed' sel sel', obtained ss v e -> obtained (map exchange ss) v' e' ->
  datum_expr ss ed sel -> datum_expr (map exchange ss) ed' sel' -> (forall s, In s ss -> sel' (exchange s) = sel s) ->
  exists r r', seg_compute e ed = Some r /\ seg_compute e' ed' = Some r' /\ report_exchanged r r'.
Proof. exact seg_exchange. Qed.
Print Assumptions C141_reports.
Theorem C141_info : forall ss v v' w w', exchanged_view ss v v' -> exchanged_view ss w w' -> Forall clean ss -> countable ss ->
  forall e e' ed eg ep ed' eg' ep', obtained ss v e -> obtained (map exchange ss) v' e' ->
  datum_expr ss ed (v_datum w) -> gt_expr ss eg (v_gt w) -> pd_expr ss ep (v_pd w) ->
  datum_expr (map exchange ss) ed' (v_datum w') -> gt_expr (map exchange ss) eg' (v_gt w') -> pd_expr (map exchange ss) ep' (v_pd w') ->
  let i := seg_info e ed eg ep in let i' := seg_info e' ed' eg' ep' in
  si_labels i' = si_labels i /\ si_datums i' = si_datums i /\ si_pixels i' = si_pixels i /\
  si_gt_pixels i' = si_pd_pixels i /\ si_pd_pixels i' = si_gt_pixels i.
Proof. exact seg_exchange_info. Qed.
Print Assumptions C141_info.
Definition sexchanged : seval := get_eval (snd (sfb_finalize None (sfb_run 2 5 [SAdd (map exchange sdemo)]))).
(* recall of the one is precision of the other *)
Example C141_example : exchanged_view sdemo all_view all_view /\ Forall clean sdemo /\ countable sdemo /\
  obtained sdemo all_view sdemo_mem /\ obtained (map exchange sdemo) all_view sexchanged /\
  option_map (fun r => map (fun x => (fst x, Qred (snd x))) (sr_recall r)) (seg_compute sdemo_mem None) = Some [(Some "cat", 1 # 3); (Some "dog", 1); (Some "fox", 0)]%Q /\
  option_map (fun r => map (fun x => (fst x, Qred (snd x))) (sr_precision r)) (seg_compute sexchanged None) = Some [(Some "cat", 1 # 3); (Some "dog", 1); (Some "fox", 0)]%Q /\
  option_map (fun r => map (fun x => (fst x, Qred (snd x))) (sr_precision r)) (seg_compute sdemo_mem None) <> Some [(Some "cat", 1 # 3); (Some "dog", 1); (Some "fox", 0)]%Q /\
  si_gt_pixels (seg_info sdemo_mem None None None) = 4%Z /\ si_pd_pixels (seg_info sexchanged None None None) = 4%Z /\ si_gt_pixels (seg_info sexchanged None None None) = 5%Z.
Proof.
  split; [intros s _; split; [reflexivity|]; intros l; split; reflexivity|]. split; [exact sdemo_clean|]. split; [exact sdemo_countable|].
  split; [exact sdemo_mem_ok|]. split; [apply (ob_files 2 5 [SAdd (map exchange sdemo)]); vm_compute; reflexivity|].
  split; [vm_compute; reflexivity|]. split; [vm_compute; reflexivity|]. split; [vm_compute; discriminate|]. vm_compute. auto.
Qed.
