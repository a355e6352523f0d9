(* C138: the names of the labels and the uids do not matter to a segmentation evaluator.
   Vocabulary: SegSpec.v, ClsRenameSpec.v (names_apart), SegRenameSpec.v. *)
From Verif Require Import Prelude Counting CacheModel CacheSpec ClsModel ClsSpec FlowModel DetFlowModel
  SegModel SegSpec SegDemo ClsRenameSpec SegRenameSpec SegRenameProofs.
From Coq Require Import QArith String.
Local Open Scope nat_scope.
Local Open Scope list_scope.

(* ---------------------------------------------------------------- C138 *)
(* [e] holds the data, [e'] the data with every label [l] replaced by [f l] and every
   uid [u] by [h u], which need not keep uids apart; filters and
   expressions select the same in both *)
Theorem C138_seg_report :
  forall h f ss, names_apart f (seg_labels ss) -> forall v v' e e' ed ed' sel sel', Forall clean ss -> countable ss -> renamed_sview h f ss v v' ->
  obtained ss v e -> obtained (map (srename h f) ss) v' e' ->
  datum_expr ss ed sel -> datum_expr (map (srename h f) ss) ed' sel' -> (forall s, In s ss -> sel' (srename h f s) = sel s) ->
  exists r r', seg_compute e ed = Some r /\ seg_compute e' ed' = Some r' /\ renamed_report f r r'.
Proof. exact renamed_seg. Qed.
Print Assumptions C138_seg_report.

Theorem C138_seg_info :
  forall h f ss, names_apart f (seg_labels ss) -> forall v v' e e' w w' ed eg ep ed' eg' ep', Forall clean ss -> countable ss ->
  renamed_sview h f ss v v' -> renamed_sview h f ss w w' -> obtained ss v e -> obtained (map (srename h f) ss) v' e' ->
  datum_expr ss ed (v_datum w) -> gt_expr ss eg (v_gt w) -> pd_expr ss ep (v_pd w) ->
  datum_expr (map (srename h f) ss) ed' (v_datum w') -> gt_expr (map (srename h f) ss) eg' (v_gt w') -> pd_expr (map (srename h f) ss) ep' (v_pd w') ->
  same_summary (seg_info e ed eg ep) (seg_info e' ed' eg' ep').
Proof. exact renamed_seg_info. Qed.
Print Assumptions C138_seg_info.

Definition turned (l : string) : string :=
  if String.eqb l "cat" then "dog"%string else if String.eqb l "dog" then "fox"%string else if String.eqb l "fox" then "cat"%string else l.
Definition one_uid (u : string) : string := "same"%string.
Definition sdemo_named : list segmentation := map (srename one_uid turned) sdemo.
Definition sdemo_named_mem : seval := get_eval (snd (smb_finalize None (smb_run 1 [SAdd sdemo_named]))).
Example C138_seg_example :
  names_apart turned (seg_labels sdemo) /\ Forall clean sdemo /\ countable sdemo /\ renamed_sview one_uid turned sdemo all_view all_view /\
  obtained sdemo all_view sdemo_file /\ obtained sdemo_named all_view sdemo_named_mem /\ seg_labels sdemo = ["cat"; "dog"; "fox"]%string /\
  exists r r', seg_compute sdemo_file None = Some r /\ seg_compute sdemo_named_mem None = Some r' /\
    map fst (sr_precision r') = map Some ["dog"; "fox"; "cat"]%string /\ map snd (sr_precision r') = map snd (sr_precision r).
Proof.
  split.
  { intros a b Ha Hb. change (seg_labels sdemo) with ["cat"; "dog"; "fox"]%string in Ha, Hb.
    destruct Ha as [<-|[<-|[<-|[]]]], Hb as [<-|[<-|[<-|[]]]]; vm_compute; congruence. }
  split; [exact sdemo_clean|]. split; [exact sdemo_countable|]. split; [intros s _; split; [reflexivity|split; reflexivity]|].
  split; [exact sdemo_file_ok|]. split; [apply (ob_memory 1 [SAdd sdemo_named]); vm_compute; reflexivity|]. split; [reflexivity|].
  do 2 eexists. split; [vm_compute; reflexivity|]. split; [vm_compute; reflexivity|]. split; reflexivity.
Qed.
