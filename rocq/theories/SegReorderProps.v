(* C89-C91: segmentation reports about the same data in another order, and about data
   evaluated in parts.  Vocabulary: SegSpec.v, SegReorderSpec.v; the evaluators that are
   compared may be obtained in different ways (back ends, calls, loading, filters) as
   long as they show the same view.  Model: SegModel.v. *)
From Verif Require Import Prelude Counting CacheModel CacheSpec ClsModel ClsSpec FlowModel DetFlowModel SegModel SegSpec SegMore SegDemo
  SegReorderSpec SegReorderProofs.
From Coq Require Import QArith String.
Local Open Scope string_scope.
Local Open Scope nat_scope.
Local Open Scope list_scope.

(* ---------------------------------------------------------------- C89 *)
Theorem C89_reports : forall ss1 ss2, Permutation ss1 ss2 -> Forall clean ss1 -> countable ss1 ->
  forall v e1 e2 ed1 ed2 sel, obtained ss1 v e1 -> obtained ss2 v e2 -> datum_expr ss1 ed1 sel -> datum_expr ss2 ed2 sel ->
  exists r1 r2, seg_compute e1 ed1 = Some r1 /\ seg_compute e2 ed2 = Some r2 /\ report_alike r1 r2.
Proof. exact seg_reorder. Qed.
Print Assumptions C89_reports.
Definition sback : list segmentation := [img2; img1].
Definition sback_file : seval := get_eval (snd (sfb_finalize None (sfb_run 2 5 [SAdd [img2]; SAdd [img1]]))).
Lemma sback_file_ok : obtained sback all_view sback_file.
Proof. apply (ob_files 2 5 [SAdd [img2]; SAdd [img1]]). vm_compute. reflexivity. Qed.
(* the labels are listed in another order *)
Example C89_example : Permutation sdemo sback /\ Forall clean sdemo /\ countable sdemo /\ obtained sdemo all_view sdemo_mem /\ obtained sback all_view sback_file /\
  option_map (fun r => map fst (sr_iou r)) (seg_compute sdemo_mem None) = Some [Some "cat"; Some "dog"; Some "fox"] /\
  option_map (fun r => map fst (sr_iou r)) (seg_compute sback_file None) = Some [Some "cat"; Some "fox"; Some "dog"] /\
  option_map sr_accuracy (seg_compute sdemo_mem None) = Some (5 # 8)%Q.
Proof.
  split; [apply perm_swap|]. split; [exact sdemo_clean|]. split; [exact sdemo_countable|]. split; [exact sdemo_mem_ok|]. split; [exact sback_file_ok|].
  vm_compute. auto.
Qed.

(* ---------------------------------------------------------------- C90 *)
Theorem C90_order_partial : forall ss1 ss2, Permutation ss1 ss2 -> Forall clean ss1 -> countable ss1 ->
  forall v w e1 e2 ed1 eg1 ep1 ed2 eg2 ep2, obtained ss1 v e1 -> obtained ss2 v e2 ->
  datum_expr ss1 ed1 (v_datum w) -> gt_expr ss1 eg1 (v_gt w) -> pd_expr ss1 ep1 (v_pd w) ->
  datum_expr ss2 ed2 (v_datum w) -> gt_expr ss2 eg2 (v_gt w) -> pd_expr ss2 ep2 (v_pd w) ->
  let i1 := seg_info e1 ed1 eg1 ep1 in let i2 := seg_info e2 ed2 eg2 ep2 in
  si_labels i1 = si_labels i2 /\ si_datums i1 = si_datums i2 /\ si_pixels i1 = si_pixels i2 /\
  si_gt_pixels i1 = si_gt_pixels i2 /\ si_pd_pixels i1 = si_pd_pixels i2.
Proof. exact seg_reorder_info. Qed.
Print Assumptions C90_order_partial.
Theorem C90_parts_partial : forall ss1 ss2, Forall clean (ss1 ++ ss2) -> countable (ss1 ++ ss2) ->
  forall v w e1 e2 e ed1 eg1 ep1 ed2 eg2 ep2 ed eg ep, obtained ss1 v e1 -> obtained ss2 v e2 -> obtained (ss1 ++ ss2) v e ->
  datum_expr ss1 ed1 (v_datum w) -> gt_expr ss1 eg1 (v_gt w) -> pd_expr ss1 ep1 (v_pd w) ->
  datum_expr ss2 ed2 (v_datum w) -> gt_expr ss2 eg2 (v_gt w) -> pd_expr ss2 ep2 (v_pd w) ->
  datum_expr (ss1 ++ ss2) ed (v_datum w) -> gt_expr (ss1 ++ ss2) eg (v_gt w) -> pd_expr (ss1 ++ ss2) ep (v_pd w) ->
  let i1 := seg_info e1 ed1 eg1 ep1 in let i2 := seg_info e2 ed2 eg2 ep2 in let i := seg_info e ed eg ep in
  si_datums i = si_datums i1 + si_datums i2 /\ si_pixels i = (si_pixels i1 + si_pixels i2)%Z /\
  si_gt_pixels i = (si_gt_pixels i1 + si_gt_pixels i2)%Z /\ si_pd_pixels i = (si_pd_pixels i1 + si_pd_pixels i2)%Z.
Proof. exact seg_parts_info. Qed.
Print Assumptions C90_parts_partial.
(* the number of rows depends on the order: an image also gets rows for labels of
   earlier images *)
Definition img3 : segmentation := MkSeg "img3" [m22 "cat" [false; false; false; true] []] [] [2; 2]%Z 4 [].
Lemma two_clean : Forall clean [img1; img3].
Proof. constructor; [exact img1_clean|constructor; [clean_tac 4|constructor]]. Qed.
Theorem C90_rows_refuted : exists ss1 ss2 e1 e2, Permutation ss1 ss2 /\ Forall clean ss1 /\ countable ss1 /\
  obtained ss1 all_view e1 /\ obtained ss2 all_view e2 /\
  si_rows (seg_info e1 None None None) <> si_rows (seg_info e2 None None None).
Proof.
  exists [img1; img3], [img3; img1]. eexists. eexists. split; [apply perm_swap|]. split; [exact two_clean|]. split; [reflexivity|].
  split; [apply (ob_memory 3 [SAdd [img1; img3]]); vm_compute; reflexivity|].
  split; [apply (ob_memory 3 [SAdd [img3; img1]]); vm_compute; reflexivity|]. vm_compute. discriminate.
Qed.
Print Assumptions C90_rows_refuted.
Theorem C90_rows_of_parts_refuted : exists ss1 ss2 e1 e2 e, Forall clean (ss1 ++ ss2) /\ countable (ss1 ++ ss2) /\
  obtained ss1 all_view e1 /\ obtained ss2 all_view e2 /\ obtained (ss1 ++ ss2) all_view e /\
  si_rows (seg_info e None None None) <> si_rows (seg_info e1 None None None) + si_rows (seg_info e2 None None None).
Proof.
  exists [img1], [img2]. eexists. eexists. exists sdemo_mem. split; [exact sdemo_clean|]. split; [exact sdemo_countable|].
  split; [apply (ob_memory 3 [SAdd [img1]]); vm_compute; reflexivity|]. split; [apply (ob_memory 3 [SAdd [img2]]); vm_compute; reflexivity|].
  split; [exact sdemo_mem_ok|]. vm_compute. discriminate.
Qed.
Print Assumptions C90_rows_of_parts_refuted.
Example C90_example : si_gt_pixels (seg_info sdemo_mem None None None) = 4%Z /\ si_gt_pixels (seg_info sback_file None None None) = 4%Z /\
  si_pd_pixels (seg_info sback_file None None (on_pd (String.eqb "fox"))) = 2%Z.
Proof. vm_compute. auto. Qed.

(* ---------------------------------------------------------------- C91 *)
Theorem C91_parts : forall ss1 ss2, Forall clean (ss1 ++ ss2) -> countable (ss1 ++ ss2) ->
  forall v e1 e2 e ed1 ed2 ed sel, obtained ss1 v e1 -> obtained ss2 v e2 -> obtained (ss1 ++ ss2) v e ->
  datum_expr ss1 ed1 sel -> datum_expr ss2 ed2 sel -> datum_expr (ss1 ++ ss2) ed sel ->
  exists r1 r2 r, seg_compute e1 ed1 = Some r1 /\ seg_compute e2 ed2 = Some r2 /\ seg_compute e ed = Some r /\
    (let n1 := inject_Z (si_pixels (seg_info e1 ed1 None None)) in let n2 := inject_Z (si_pixels (seg_info e2 ed2 None None)) in
     sr_accuracy r * (n1 + n2) == sr_accuracy r1 * n1 + sr_accuracy r2 * n2)%Q /\
    (forall f, In f value_lists -> forall l q, In (Some l, q) (f r) ->
       (forall q1 q2, In (Some l, q1) (f r1) -> In (Some l, q2) (f r2) -> lies_between q1 q2 q) /\
       (forall q1, In (Some l, q1) (f r1) -> unlisted l (f r2) -> (q == q1)%Q) /\
       (forall q2, unlisted l (f r1) -> In (Some l, q2) (f r2) -> (q == q2)%Q) /\
       ~ (unlisted l (f r1) /\ unlisted l (f r2))) /\
    (forall a b q q1 q2, cell r a b q -> cell r1 a b q1 -> cell r2 a b q2 -> lies_between q1 q2 q).
Proof. exact seg_parts. Qed.
Print Assumptions C91_parts.
Definition spart1 : seval := get_eval (snd (smb_finalize None (smb_run 3 [SAdd [img1]]))).
Definition spart2 : seval := get_eval (snd (smb_finalize None (smb_run 3 [SAdd [img2]]))).
(* recall of "cat" 1/2 and 0/1, together 1/3 *)
Example C91_example : obtained [img1] all_view spart1 /\ obtained [img2] all_view spart2 /\ obtained ([img1] ++ [img2]) all_view sdemo_mem /\
  option_map (fun r => map (fun x => (fst x, Qred (snd x))) (sr_recall r)) (seg_compute spart1 None) = Some [(Some "cat", 1 # 2); (Some "dog", 1)]%Q /\
  option_map (fun r => map (fun x => (fst x, Qred (snd x))) (sr_recall r)) (seg_compute spart2 None) = Some [(Some "cat", 0); (Some "fox", 0)]%Q /\
  option_map (fun r => map (fun x => (fst x, Qred (snd x))) (sr_recall r)) (seg_compute sdemo_mem None) = Some [(Some "cat", 1 # 3); (Some "dog", 1); (Some "fox", 0)]%Q.
Proof.
  split; [apply (ob_memory 3 [SAdd [img1]]); vm_compute; reflexivity|]. split; [apply (ob_memory 3 [SAdd [img2]]); vm_compute; reflexivity|].
  split; [exact sdemo_mem_ok|]. vm_compute. auto.
Qed.
