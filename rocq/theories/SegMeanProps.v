(* C148, semantic segmentation: what a mean IoU of 1 or 0 means.
   Vocabulary: SegSpec.v, SegPerfectSpec.v. *)
From Verif Require Import Prelude Counting CacheModel CacheSpec ClsModel ClsSpec FlowModel DetFlowModel SegModel SegSpec SegMore SegDemo
  SegPerfectSpec SegMeanProofs.
From Coq Require Import QArith String.
Local Open Scope string_scope.
Local Open Scope nat_scope.
Local Open Scope list_scope.

(* ---------------------------------------------------------------- C148 *)
Theorem C148_mean_iou : forall ss v e ed sel r m, Forall clean ss -> countable ss -> obtained ss v e -> datum_expr ss ed sel ->
  seg_compute e ed = Some r -> sr_miou r = Some m ->
  let u := with_datums v sel in
  ((m == 1)%Q <-> forall l, In l (seg_labels ss) -> alike ss u l) /\
  ((m == 0)%Q <-> forall l, In l (seg_labels ss) -> forall s p, vpixel ss u s p -> ~ (vgt u s p = Some l /\ vpd u s p = Some l)) /\
  (forall l, In l (seg_labels ss) -> (forall s p, vpixel ss u s p -> vgt u s p <> Some l) -> (0 <= m)%Q /\ (m < 1)%Q).
Proof. exact mean_iou_extremes. Qed.
Print Assumptions C148_mean_iou.
(* one image with every pixel right, one with every label wrong;
   in [sdemo] the labels "cat", "dog" and "fox" have IoU 1/3, 1/2 and 0 *)
Definition right : segmentation :=
  MkSeg "right" [m22 "cat" [true; true; false; false] []; m22 "dog" [false; false; true; false] []]
                [m22 "cat" [true; true; false; false] []; m22 "dog" [false; false; true; false] []] [2; 2]%Z 4 [].
Definition wrong : segmentation :=
  MkSeg "wrong" [m22 "cat" [true; true; false; false] []] [m22 "dog" [true; true; false; false] []] [2; 2]%Z 4 [].
Definition smem (s : segmentation) : seval := get_eval (snd (smb_finalize None (smb_run 3 [SAdd [s]]))).
Lemma smem_ok s : snd (smb_finalize None (smb_run 3 [SAdd [s]])) = Done (smem s) -> obtained [s] all_view (smem s).
Proof. apply (ob_memory 3 [SAdd [s]]). Qed.
Example C148_mean_iou_example :
  (Forall clean [right] /\ countable [right] /\ obtained [right] all_view (smem right) /\ datum_expr [right] None (fun _ => true) /\
     exists r m, seg_compute (smem right) None = Some r /\ sr_miou r = Some m /\ (m == 1)%Q) /\
  (Forall clean [wrong] /\ countable [wrong] /\ obtained [wrong] all_view (smem wrong) /\ datum_expr [wrong] None (fun _ => true) /\
     exists r m, seg_compute (smem wrong) None = Some r /\ sr_miou r = Some m /\ (m == 0)%Q) /\
  (Forall clean sdemo /\ countable sdemo /\ obtained sdemo all_view sdemo_mem /\ datum_expr sdemo None (fun _ => true) /\
     exists r m, seg_compute sdemo_mem None = Some r /\ sr_miou r = Some m /\ (m == 5 # 18)%Q) /\
  In "fox" (seg_labels sdemo).
Proof.
  split; [|split; [|split]].
  - split; [constructor; [clean_tac 4|constructor]|]. split; [reflexivity|]. split; [apply smem_ok; vm_compute; reflexivity|]. split; [apply none_datum|].
    eexists. eexists. split; [vm_compute; reflexivity|]. split; reflexivity.
  - split; [constructor; [clean_tac 4|constructor]|]. split; [reflexivity|]. split; [apply smem_ok; vm_compute; reflexivity|]. split; [apply none_datum|].
    eexists. eexists. split; [vm_compute; reflexivity|]. split; reflexivity.
  - split; [exact sdemo_clean|]. split; [exact sdemo_countable|]. split; [exact sdemo_mem_ok|]. split; [apply none_datum|].
    eexists. eexists. split; [vm_compute; reflexivity|]. split; reflexivity.
  - vm_compute. auto.
Qed.
(* "fox" is nowhere annotated and keeps the mean below 1 *)
Example C148_absent_example : forall s p, vpixel sdemo (with_datums all_view (fun _ => true)) s p -> vgt (with_datums all_view (fun _ => true)) s p <> Some "fox".
Proof.
  intros s p (Hs & _) E. destruct Hs as [<-|[<-|[]]]; do 5 (destruct p as [|p]; [vm_compute in E; discriminate E|]); vm_compute in E; discriminate E.
Qed.
