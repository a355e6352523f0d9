(* C117, C118: the IoU of boxes and masks in binary64.  Vocabulary: FBoxSpec.v, GeoSpec.v,
   DetSpec.v; [rounded q v]: v is q rounded once.  Model: FBoxModel.v. *)
From Verif Require Import Prelude Counting CacheModel ClsModel FlowModel DetModel DetSpec DetFlowModel DetReportModel DetEnd DetDemo
  GeoModel GeoSpec GeoProofs GeoDemo FloatModel FloatProofs FReportModel FReportSpec FBoxModel FBoxSpec FBoxProofs FBoxMain.
From Coq Require Import String QArith Qabs Qround Lqa Lia.
Local Open Scope nat_scope.
Local Open Scope list_scope.

(* ---------------------------------------------------------------- C117 *)
(* for all boxes, well formed or not *)
Theorem C117_range : forall a b, (0 <= fbbox_iou a b <= 1)%Q.
Proof. exact fbbox_range. Qed.
Print Assumptions C117_range.
Theorem C117_symmetric : forall a b, (fbbox_iou a b == fbbox_iou b a)%Q.
Proof. exact fbbox_sym. Qed.
Print Assumptions C117_symmetric.
Theorem C117_disjoint : forall a b, disjoint_interiors a b -> (fbbox_iou a b == 0)%Q.
Proof. exact fbbox_disjoint. Qed.
Print Assumptions C117_disjoint.
(* overlapping boxes never get 0 *)
Theorem C117_overlap : forall a b, double_box a -> double_box b -> overlapping a b -> clear (area a) -> (0 < fbbox_iou a b)%Q.
Proof. exact fbbox_overlap. Qed.
Print Assumptions C117_overlap.
(* a perfect prediction gets exactly 1 *)
Theorem C117_self : forall a, double_box a -> wf_box a -> clear (area a) -> (fbbox_iou a a == 1)%Q.
Proof. exact fbbox_self. Qed.
Print Assumptions C117_self.
(* 17 half ulps of the quotient of the areas *)
Theorem C117_close : forall a b c, double_box a -> double_box b -> is_intersection a b c -> clear (area a + area b - area c) ->
  let q := (area c / (area a + area b - area c))%Q in (Qabs (fbbox_iou a b - q) <= 17 * half_ulp * q)%Q.
Proof. exact fbbox_close. Qed.
Print Assumptions C117_close.
Theorem C117_negligible : forall a b c, double_box a -> double_box b -> is_intersection a b c -> negligible (area a + area b - area c) ->
  (fbbox_iou a b == 0)%Q.
Proof. exact fbbox_negligible. Qed.
Print Assumptions C117_negligible.
(* integer corners: one rounding; a threshold reached exactly is reached by the double *)
Theorem C117_grid : forall a b, grid_box a -> grid_box b -> rounded (bbox_iou a b) (fbbox_iou a b).
Proof. exact fbbox_rounded. Qed.
Print Assumptions C117_grid.
Theorem C117_grid_threshold : forall a b t, grid_box a -> grid_box b -> double t -> (t <= bbox_iou a b)%Q -> (t <= fbbox_iou a b)%Q.
Proof. exact grid_threshold. Qed.
Print Assumptions C117_grid_threshold.
Theorem C117_masks : forall a b, mask_fits a -> mask_fits b -> rounded (mask_iou a b) (fmask_iou a b).
Proof. exact fmask_rounded. Qed.
Print Assumptions C117_masks.
(* a box and the same box as a mask get the same double *)
Theorem C117_drawn : forall h w a b ma mb, (Z.of_nat h <= 2 ^ 25)%Z -> (Z.of_nat w <= 2 ^ 25)%Z -> drawn h w a ma -> drawn h w b mb ->
  (fbbox_iou a b == fmask_iou ma mb)%Q.
Proof. exact drawn_same. Qed.
Print Assumptions C117_drawn.
(* the tables built from doubles are inputs of the theorems about the evaluator; on
   integer corners and on masks they are those of GeoModel.v for a rounding of IoUs *)
Theorem C117_input : forall unit store ds, rounding unit store -> Forall plain_image ds -> det_input unit (fboxes_data store ds).
Proof. exact fboxes_input. Qed.
Print Assumptions C117_input.
Theorem C117_tables : forall unit store, rounding unit store ->
  rounding unit (fun q => store (rnd q)) /\
  (forall ds, Forall grid_image ds -> fboxes_data store ds = boxes_data (fun q => store (rnd q)) ds) /\
  (forall ds, (forall d s, In d ds -> In s (gd_gts d ++ gd_pds d) -> mask_fits (sh_shape s)) ->
     fmasks_data store ds = masks_data (fun q => store (rnd q)) ds).
Proof.
  intros unit store R. split; [exact (round_twice unit store R)|]. split.
  - intros ds. exact (fboxes_grid unit store ds R).
  - intros ds. exact (fmasks_once unit store ds R).
Qed.
Print Assumptions C117_tables.

(* two boxes of a third of each other, at full precision *)
Definition far_gt : box := MkBox (rnd (1 # 10)) (rnd (7 # 10)) (- rnd (2 # 10)) (rnd (3 # 10)).
Definition far_pd : box := MkBox (rnd (4 # 10)) 1 (- rnd (2 # 10)) (rnd (3 # 10)).
Definition far_both : box := MkBox (rnd (4 # 10)) (rnd (7 # 10)) (- rnd (2 # 10)) (rnd (3 # 10)).
Example C117_example :
  double_box far_gt /\ double_box far_pd /\ wf_box far_gt /\ is_intersection far_gt far_pd far_both /\ overlapping far_gt far_pd /\
  clear (area far_gt) /\ clear (area far_gt + area far_pd - area far_both) /\
  (Qabs (fbbox_iou far_gt far_pd - (1 # 3)) < 1 # 1000000000000000)%Q /\ (fbbox_iou far_gt far_pd < bbox_iou far_gt far_pd)%Q /\
  grid_box cat_gt /\ grid_box cat_pd /\ mask_fits cat_gt_mask /\ grid_image cat_image /\ Forall plain_image [cat_image] /\
  map (fun d => t_iou d 0 0) (fboxes_data digits9 [cat_image]) = [333333333%Z].
Proof.
  assert (R : forall q, (0 < q)%Q -> double (rnd q)).
  { intros q P. destruct (rnd_format q P) as (m & s & Hm & E). exists m, s. split; [lia|exact E]. }
  assert (N : forall q, (0 < q)%Q -> double (- rnd q)) by (intros q P; apply double_opp, R, P).
  assert (O : double 1) by (exists 1%Z, 0%Z; split; [lia|reflexivity]).
  split; [repeat split; first [apply R; reflexivity|apply N; reflexivity]|].
  split; [repeat split; first [exact O|apply R; reflexivity|apply N; reflexivity]|].
  split; [split; vm_compute; discriminate|]. split.
  { split; [split; vm_compute; discriminate|]. intros x y. unfold inside, far_both, far_gt, far_pd. cbn [b_xmin b_xmax b_ymin b_ymax].
    assert (L1 : (rnd (1 # 10) <= rnd (4 # 10))%Q) by (vm_compute; discriminate). assert (L2 : (rnd (7 # 10) <= 1)%Q) by (vm_compute; discriminate).
    split; intros ; lra. }
  split; [exists (1 # 2)%Q, 0%Q; repeat split; vm_compute; reflexivity|].
  split; [vm_compute; discriminate|]. split; [vm_compute; discriminate|]. split; [vm_compute; reflexivity|]. split; [vm_compute; reflexivity|].
  assert (G : grid_box cat_gt /\ grid_box cat_pd).
  { split; repeat split; [exists 0%Z|exists 2%Z|exists 0%Z|exists 2%Z|exists 1%Z|exists 3%Z|exists 0%Z|exists 2%Z]; (split; [lia|reflexivity]). }
  split; [apply G|]. split; [apply G|]. split; [vm_compute; discriminate|]. split; [intros s [<-|[<-|[]]]; apply G|]. split.
  - constructor; [|constructor]. split; intros s [<-|[]]; split; reflexivity.
  - vm_compute. reflexivity.
Qed.

(* ---------------------------------------------------------------- C118 *)
(* thresholds: decided as with exact areas unless the IoU is within 17 half ulps *)
Theorem C118_threshold_partial : forall a b c t, double_box a -> double_box b -> is_intersection a b c -> clear (area a + area b - area c) ->
  let q := (area c / (area a + area b - area c))%Q in
  ((t <= q * (1 - 17 * half_ulp))%Q -> (t <= fbbox_iou a b)%Q) /\ ((q * (1 + 17 * half_ulp) < t)%Q -> (fbbox_iou a b < t)%Q).
Proof. exact fbbox_threshold. Qed.
Print Assumptions C118_threshold_partial.
(* shifts, reflections and the exchange of the axes change nothing, if the corners are
   doubles before and after *)
Theorem C118_move_partial : forall f, move f -> forall a b, double_box a -> double_box b -> double_box (f a) -> double_box (f b) ->
  (fbbox_iou (f a) (f b) == fbbox_iou a b)%Q.
Proof. exact fbbox_move. Qed.
Print Assumptions C118_move_partial.
(* scaling by a power of two *)
Theorem C118_scale_partial : forall e a b, double_box a -> double_box b -> wf_box a -> wf_box b ->
  clear (area a) -> clear (pow2 e * pow2 e * area a) ->
  (fbbox_iou (scale (pow2 e) a) (scale (pow2 e) b) == fbbox_iou a b)%Q.
Proof. exact fbbox_pow2. Qed.
Print Assumptions C118_scale_partial.
(* an IoU of 1 is nearly a perfect prediction *)
Theorem C118_one_partial : forall a b, double_box a -> double_box b -> clear (area a) -> (fbbox_iou a b == 1)%Q ->
  exists c, is_intersection a b c /\ ((area a + area b - area c) * (1 - 17 * half_ulp) <= area c)%Q.
Proof. exact fbbox_one. Qed.
Print Assumptions C118_one_partial.

(* the witnesses: two boxes on the grid of IoU 1/2, scaled *)
Definition zoom : Q := 837469417 # 2048.
Definition half_gt : box := MkBox 0 3 0 7.
Definition half_pd : box := MkBox 1 4 0 7.
Definition one_image (a b : box) : gdet box :=
  MkGDet "img0"%string [MkShaped (gt "a" "cat") a] [MkShaped (pd "x" "cat" 900000000000000000) b].
Definition unit60 : Z := 2 ^ 60.
Definition digits60 (q : Q) : Z := Qfloor (q * inject_Z unit60).
Lemma digits60_ok : rounding unit60 digits60.
Proof. split; [|split; reflexivity]. intros a b H. apply Qfloor_resp_le. apply Qmult_le_compat_r; [exact H|discriminate]. Qed.
Definition eps60 : Z := 1152921505.
Definition feval (ds : list (gdet box)) : deval := get_eval (mem_eval eps60 unit60 4 singles [fboxes_data digits60 ds]).

(* the same picture, scaled, with corners that are doubles: the IoU is 1/2 before and
   after, and at the threshold 1/2 the prediction is a true positive or not *)
Theorem C118_scale_refuted : exists c a b, (0 < c)%Q /\ double_box a /\ double_box b /\ double_box (scale c a) /\ double_box (scale c b) /\
  wf_box a /\ wf_box b /\ (1 <= area a)%Q /\ (1 <= area (scale c a))%Q /\
  (bbox_iou a b == 1 # 2)%Q /\ (bbox_iou (scale c a) (scale c b) == 1 # 2)%Q /\
  (fbbox_iou a b == 1 # 2)%Q /\ (fbbox_iou (scale c a) (scale c b) < 1 # 2)%Q.
Proof.
  assert (D : forall k e, (Z.abs k <= 2 ^ 53)%Z -> forall q, (q == inject_Z k * pow2 e)%Q -> double q) by (intros k e H q E; exists k, e; auto).
  exists zoom, half_gt, half_pd. split; [reflexivity|].
  split; [repeat split; [apply (D 0 0)%Z|apply (D 3 0)%Z|apply (D 0 0)%Z|apply (D 7 0)%Z]; first [lia|vm_compute; reflexivity]|].
  split; [repeat split; [apply (D 1 0)%Z|apply (D 4 0)%Z|apply (D 0 0)%Z|apply (D 7 0)%Z]; first [lia|vm_compute; reflexivity]|].
  split; [repeat split; [apply (D 0 0)%Z|apply (D (3 * 837469417) (-11))%Z|apply (D 0 0)%Z|apply (D (7 * 837469417) (-11))%Z]; first [lia|vm_compute; reflexivity]|].
  split; [repeat split; [apply (D 837469417 (-11))%Z|apply (D (4 * 837469417) (-11))%Z|apply (D 0 0)%Z|apply (D (7 * 837469417) (-11))%Z]; first [lia|vm_compute; reflexivity]|].
  split; [split; vm_compute; discriminate|]. split; [split; vm_compute; discriminate|]. split; [vm_compute; discriminate|]. split; [vm_compute; discriminate|].
  repeat split; vm_compute; reflexivity.
Qed.
Print Assumptions C118_scale_refuted.
Theorem C118_threshold_refuted : exists unit store eps t s c a b e e', rounding unit store /\ (0 < c)%Q /\ t = store (1 # 2)%Q /\
  (bbox_iou a b == 1 # 2)%Q /\ (bbox_iou (scale c a) (scale c b) == 1 # 2)%Q /\
  det_evaluator eps unit (fboxes_data store [one_image a b]) e /\ det_evaluator eps unit (fboxes_data store [one_image (scale c a) (scale c b)]) e' /\
  label_no e "cat" 0 /\ label_no e' "cat" 0 /\
  rep_tp eps e (fun _ => true) t s 0%Z = 1 /\ rep_tp eps e' (fun _ => true) t s 0%Z = 0.
Proof.
  exists unit60, digits60, eps60, (2 ^ 59)%Z, 1%Z, zoom, half_gt, half_pd,
    (feval [one_image half_gt half_pd]), (feval [one_image (scale zoom half_gt) (scale zoom half_pd)]).
  split; [exact digits60_ok|]. split; [reflexivity|]. split; [vm_compute; reflexivity|]. split; [vm_compute; reflexivity|]. split; [vm_compute; reflexivity|].
  split; [apply (mem_eval_ok eps60 unit60 4 singles [fboxes_data digits60 [one_image half_gt half_pd]]); vm_compute; reflexivity|].
  split; [apply (mem_eval_ok eps60 unit60 4 singles [fboxes_data digits60 [one_image (scale zoom half_gt) (scale zoom half_pd)]]); vm_compute; reflexivity|].
  repeat split; vm_compute; reflexivity.
Qed.
Print Assumptions C118_threshold_refuted.
(* a shift can lose a box: the corners are rounded *)
Theorem C118_move_refuted : exists f a, move f /\ double_box a /\ wf_box a /\ (1 <= area a)%Q /\
  (fbbox_iou a a == 1)%Q /\ (fbbox_iou (f a) (f a) == 0)%Q.
Proof.
  exists (fun b => MkBox (b_xmin b + inject_Z (2 ^ 54)) (b_xmax b + inject_Z (2 ^ 54)) (b_ymin b + 0) (b_ymax b + 0)), (MkBox 0 1 0 1).
  split; [exact (mv_shift (inject_Z (2 ^ 54)) 0)|].
  split; [repeat split; [exists 0%Z, 0%Z|exists 1%Z, 0%Z|exists 0%Z, 0%Z|exists 1%Z, 0%Z]; (split; [lia|reflexivity])|].
  split; [split; discriminate|]. split; [discriminate|]. split; vm_compute; reflexivity.
Qed.
Print Assumptions C118_move_refuted.
(* different boxes with the IoU 1 *)
Theorem C118_one_refuted : exists a b, double_box a /\ double_box b /\ wf_box a /\ wf_box b /\ clear (area a) /\
  ~ (b_xmax a == b_xmax b)%Q /\ (bbox_iou a b < 1)%Q /\ (fbbox_iou a b == 1)%Q.
Proof.
  assert (R : forall q, (0 < q)%Q -> double (rnd q)).
  { intros q P. destruct (rnd_format q P) as (m & s & Hm & E). exists m, s. split; [lia|exact E]. }
  assert (O : double 0) by (exists 0%Z, 0%Z; split; [lia|reflexivity]).
  exists (MkBox 0 (rnd (945 # 1000)) 0 (rnd (103 # 10))), (MkBox 0 (rnd (9450000000000001 # 10000000000000000)) 0 (rnd (103 # 10))).
  split; [repeat split; first [exact O|apply R; reflexivity]|]. split; [repeat split; first [exact O|apply R; reflexivity]|].
  split; [split; vm_compute; discriminate|]. split; [split; vm_compute; discriminate|]. split; [vm_compute; discriminate|].
  split; [vm_compute; discriminate|]. split; vm_compute; reflexivity.
Qed.
Print Assumptions C118_one_refuted.
Example C118_example :
  move turn /\ double_box far_gt /\ clear (pow2 3 * pow2 3 * area far_gt) /\ double_box (turn cat_gt) /\
  ((1 # 4) <= (1 # 3) * (1 - 17 * half_ulp))%Q.
Proof.
  split; [exact turn_move|]. split; [apply C117_example|]. split; [vm_compute; discriminate|].
  split; [|vm_compute; discriminate].
  repeat split; [exists 5%Z, 0%Z|exists 7%Z, 0%Z|exists 1%Z, 0%Z|exists 3%Z, 0%Z]; (split; [lia|reflexivity]).
Qed.
