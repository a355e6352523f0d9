(* Concrete geometric inputs used by the examples beside the theorems of GeoProps.v *)
From Verif Require Import Prelude Counting CacheModel ClsModel FlowModel DetModel DetSpec DetGeomProofs DetFlowModel DetDemo GeoModel GeoSpec.
From Coq Require Import String QArith Qminmax Qround Lqa Lia.
Local Open Scope nat_scope.
Local Open Scope list_scope.

(* nine decimal digits, rounded down *)
Definition digits9 (q : Q) : Z := Qfloor (q * inject_Z one).
Lemma digits9_ok : rounding one digits9.
Proof.
  split; [|split; reflexivity]. intros a b H. apply Qfloor_resp_le. apply Qmult_le_compat_r; [exact H|discriminate].
Qed.

(* an image of two rows and three columns: a cat in the left four pixels, predicted in
   the right four *)
Definition cat_gt : box := MkBox 0 2 0 2.
Definition cat_pd : box := MkBox 1 3 0 2.
Definition cat_image : gdet box :=
  MkGDet "img0"%string [MkShaped (gt "a" "cat") cat_gt] [MkShaped (pd "x" "cat" 900000000) cat_pd].
Definition cat_gt_mask : gmask := MkGM [2; 3] [true; true; false; true; true; false].
Definition cat_pd_mask : gmask := MkGM [2; 3] [false; true; true; false; true; true].
Definition cat_masks : gdet gmask :=
  MkGDet "img0"%string [MkShaped (gt "a" "cat") cat_gt_mask] [MkShaped (pd "x" "cat" 900000000) cat_pd_mask].
Ltac pixels := let y := fresh "y" in let x := fresh "x" in intros y x ? ?;
  (destruct y as [|[|y]]; [| |exfalso; lia]); (destruct x as [|[|[|x]]]; [| | |exfalso; lia]);
  cbn; (split; [intros ?; try discriminate; lia|intros ?; try reflexivity; exfalso; lia]).
Lemma cat_gt_drawn : drawn 2 3 cat_gt cat_gt_mask.
Proof. split; [reflexivity|]. split; [reflexivity|]. exists 0, 2, 0, 2. split; [lia|]. split; [lia|]. split; [repeat split; reflexivity|]. pixels. Qed.
Lemma cat_pd_drawn : drawn 2 3 cat_pd cat_pd_mask.
Proof. split; [reflexivity|]. split; [reflexivity|]. exists 1, 3, 0, 2. split; [lia|]. split; [lia|]. split; [repeat split; reflexivity|]. pixels. Qed.
Lemma cat_drawn : Forall2 (fun d d' => exists h w, like_image (drawn h w) d d') [cat_image] [cat_masks].
Proof.
  constructor; [|constructor]. exists 2, 3. split; [reflexivity|].
  split; (constructor; [split; [reflexivity|]|constructor]); [apply cat_gt_drawn|apply cat_pd_drawn].
Qed.
(* polygons with boxes as outlines *)
Definition inter_box (a b : box) : Q := (xw a b * yh a b)%Q.
Definition union_box (a b : box) : Q := (area a + area b - inter_box a b)%Q.
Lemma box_areas : true_areas inter_box union_box (fun a p => p = a).
Proof.
  intros a b pa pb -> ->. split; [|split; [|reflexivity]].
  - intros c Hc. destruct (inter_sides a b c Hc) as (E1 & E2 & E3 & E4). destruct Hc as [[W1 W2] _]. unfold inter_box, xw, yh, area.
    rewrite (Q.max_r 0 (Qmin (b_xmax a) _ - _)), (Q.max_r 0 (Qmin (b_ymax a) _ - _)) by lra. rewrite E1, E2, E3, E4. reflexivity.
  - intros D. assert (E := xw_nonneg a b). assert (E' := yh_nonneg a b). unfold inter_box.
    destruct (Qlt_le_dec 0 (xw a b * yh a b)) as [L|L]; [exfalso|nra].
    assert (Lx : (0 < xw a b)%Q) by (destruct (Qlt_le_dec 0 (xw a b)); [assumption|nra]).
    assert (Ly : (0 < yh a b)%Q) by (destruct (Qlt_le_dec 0 (yh a b)); [assumption|nra]).
    destruct (seg_mid _ _ _ _ Lx) as (x & X). destruct (seg_mid _ _ _ _ Ly) as (y & Y). apply (D x y). tauto.
Qed.
(* the image turned by 90 degrees and shifted *)
Definition transpose (b : box) : box := MkBox (b_ymin b) (b_ymax b) (b_xmin b) (b_xmax b).
Definition mirror (b : box) : box := MkBox (b_xmin b) (b_xmax b) (3 - b_ymax b) (3 - b_ymin b).
Definition shift (b : box) : box := MkBox (b_xmin b + 5) (b_xmax b + 5) (b_ymin b + 0) (b_ymax b + 0).
Definition turn (b : box) : box := shift (mirror (transpose b)).
Lemma turn_move : move turn.
Proof. exact (mv_then (fun b => mirror (transpose b)) shift (mv_then transpose mirror mv_transpose (mv_mirror_y 3)) (mv_shift 5 0)). Qed.
Definition turned_image (f : box -> box) (d : gdet box) : gdet box :=
  let m s := MkShaped (sh_ann s) (f (sh_shape s)) in MkGDet (gd_uid d) (map m (gd_gts d)) (map m (gd_pds d)).
Lemma turned_like f d : like_image (fun b b' => b' = f b) d (turned_image f d).
Proof. split; [reflexivity|]. split; cbn; [induction (gd_gts d)|induction (gd_pds d)]; constructor; auto; split; reflexivity. Qed.
(* the masks mirrored, with a column of background added on the right *)
Definition mirror_columns : list nat := [2; 1; 0; 6; 5; 4; 3; 6].
Definition mirrored (m : gmask) : gmask := MkGM [2; 4] (map (fun i => nth i (gm_bits m) false) mirror_columns).
Definition cat_mirrored : gdet gmask :=
  MkGDet "img0"%string [MkShaped (gt "a" "cat") (mirrored cat_gt_mask)] [MkShaped (pd "x" "cat" 900000000) (mirrored cat_pd_mask)].
(* a mask of another size *)
Definition odd_masks : gdet gmask :=
  MkGDet "img1"%string [MkShaped (gt "b" "cat") cat_gt_mask] [MkShaped (pd "y" "cat" 900000000) (mirrored cat_pd_mask)].
(* a box below the threshold of the division *)
Definition tiny : box := MkBox 0 (1 # 100000) 0 (1 # 100000).
Definition tiny_image (b : box) : gdet box :=
  MkGDet "img0"%string [MkShaped (gt "a" "cat") b] [MkShaped (pd "x" "cat" 900000000) b].
Definition eval_boxes (ds : list (gdet box)) : deval := get_eval (mem_eval 1 one 4 singles [boxes_data digits9 ds]).
