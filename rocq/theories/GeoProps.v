(* C92-C96: boxes, masks and polygons given to the object detection loader.  Vocabulary:
   GeoSpec.v; a call adds a list of images; [dmb_calls] and [dfb_calls] are sequences of
   calls on the builders of the two back ends, whose errors the caller catches.
   Model: GeoModel.v. *)
From Verif Require Import Prelude Counting CacheModel ClsModel FlowModel DetModel DetSpec DetFlowModel DetReportModel DetEnd DetDemo
  GeoModel GeoSpec GeoProofs GeoDemo.
From Coq Require Import String QArith Lqa Lia.
Local Open Scope nat_scope.
Local Open Scope list_scope.

(* ---------------------------------------------------------------- C92 *)
(* the IoU of two boxes on the pixel grid is that of their masks *)
Theorem C92_drawn : forall h w a b ma mb, drawn h w a ma -> drawn h w b mb -> (bbox_iou a b == mask_iou ma mb)%Q.
Proof. exact drawn_iou. Qed.
Print Assumptions C92_drawn.
(* and that of their outlines as polygons *)
Theorem C92_outlines : forall P (inter_area union_area : P -> P -> Q) R, true_areas inter_area union_area R ->
  forall a b pa pb, R a pa -> R b pb -> (bbox_iou a b == polygon_iou (inter_area pa pb) (union_area pa pb))%Q.
Proof. exact @polygon_box_iou. Qed.
Print Assumptions C92_outlines.
(* so both back ends end in the same state, whatever they held before *)
Theorem C92_same_builder : forall unit rnd P (inter_area union_area : P -> P -> Q), rounding unit rnd ->
  forall eps cs cs', Forall2 (shown_as inter_area union_area) cs cs' ->
    (forall bs b, dmb_calls eps rnd P inter_area union_area bs b cs' = dmb_calls eps rnd P inter_area union_area bs b cs) /\
    (forall bs rpf b, dfb_calls eps rnd P inter_area union_area bs rpf b cs' = dfb_calls eps rnd P inter_area union_area bs rpf b cs).
Proof. exact shown_calls. Qed.
Print Assumptions C92_same_builder.
Example C92_example :
  rounding one digits9 /\ true_areas inter_box union_box (fun a p => p = a) /\
  Forall2 (shown_as inter_box union_box) [AddBoxes [cat_image]; AddBoxes [cat_image]] [AddMasks [cat_masks]; AddPolygons [cat_image]] /\
  map (fun d => t_iou d 0 0) (boxes_data digits9 [cat_image]) = [333333333%Z].
Proof.
  split; [exact digits9_ok|]. split; [exact box_areas|]. split; [|reflexivity]. constructor; [|constructor; [|constructor]].
  - apply sa_masks, cat_drawn.
  - apply (sa_polygons _ _ (fun a p => p = a)); [exact box_areas|]. constructor; [|constructor]. split; [reflexivity|].
    split; (constructor; [split; reflexivity|constructor]).
Qed.

(* ---------------------------------------------------------------- C93 *)
Theorem C93_move : forall f, move f -> forall a b, (bbox_iou (f a) (f b) == bbox_iou a b)%Q.
Proof. exact move_iou. Qed.
Print Assumptions C93_move.
Theorem C93_pixels : forall pi a b a' b', List.length (gm_bits a) = List.length (gm_bits b) ->
  rearranged pi a a' -> rearranged pi b b' -> mask_iou a' b' = mask_iou a b.
Proof. exact rearranged_iou. Qed.
Print Assumptions C93_pixels.
Theorem C93_same_builder : forall unit rnd P (inter_area union_area : P -> P -> Q), rounding unit rnd ->
  forall eps cs cs', Forall2 moved_scene cs cs' ->
    (forall bs b, dmb_calls eps rnd P inter_area union_area bs b cs' = dmb_calls eps rnd P inter_area union_area bs b cs) /\
    (forall bs rpf b, dfb_calls eps rnd P inter_area union_area bs rpf b cs' = dfb_calls eps rnd P inter_area union_area bs rpf b cs).
Proof. exact moved_calls. Qed.
Print Assumptions C93_same_builder.
Example C93_example :
  move turn /\ turn cat_gt <> cat_gt /\
  Forall2 (@moved_scene box) [AddBoxes [cat_image]; AddMasks [cat_masks]] [AddBoxes [turned_image turn cat_image]; AddMasks [cat_mirrored]].
Proof.
  split; [exact turn_move|]. split; [discriminate|]. constructor; [|constructor; [|constructor]].
  - apply ms_boxes. constructor; [|constructor]. exists turn. split; [exact turn_move|apply turned_like].
  - apply ms_masks.
    + constructor; [|constructor]. exists [2; 3]. split; [cbn; lia|]. intros s [<-|[<-|[]]]; reflexivity.
    + constructor; [|constructor]. exists [2; 4]. split; [cbn; lia|]. intros s [<-|[<-|[]]]; reflexivity.
    + constructor; [|constructor]. exists mirror_columns, 6. split; [intros s [<-|[<-|[]]]; reflexivity|].
      assert (X : Permutation (filter (fun i => Nat.ltb i 6) mirror_columns) (seq 0 6)).
      { cbn. apply NoDup_Permutation.
        - repeat constructor; cbn; intuition discriminate.
        - repeat constructor; cbn; intuition discriminate.
        - intros x. cbn. intuition. }
      split; [reflexivity|]. split; (constructor; [split; [reflexivity|split; [exact X|reflexivity]]|constructor]).
Qed.

(* ---------------------------------------------------------------- C94 *)
(* scaling an image does not change its IoUs, if no box has an area below 1e-9 before
   or after *)
Theorem C94_scale_partial : forall c a b, (0 < c)%Q -> wf_box a -> wf_box b -> (epsQ <= area a)%Q -> (epsQ <= c * c * area a)%Q ->
  (bbox_iou (scale c a) (scale c b) == bbox_iou a b)%Q.
Proof. exact scale_iou. Qed.
Print Assumptions C94_scale_partial.
Theorem C94_same_builder_partial : forall unit rnd P (inter_area union_area : P -> P -> Q), rounding unit rnd ->
  forall eps cs cs', Forall2 scaled_scene cs cs' ->
    (forall bs b, dmb_calls eps rnd P inter_area union_area bs b cs' = dmb_calls eps rnd P inter_area union_area bs b cs) /\
    (forall bs rpf b, dfb_calls eps rnd P inter_area union_area bs rpf b cs' = dfb_calls eps rnd P inter_area union_area bs rpf b cs).
Proof. exact scaled_calls. Qed.
Print Assumptions C94_same_builder_partial.
(* the full claim, for all boxes of positive area, fails: the same picture in another
   unit of length, with a perfect prediction, has a true positive or none *)
Theorem C94_scale_refuted : exists unit rnd eps c b e e' t s,
  rounding unit rnd /\ (0 < c)%Q /\ wf_box b /\ (0 < area b)%Q /\ (0 < t)%Z /\
  det_evaluator eps unit (boxes_data rnd [tiny_image b]) e /\ det_evaluator eps unit (boxes_data rnd [tiny_image (scale c b)]) e' /\
  label_no e "cat" 0 /\ label_no e' "cat" 0 /\
  rep_tp eps e (fun _ => true) t s 0%Z = 0 /\ rep_tp eps e' (fun _ => true) t s 0%Z = 1.
Proof.
  exists one, digits9, 1%Z, 1000%Q, tiny, (eval_boxes [tiny_image tiny]), (eval_boxes [tiny_image (scale 1000 tiny)]), 500000000%Z, 500000000%Z.
  split; [exact digits9_ok|]. split; [reflexivity|]. split; [split; discriminate|]. split; [reflexivity|]. split; [reflexivity|].
  split; [apply (mem_eval_ok 1 one 4 singles [boxes_data digits9 [tiny_image tiny]]); vm_compute; reflexivity|].
  split; [apply (mem_eval_ok 1 one 4 singles [boxes_data digits9 [tiny_image (scale 1000 tiny)]]); vm_compute; reflexivity|].
  repeat split; vm_compute; reflexivity.
Qed.
Print Assumptions C94_scale_refuted.
Example C94_example :
  Forall2 (@scaled_scene box) [AddBoxes [cat_image]] [AddBoxes [turned_image (scale (5 # 2)) cat_image]] /\ scale (5 # 2) cat_gt <> cat_gt.
Proof.
  split; [|discriminate]. constructor; [|constructor]. apply ss_boxes. constructor; [|constructor]. exists (5 # 2)%Q. split; [reflexivity|].
  split; [|apply turned_like]. intros s [<-|[<-|[]]]; cbn; (split; [split; discriminate|split; discriminate]).
Qed.

(* ---------------------------------------------------------------- C95 *)
(* a call with masks fails exactly if an image with ground truths and predictions has
   masks of different shapes, and then nothing is stored *)
Theorem C95_call : forall rnd P (inter_area union_area : P -> P -> Q) eps c,
  (forall bs b b' ok, dmb_call eps rnd P inter_area union_area bs b c = Some (b', ok) -> (ok = true <-> call_returns c) /\ (ok = false -> b' = b)) /\
  (forall bs rpf b b' ok, dfb_call eps rnd P inter_area union_area bs rpf b c = Some (b', ok) -> (ok = true <-> call_returns c) /\ (ok = false -> b' = b)).
Proof. exact failing_call. Qed.
Print Assumptions C95_call.
(* a caller who goes on after failing calls gets what the other calls alone give *)
Theorem C95_go_on : forall rnd P (inter_area union_area : P -> P -> Q) eps cs cs', returning cs cs' ->
  (forall bs b, dmb_calls eps rnd P inter_area union_area bs b cs = dmb_calls eps rnd P inter_area union_area bs b cs') /\
  (forall bs rpf b, dfb_calls eps rnd P inter_area union_area bs rpf b cs = dfb_calls eps rnd P inter_area union_area bs rpf b cs').
Proof. exact failing_calls. Qed.
Print Assumptions C95_go_on.
Theorem C95_returning : forall P (cs : list (gcall P)), exists cs', returning cs cs'.
Proof. exact @returning_total. Qed.
Print Assumptions C95_returning.
Example C95_example :
  returning (P := box) [AddBoxes [cat_image]; AddMasks [cat_masks; odd_masks]; AddMasks [cat_masks]] [AddBoxes [cat_image]; AddMasks [cat_masks]] /\
  (exists b, dmb_call 1 digits9 box inter_box union_box 4 dmb_init (AddMasks [cat_masks; odd_masks]) = Some (b, false)) /\
  (exists b, dmb_call 1 digits9 box inter_box union_box 4 dmb_init (AddMasks [cat_masks]) = Some (b, true)).
Proof.
  split.
  - apply rt_keep; [exact I|]. apply rt_drop.
    + intros H. destruct (H odd_masks (or_intror (or_introl eq_refl))) as [E|[E|(dims & _ & E)]]; [discriminate|discriminate|].
      assert (A := E _ (or_introl eq_refl)). assert (B := E _ (or_intror (or_introl eq_refl))). cbn in A, B. congruence.
    + apply rt_keep; [|constructor]. intros d [<-|[]]. right. right. exists [2; 3]. split; [cbn; lia|]. intros s [<-|[<-|[]]]; reflexivity.
  - split; [eexists; reflexivity|]. destruct (dmb_call 1 digits9 box inter_box union_box 4 dmb_init (AddMasks [cat_masks])) as [[b [|]]|] eqn:E;
    [exists b; reflexivity|exfalso; vm_compute in E; discriminate|exfalso; vm_compute in E; discriminate].
Qed.

(* ---------------------------------------------------------------- C96 *)
(* what the public classes accept *)
Theorem C96_accepted_boxes : forall uid gts pds d, Forall (fun s => exists a b, make_box a b = Some s) (gts ++ pds) ->
  (forall s, In s gts -> a_scores (sh_ann s) = []) -> make_gdet uid gts pds = Some d -> plain_image d.
Proof. intros uid gts pds d. exact (built_plain make_box uid gts pds d make_box_ok). Qed.
Print Assumptions C96_accepted_boxes.
Theorem C96_accepted_masks : forall uid gts pds d, Forall (fun s => exists a m, make_mask a m = Some s) (gts ++ pds) ->
  (forall s, In s gts -> a_scores (sh_ann s) = []) -> make_gdet uid gts pds = Some d -> plain_image d.
Proof. intros uid gts pds d. exact (built_plain make_mask uid gts pds d make_mask_ok). Qed.
Print Assumptions C96_accepted_masks.
Theorem C96_accepted_polygons : forall P (empty : P -> bool) uid gts pds d, Forall (fun s => exists a p, make_polygon empty a p = Some s) (gts ++ pds) ->
  (forall s, In s gts -> a_scores (sh_ann s) = []) -> make_gdet uid gts pds = Some d -> plain_image d.
Proof. intros P empty uid gts pds d. exact (built_plain (make_polygon empty) uid gts pds d (make_polygon_ok empty)). Qed.
Print Assumptions C96_accepted_polygons.
(* an accepted mask overlaps itself completely *)
Theorem C96_mask_self : forall a m s, make_mask a m = Some s -> (mask_iou (sh_shape s) (sh_shape s) == 1)%Q.
Proof. exact mask_self. Qed.
Print Assumptions C96_mask_self.
(* meets the hypothesis of the theorems on detection reports *)
Theorem C96_box_input : forall unit rnd ds, rounding unit rnd -> Forall plain_image ds -> det_input unit (boxes_data rnd ds).
Proof. exact boxes_input. Qed.
Print Assumptions C96_box_input.
Theorem C96_mask_input : forall unit rnd ds ds', rounding unit rnd -> Forall plain_image ds -> Forall true_masks ds ->
  masks_data rnd ds = Some ds' -> det_input unit ds'.
Proof. exact masks_input. Qed.
Print Assumptions C96_mask_input.
(* a sequence of calls that return adds the data of each call, in order *)
Theorem C96_calls : forall eps rnd P (inter_area union_area : P -> P -> Q) cs dss,
  Forall2 (fun c ds => call_data rnd P inter_area union_area c = Some ds) cs dss ->
  (forall bs b, dmb_calls eps rnd P inter_area union_area bs b cs = dmb_adds eps bs b dss) /\
  (forall bs rpf b, dfb_calls eps rnd P inter_area union_area bs rpf b cs = dfb_adds eps bs rpf b dss).
Proof. exact calls_data. Qed.
Print Assumptions C96_calls.
(* the IoU stored for prediction number p and ground truth number g is that of this pair *)
Theorem C96_box_iou : forall unit rnd d p g sp sg c, rounding unit rnd -> nth_error (gd_pds d) p = Some sp -> nth_error (gd_gts d) g = Some sg ->
  is_intersection (sh_shape sg) (sh_shape sp) c -> (epsQ <= area (sh_shape sg) + area (sh_shape sp) - area c)%Q ->
  t_iou (with_ious rnd bbox_iou d) p g = rnd (area c / (area (sh_shape sg) + area (sh_shape sp) - area c))%Q.
Proof. exact box_iou_stored. Qed.
Print Assumptions C96_box_iou.
Theorem C96_box_disjoint : forall unit rnd d p g sp sg, rounding unit rnd -> nth_error (gd_pds d) p = Some sp -> nth_error (gd_gts d) g = Some sg ->
  disjoint_interiors (sh_shape sg) (sh_shape sp) -> t_iou (with_ious rnd bbox_iou d) p g = 0%Z.
Proof. exact box_iou_disjoint. Qed.
Print Assumptions C96_box_disjoint.
Theorem C96_mask_iou : forall unit rnd d p g sp sg, rounding unit rnd -> nth_error (gd_pds d) p = Some sp -> nth_error (gd_gts d) g = Some sg ->
  let a := gm_bits (sh_shape sg) in let b := gm_bits (sh_shape sp) in List.length a = List.length b ->
  let n := List.length a in
  let inter := pixels_where n (fun i => pixel a i && pixel b i) in
  let union := pixels_where n (fun i => pixel a i || pixel b i) in
  t_iou (with_ious rnd mask_iou d) p g = rnd (if Nat.eqb union 0 then 0 else qnat inter / qnat union)%Q.
Proof. exact mask_iou_stored. Qed.
Print Assumptions C96_mask_iou.
Example C96_example :
  make_gdet "img0" (gd_gts cat_image) (gd_pds cat_image) = Some cat_image /\ make_mask (gt "a" "cat") cat_gt_mask <> None /\
  plain_image cat_image /\ plain_image cat_masks /\ true_masks cat_masks /\ masks_data digits9 [cat_masks] <> None.
Proof.
  split; [reflexivity|]. split; [discriminate|].
  split; [split; intros s [<-|[]]; split; reflexivity|]. split; [split; intros s [<-|[]]; split; reflexivity|].
  split; [intros s [<-|[<-|[]]]; reflexivity|discriminate].
Qed.
