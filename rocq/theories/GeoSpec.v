(* Specification vocabulary for geometric input: rounding, boxes drawn as masks, moves
   of an image, scaling, rearranged pixels. *)
From Verif Require Import Prelude Counting CacheModel ClsModel DetModel DetSpec GeoModel.
From Coq Require Import String QArith.
Local Open Scope nat_scope.
Local Open Scope list_scope.

(* SPEC: rounding of an IoU keeps the order and the ends of [0, 1] *)
Definition rounding (unit : Z) (rnd : Q -> Z) : Prop :=
  (forall a b, (a <= b)%Q -> (rnd a <= rnd b)%Z) /\ rnd 0%Q = 0%Z /\ rnd 1%Q = unit.

(* SPEC: two images that differ only in the shapes, which are related by [R] *)
Definition like_shape {G H} (R : G -> H -> Prop) (s : shaped G) (s' : shaped H) : Prop :=
  sh_ann s' = sh_ann s /\ R (sh_shape s) (sh_shape s').
Definition like_image {G H} (R : G -> H -> Prop) (d : gdet G) (d' : gdet H) : Prop :=
  gd_uid d' = gd_uid d /\ Forall2 (like_shape R) (gd_gts d) (gd_gts d') /\ Forall2 (like_shape R) (gd_pds d) (gd_pds d').

(* SPEC: the mask of height [h] and width [w] shows the box [b], whose corners lie on
   the pixel grid: pixel (y, x) is set iff its square lies in the box *)
Definition drawn (h w : nat) (b : box) (m : gmask) : Prop :=
  gm_dims m = [h; w] /\ List.length (gm_bits m) = h * w /\
  exists x0 x1 y0 y1, x0 <= x1 <= w /\ y0 <= y1 <= h /\
    (b_xmin b == qnat x0 /\ b_xmax b == qnat x1 /\ b_ymin b == qnat y0 /\ b_ymax b == qnat y1)%Q /\
    forall y x, y < h -> x < w -> (nth (y * w + x) (gm_bits m) false = true <-> (x0 <= x < x1 /\ y0 <= y < y1)).

(* SPEC: shifts, reflections and the exchange of the axes, in any combination *)
Inductive move : (box -> box) -> Prop :=
| mv_shift dx dy : move (fun b => MkBox (b_xmin b + dx) (b_xmax b + dx) (b_ymin b + dy) (b_ymax b + dy))
| mv_mirror_x c : move (fun b => MkBox (c - b_xmax b) (c - b_xmin b) (b_ymin b) (b_ymax b))
| mv_mirror_y c : move (fun b => MkBox (b_xmin b) (b_xmax b) (c - b_ymax b) (c - b_ymin b))
| mv_transpose : move (fun b => MkBox (b_ymin b) (b_ymax b) (b_xmin b) (b_xmax b))
| mv_then f g : move f -> move g -> move (fun b => g (f b)).
Definition scale (c : Q) (b : box) : box := MkBox (c * b_xmin b) (c * b_xmax b) (c * b_ymin b) (c * b_ymax b).

(* SPEC: pixel number i of the new mask is pixel number [nth i pi] of the old one;
   every old pixel is used once, further positions are background *)
Definition rearranged (pi : list nat) (m m' : gmask) : Prop :=
  let n := List.length (gm_bits m) in
  Permutation (filter (fun i => Nat.ltb i n) pi) (seq 0 n) /\
  gm_bits m' = map (fun i => nth i (gm_bits m) false) pi.

(* SPEC: all masks of an image have the same shape with at least two dimensions *)
Definition one_shape (d : gdet gmask) : Prop :=
  exists dims, 2 <= List.length dims /\ forall s, In s (gd_gts d ++ gd_pds d) -> gm_dims (sh_shape s) = dims.

(* the annotations the public classes accept, ground truths without scores *)
Definition plain_image {G} (d : gdet G) : Prop :=
  (forall s, In s (gd_gts d) -> ann_ok (sh_ann s) = true /\ a_scores (sh_ann s) = []) /\
  (forall s, In s (gd_pds d) -> ann_ok (sh_ann s) = true /\ List.length (a_scores (sh_ann s)) = List.length (a_labels (sh_ann s))).

(* SPEC: [R] relates boxes to polygons, and shapely's areas of the polygons are those of
   the boxes *)
Definition true_areas {P} (inter_area union_area : P -> P -> Q) (R : box -> P -> Prop) : Prop :=
  forall a b pa pb, R a pa -> R b pb ->
    (forall c, is_intersection a b c -> (inter_area pa pb == area c)%Q) /\
    (disjoint_interiors a b -> (inter_area pa pb == 0)%Q) /\
    (union_area pa pb == area a + area b - inter_area pa pb)%Q.

(* SPEC: the second call is the first one, or gives the same boxes as masks or polygons;
   images may have different sizes *)
Inductive shown_as {P} (inter_area union_area : P -> P -> Q) : gcall P -> gcall P -> Prop :=
| sa_same c : shown_as inter_area union_area c c
| sa_masks ds ds' : Forall2 (fun d d' => exists h w, like_image (drawn h w) d d') ds ds' ->
    shown_as inter_area union_area (AddBoxes ds) (AddMasks ds')
| sa_polygons R ds ds' : true_areas inter_area union_area R -> Forall2 (like_image R) ds ds' ->
    shown_as inter_area union_area (AddBoxes ds) (AddPolygons ds').

(* SPEC: the second call has the boxes of each image moved as a whole, or the pixels of
   each image rearranged, all masks of the image in the same way *)
Inductive moved_scene {P} : gcall P -> gcall P -> Prop :=
| ms_same c : moved_scene c c
| ms_boxes ds ds' : Forall2 (fun d d' => exists f, move f /\ like_image (fun b b' => b' = f b) d d') ds ds' ->
    moved_scene (AddBoxes ds) (AddBoxes ds')
| ms_masks ds ds' : Forall one_shape ds -> Forall one_shape ds' ->
    Forall2 (fun d d' => exists pi n, (forall s, In s (gd_gts d ++ gd_pds d) -> List.length (gm_bits (sh_shape s)) = n) /\
      like_image (rearranged pi) d d') ds ds' ->
    moved_scene (AddMasks ds) (AddMasks ds').

(* SPEC: the second call has the boxes of each image scaled by a positive factor; no box
   has an area below the threshold of the division, before or after *)
Inductive scaled_scene {P} : gcall P -> gcall P -> Prop :=
| ss_same c : scaled_scene c c
| ss_boxes ds ds' : Forall2 (fun d d' => exists c, (0 < c)%Q /\
      (forall s, In s (gd_gts d ++ gd_pds d) -> wf_box (sh_shape s) /\ (epsQ <= area (sh_shape s))%Q /\ (epsQ <= c * c * area (sh_shape s))%Q) /\
      like_image (fun b b' => b' = scale c b) d d') ds ds' ->
    scaled_scene (AddBoxes ds) (AddBoxes ds').

(* SPEC: a call that returns: every image with ground truths and predictions has masks
   of one shape *)
Definition call_returns {P} (c : gcall P) : Prop :=
  match c with
  | AddMasks ds => forall d, In d ds -> gd_gts d = [] \/ gd_pds d = [] \/ one_shape d
  | _ => True
  end.
(* SPEC: the calls of [cs] that return, in the same order *)
Inductive returning {P} : list (gcall P) -> list (gcall P) -> Prop :=
| rt_nil : returning [] []
| rt_keep c cs cs' : call_returns c -> returning cs cs' -> returning (c :: cs) (c :: cs')
| rt_drop c cs cs' : ~ call_returns c -> returning cs cs' -> returning (c :: cs) cs'.

(* the bits of a mask fill its shape *)
Definition true_masks (d : gdet gmask) : Prop :=
  forall s, In s (gd_gts d ++ gd_pds d) -> List.length (gm_bits (sh_shape s)) = fold_right Nat.mul 1 (gm_dims (sh_shape s)).
