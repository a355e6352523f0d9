(* Specification vocabulary for the IoU in binary64. *)
From Verif Require Import Prelude Counting CacheModel ClsModel DetModel DetSpec GeoModel GeoSpec FloatProofs.
From Coq Require Import String QArith Qabs.
Local Open Scope Z_scope.

(* SPEC: a number of 53 bits, of either sign *)
Definition double (x : Q) : Prop := exists k e, Z.abs k <= 2 ^ 53 /\ (x == inject_Z k * pow2 e)%Q.
Definition double_box (b : box) : Prop := double (b_xmin b) /\ double (b_xmax b) /\ double (b_ymin b) /\ double (b_ymax b).
(* SPEC: an area clearly above, or clearly below, the 1e-9 of the code *)
Definition clear (s : Q) : Prop := (1000001 # 1000000000000000 <= s)%Q.
Definition negligible (s : Q) : Prop := (s <= 999999 # 1000000000000000)%Q.
(* SPEC: some point is inside of both boxes, and not on a side *)
Definition overlapping (a b : box) : Prop := exists x y,
  (b_xmin a < x /\ x < b_xmax a /\ b_ymin a < y /\ y < b_ymax a /\ b_xmin b < x /\ x < b_xmax b /\ b_ymin b < y /\ y < b_ymax b)%Q.
(* SPEC: corners with integer coordinates of at most 2^25 in magnitude *)
Definition grid (x : Q) : Prop := exists k, Z.abs k <= 2 ^ 25 /\ (x == inject_Z k)%Q.
Definition grid_box (b : box) : Prop := grid (b_xmin b) /\ grid (b_xmax b) /\ grid (b_ymin b) /\ grid (b_ymax b).
Definition grid_image (d : gdet box) : Prop := forall s, In s (gd_gts d ++ gd_pds d) -> grid_box (sh_shape s).
(* SPEC: at most 2^52 pixels *)
Definition mask_fits (m : gmask) : Prop := Z.of_nat (List.length (gm_bits m)) <= 2 ^ 52.
