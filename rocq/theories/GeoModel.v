(* Model of the geometric front end of object detection: annotations with shapes, the
   IoU matrices computed by add_bounding_boxes, add_polygons and add_bitmasks, and
   sequences of such calls.  Definitions only.
   [rnd] turns a quotient into a stored IoU (Z in the unit of DetModel.v).  For masks
   and for boxes with integer coordinates up to 2^25 the code computes the exact
   numerator and denominator and rounds once, in the division; for other coordinates
   the roundings of the differences and products are left out. *)
From Verif Require Import Prelude Counting CacheModel ClsModel FlowModel DetModel DetFlowModel.
From Coq Require Import String QArith.
Local Open Scope nat_scope.
Local Open Scope list_scope.

(* models: object_detection/annotation.py:48-55, 112-117, 167-172: labels, scores and
   the shape of an annotation *)
Record shaped (G : Type) : Type := MkShaped { sh_ann : annotation; sh_shape : G }.
Arguments MkShaped {G}. Arguments sh_ann {G}. Arguments sh_shape {G}.
(* models: object_detection/annotation.py:228-231 Detection *)
Record gdet (G : Type) : Type := MkGDet { gd_uid : string; gd_gts : list (shaped G); gd_pds : list (shaped G) }.
Arguments MkGDet {G}. Arguments gd_uid {G}. Arguments gd_gts {G}. Arguments gd_pds {G}.

(* a boolean numpy array: its shape and its elements in row-major order *)
Record gmask : Type := MkGM { gm_dims : list nat; gm_bits : list bool }.

(* models: object_detection/annotation.py:57-65 BoundingBox.__post_init__; the
   coordinates are not looked at *)
Definition make_box (a : annotation) (b : box) : option (shaped box) :=
  if ann_ok a then Some (MkShaped a b) else None.
(* models: object_detection/annotation.py:174-193 Bitmask.__post_init__ on a boolean array *)
Definition make_mask (a : annotation) (m : gmask) : option (shaped gmask) :=
  if existsb (fun x => x) (gm_bits m) then (if ann_ok a then Some (MkShaped a m) else None) else None.
(* models: object_detection/annotation.py:119-132 Polygon.__post_init__; [empty] is
   shapely's is_empty *)
Definition make_polygon {P} (empty : P -> bool) (a : annotation) (p : P) : option (shaped P) :=
  if empty p then None else (if ann_ok a then Some (MkShaped a p) else None).
(* models: object_detection/annotation.py:233-238 Detection.__post_init__ *)
Definition make_gdet {G} (uid : string) (gts pds : list (shaped G)) : option (gdet G) :=
  if forallb (fun p => Nat.eqb (List.length (a_scores (sh_ann p))) (List.length (a_labels (sh_ann p)))) pds
  then Some (MkGDet uid gts pds) else None.

Section Add.
  Variable rnd : Q -> Z.

  (* models: object_detection/loader.py:209-221, 243-254, 276-287: the IoUs of the
     pairs, reshaped; [det] is the input of _add_data.  An index outside of the
     reshaped array is never read (loader.py:63-153). *)
  Definition with_ious {G} (iou : G -> G -> Q) (d : gdet G) : detection :=
    let flat := map rnd (iou_list iou (map sh_shape (gd_gts d)) (map sh_shape (gd_pds d))) in
    let cols := List.length (gd_gts d) in
    MkDet (gd_uid d) (map sh_ann (gd_gts d)) (map sh_ann (gd_pds d))
      (fun p g => match reshaped flat cols p g with Some z => z | None => 0%Z end).

  (* models: object_detection/loader.py:194-226 add_bounding_boxes up to _add_data *)
  Definition boxes_data (ds : list (gdet box)) : list detection := map (with_ious bbox_iou) ds.

  (* np.array([[gt.mask, pd.mask] ...]): all masks that occur in a pair must have the
     same shape, otherwise ValueError (numpy >= 1.24); data[:, 0, :, :] then needs two
     dimensions, otherwise IndexError.  Without pairs nothing is looked at. *)
  Definition same_dims (ms : list gmask) : bool :=
    match ms with
    | [] => true
    | m :: t => forallb (fun m' => if list_eq_dec Nat.eq_dec (gm_dims m') (gm_dims m) then true else false) t
                && Nat.leb 2 (List.length (gm_dims m))
    end.
  Definition stackable (d : gdet gmask) : bool :=
    match gd_gts d, gd_pds d with
    | [], _ => true
    | _, [] => true
    | _ :: _, _ :: _ => same_dims (map sh_shape (gd_gts d ++ gd_pds d))
    end.
  (* models: object_detection/computation.py:82-126 on the flattened masks, see
     [bitmask_iou] *)
  Definition mask_iou (a b : gmask) : Q := bitmask_iou (gm_bits a) (gm_bits b).
  (* models: object_detection/loader.py:261-292 add_bitmasks up to _add_data; the IoUs
     of all detections are computed before anything is stored *)
  Definition masks_data (ds : list (gdet gmask)) : option (list detection) :=
    if forallb stackable ds then Some (map (with_ious mask_iou) ds) else None.

  (* models: object_detection/loader.py:228-259 add_polygons up to _add_data;
     [inter_area], [union_area] are shapely's areas of intersection and union *)
  Definition polygons_data {P} (inter_area union_area : P -> P -> Q) (ds : list (gdet P)) : list detection :=
    map (with_ious (fun a b => polygon_iou (inter_area a b) (union_area a b))) ds.
End Add.

(* ------------------------------------------------------------------ *)
(** * Sequences of calls *)

Inductive gcall (P : Type) : Type :=
| AddBoxes (ds : list (gdet box))
| AddMasks (ds : list (gdet gmask))
| AddPolygons (ds : list (gdet P)).
Arguments AddBoxes {P}. Arguments AddMasks {P}. Arguments AddPolygons {P}.

Section Calls.
  Variables (eps : Z) (rnd : Q -> Z) (P : Type) (inter_area union_area : P -> P -> Q).

  (* the detections of a call; [None]: an exception before anything is stored *)
  Definition call_data (c : gcall P) : option (list detection) :=
    match c with
    | AddBoxes ds => Some (boxes_data rnd ds)
    | AddMasks ds => masks_data rnd ds
    | AddPolygons ds => Some (polygons_data rnd inter_area union_area ds)
    end.
  (* models: object_detection/loader.py:194-292, a call on a builder: the builder
     afterwards and whether the call returned *)
  Definition dmb_call (bs : nat) (b : dmb) (c : gcall P) : option (dmb * bool) :=
    match call_data c with
    | None => Some (b, false)
    | Some ds => option_map (fun b' => (b', true)) (dmb_add eps bs b ds)
    end.
  Definition dfb_call (bs rpf : nat) (b : dfb) (c : gcall P) : option (dfb * bool) :=
    match call_data c with
    | None => Some (b, false)
    | Some ds => option_map (fun b' => (b', true)) (dfb_add eps bs rpf b ds)
    end.
  (* a user who catches the exceptions and goes on *)
  Fixpoint dmb_calls (bs : nat) (b : dmb) (cs : list (gcall P)) : option dmb :=
    match cs with
    | [] => Some b
    | c :: t => match dmb_call bs b c with Some (b', _) => dmb_calls bs b' t | None => None end
    end.
  Fixpoint dfb_calls (bs rpf : nat) (b : dfb) (cs : list (gcall P)) : option dfb :=
    match cs with
    | [] => Some b
    | c :: t => match dfb_call bs rpf b c with Some (b', _) => dfb_calls bs rpf b' t | None => None end
    end.
End Calls.
