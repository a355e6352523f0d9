(* Construction of a Segmentation with the warnings about overlapping masks.
   Definitions only. *)
From Verif Require Import Prelude Counting SegModel.
From Coq Require Import String.
Local Open Scope nat_scope.
Local Open Scope list_scope.

(* models: semantic_segmentation/annotation.py:93-114 _validate_bitmasks, the loop with
   both accumulators (mask_accumulation, mask_overlap_accumulation), which are None
   before the first mask; [None] as result is the ValueError for a wrong shape.  As in
   [validate_loop], the changed list is returned. *)
Fixpoint warn_loop (shape : list Z) (st : option (list bool * list bool)) (bs : list bitmask)
    : option (list bitmask * option (list bool * list bool)) :=
  match bs with
  | [] => Some ([], st)
  | b :: t =>
      if list_eq_dec Z.eq_dec shape (bm_shape b) then
        let '(b', st') :=
          match st with
          | None => (b, Some (bm_bits b, map (fun _ => false) (bm_bits b)))
          | Some (acc, over) =>
              if bany (band acc (bm_bits b))
              then (set_bits b (bclear (bm_bits b) (band acc (bm_bits b))), Some (acc, bor over (band acc (bm_bits b))))
              else (b, Some (bor acc (bm_bits b), over))
          end in
        match warn_loop shape st' t with
        | Some (out, fin) => Some (b' :: out, fin)
        | None => None
        end
      else None
  end.

(* models: annotation.py:121-123, the parts of the text
   "{key} masks for datum '{uid}' had {count} / {total} pixels overlapped." *)
Record warning : Type := MkWarn { w_key : string; w_uid : string; w_count : Z; w_total : Z }.

(* models: annotation.py:93-123 _validate_bitmasks: the masks afterwards and the warning *)
Definition validate_warn (uid key : string) (shape : list Z) (bs : list bitmask)
    : option (list bitmask * list warning) :=
  match warn_loop shape None bs with
  | None => None
  | Some (out, None) => Some (out, [])
  | Some (out, Some (_, over)) =>
      Some (out, if bany over then [MkWarn key uid (bsum over) (Z.of_nat (List.length over))] else [])
  end.

(* models: annotation.py:82-91 __post_init__: the object, None if an exception is raised,
   and the warnings given until then *)
Definition construct (uid : string) (gts pds : list bitmask) (shape : list Z) (m : meta)
    : option segmentation * list warning :=
  match shape with
  | [h; w] =>
      if ((h <=? 0) || (w <=? 0))%Z%bool then (None, [])
      else match validate_warn uid "ground truth" shape gts with
           | None => (None, [])
           | Some (gts', wg) =>
               match validate_warn uid "prediction" shape pds with
               | None => (None, wg)
               | Some (pds', wp) => (Some (MkSeg uid gts' pds' shape (h * w)%Z m), wg ++ wp)
               end
           end
  | _ => (None, [])
  end.
