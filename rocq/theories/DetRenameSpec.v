(* Specification vocabulary for C138: the same detections with other label names and uids. *)
From Verif Require Import Prelude DetModel DetExModel DetSpec DetFilterSpec.
From Coq Require Import String.
Local Open Scope nat_scope.
Local Open Scope list_scope.

(* SPEC: the detection with every label [l] replaced by [f l], its uid [u] by [h u]
   and the uid [u] of each annotation by [k u] *)
Definition arename (k f : string -> string) (a : annotation) : annotation := MkAnn (k (a_uid a)) (map f (a_labels a)) (a_scores a).
Definition drename (h k f : string -> string) (d : detection) : detection :=
  MkDet (h (t_uid d)) (map (arename k f) (t_gts d)) (map (arename k f) (t_pds d)) (t_iou d).
(* SPEC: the view of the renamed data selects the same ground truths and prediction labels *)
Definition renamed_dview (h k f : string -> string) (ds : list detection) (w w' : dview) : Prop :=
  forall d, In d ds -> (forall g, g < List.length (t_gts d) -> v_gt w' (drename h k f d) g = v_gt w d g) /\
    (forall p pa l, nth_error (t_pds d) p = Some pa -> In l (a_labels pa) -> v_pd w' (drename h k f d) p (f l) = v_pd w d p l).
(* SPEC: an entry of the examples, a cell and an unmatched entry of the confusion matrix
   under the new uids *)
Definition rename_dexample (h k : string -> string) (x : option string * Z * Z * det_example) : option string * Z * Z * det_example :=
  match x with
  | (u, t, s, ex) => (option_map h u, t, s,
      MkDEx (map (fun y => (option_map (option_map k) (fst y), option_map (option_map k) (snd y))) (dx_tp ex))
        (map (option_map (option_map k)) (dx_fp ex)) (map (option_map (option_map k)) (dx_fn ex)))
  end.
Definition rename_dcell (h k : string -> string) (x : nat * list (string * option string * option string)) : nat * list (string * option string * option string) :=
  (fst x, map (fun y => match y with (u, g, p) => (h u, option_map k g, option_map k p) end) (snd x)).
Definition rename_dlone (h k : string -> string) (x : nat * list (string * option string)) : nat * list (string * option string) :=
  (fst x, map (fun y => (h (fst y), option_map k (snd y))) (snd x)).
