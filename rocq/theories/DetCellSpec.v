(* Specification vocabulary for the confusion matrices and the pages of examples of object
   detection, on the user's input. *)
From Verif Require Import Prelude PageSpec CacheModel Counting ClsModel DetModel DetExModel DetSpec DetFlowModel DetEnd ClsCellModel ClsCellSpec DetTurnSpec DetCellModel.
From Coq Require Import String.
Local Open Scope nat_scope.
Local Open Scope list_scope.

(* SPEC: the labels of an evaluator, each once *)
Definition named (e : deval) (ds : list detection) (names : list string) : Prop :=
  map snd (de_labels e) = map Some names /\ NoDup names /\ forall v, In v names <-> In v (det_labels ds).

(* SPEC: the matrix of the images [ds] at IoU threshold [t] and score threshold [s] *)
Definition counts_of (names : list string) (eps t s : Z) (ds : list detection) : dcounts :=
  MkDCounts
    (map (fun g => (Some g, map (fun p => (Some p, list_sum_nat (map (fun d => List.length (cell_pairs eps t s d g p)) ds))) names)) names)
    (map (fun g => (Some g, list_sum_nat (map (fun d => List.length (lone_gts eps t s d g)) ds))) names)
    (map (fun p => (Some p, list_sum_nat (map (fun d => List.length (lone_pds eps t s d p)) ds))) names).

(* SPEC: the same with the examples of every cell, in the order of the input *)
Definition dcmx_of (names : list string) (eps t s : Z) (ds : list detection) : dcmx :=
  MkDCmx
    (map (fun g => (Some g, map (fun p => (Some p, counted (flat_map (fun d =>
       map (fun y => (t_uid d, Some (a_uid (fst y)), Some (a_uid (snd y)))) (cell_pairs eps t s d g p)) ds))) names)) names)
    (map (fun g => (Some g, counted (flat_map (fun d => map (fun a => (t_uid d, Some (a_uid a))) (lone_gts eps t s d g)) ds))) names)
    (map (fun p => (Some p, counted (flat_map (fun d => map (fun a => (t_uid d, Some (a_uid a))) (lone_pds eps t s d p)) ds))) names).

(* SPEC: the examples of one image, for every IoU threshold and every score threshold *)
Definition image_examples (eps : Z) (ious scores : list Z) (d : detection) : list (option string * Z * Z * det_example) :=
  flat_map (fun t => map (fun s => (Some (t_uid d), t, s,
    MkDEx (map (fun y => (Some (Some (a_uid (fst y))), Some (Some (a_uid (snd y))))) (right_pairs eps t s d))
      (map (fun a => Some (Some (a_uid a))) (wrong_pds eps t s d)) (map (fun a => Some (Some (a_uid a))) (missed_gts eps t s d)))) scores) ious.

(* SPEC: looking up a label *)
Definition lget {V} (d : list (lkey * V)) (k : lkey) : option V := option_map snd (find (fun x => lkey_eqb (fst x) k) d).
Definition dcell_at (M : dcmx) (g p : string) : option (cell (string * option string * option string)) :=
  match lget (dx_cells M) (Some g) with Some row => lget row (Some p) | None => None end.
(* SPEC: the counts alone *)
Definition forget (M : dcmx) : dcounts :=
  MkDCounts (map (fun r => (fst r, map (fun c => (fst c, fst (snd c))) (snd r))) (dx_cells M))
    (map (fun c => (fst c, fst (snd c))) (dx_gts M)) (map (fun c => (fst c, fst (snd c))) (dx_pds M)).
