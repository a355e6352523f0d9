(* Specification vocabulary for the examples of a classification evaluator, on the
   user's input. *)
From Verif Require Import Prelude PageSpec CacheModel ClsModel ClsSpec RocModel FlowModel ClsFilterModel ClsFilterSpec ClsPageModel.
From Coq Require Import String.
Local Open Scope nat_scope.
Local Open Scope list_scope.

(* SPEC: what is listed for a datum when the labels [pos] are predicted for it: the ground
   truth is either the true positive or the false negative; the other predicted labels are
   the false positives, in the order in which the labels first occur in the data *)
Definition listed (cs : list classification) (pos : list string) (thr : Z) (c : classification) : named_example :=
  let hit := smem (c_groundtruth c) pos in
  MkNamed (Some (c_uid c)) thr
    (if hit then [Some (c_groundtruth c)] else [])
    (if hit then [] else [Some (c_groundtruth c)])
    (map Some (filter (fun l => smem l pos && negb (String.eqb l (c_groundtruth c))) (labels_of cs))).

(* SPEC: the entries of a datum, one per threshold *)
Definition datum_entries (cs : list classification) (u : cview) (tol9 : Z) (hardmax : bool) (thrs : list Z) (c : classification)
    : list named_example :=
  map (fun kt => listed cs (vpositives u hardmax (pass_cm tol9 (firstn (S (fst kt)) thrs)) c) (snd kt) c)
    (combine (seq 0 (List.length thrs)) thrs).
