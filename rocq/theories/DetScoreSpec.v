(* Specification vocabulary for the precision-recall curve of object detection. *)
From Verif Require Import Prelude DetModel.
From Coq Require String.
Local Open Scope nat_scope.
Local Open Scope list_scope.

(* SPEC: no two predictions with label [v] have the same score *)
Definition distinct_scores (sel : detection -> bool) (ds : list detection) (v : String.string) : Prop :=
  forall i d p a n s i' d' p' a' n',
    nth_error ds i = Some d -> sel d = true -> nth_error (t_pds d) p = Some a -> nth_error (a_labels a) n = Some v -> nth_error (a_scores a) n = Some s ->
    nth_error ds i' = Some d' -> sel d' = true -> nth_error (t_pds d') p' = Some a' -> nth_error (a_labels a') n' = Some v -> nth_error (a_scores a') n' = Some s ->
    i = i' /\ p = p'.
