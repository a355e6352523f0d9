(* Specification vocabulary for C127: the same classifications with other scores. *)
From Verif Require Import Prelude Counting ClsModel ClsSpec ClsFilterModel ClsFilterSpec.
From Coq Require Import String.
Local Open Scope nat_scope.
Local Open Scope list_scope.

(* SPEC: the classification with every score [s] replaced by [f s] *)
Definition crescore (f : Z -> Z) (c : classification) : classification :=
  MkCls (c_uid c) (c_groundtruth c) (c_predictions c) (map f (c_scores c)).
(* SPEC: the scores that occur in the data *)
Definition scores_in (cs : list classification) : list Z := List.concat (map c_scores cs).
(* SPEC: [f] keeps the order of the listed scores, and ties *)
Definition keeps_order (f : Z -> Z) (ss : list Z) : Prop :=
  forall x y, In x ss -> In y ss -> (x < y -> f x < f y)%Z.
(* SPEC: zero stays zero and nothing else becomes zero *)
Definition keeps_zero (f : Z -> Z) (ss : list Z) : Prop := forall x, In x ss -> (x = 0 <-> f x = 0)%Z.
(* SPEC: a score that counts as zero still does and no other one does *)
Definition keeps_near (tol : Z) (f : Z -> Z) (ss : list Z) : Prop :=
  forall x, In x ss -> (tol < Z.abs x <-> tol < Z.abs (f x))%Z.
Definition keeps_positive (tol : Z) (f : Z -> Z) (ss : list Z) : Prop :=
  forall x, In x ss -> (tol < x <-> tol < f x)%Z.
(* SPEC: threshold [t'] divides the new scores as [t] divides the old ones *)
Definition same_cut (f : Z -> Z) (ss : list Z) (t t' : Z) : Prop :=
  forall x, In x ss -> (t <= x <-> t' <= f x)%Z.
(* SPEC: the view selects the same candidates *)
Definition same_view (f : Z -> Z) (cs : list classification) (w w' : classification -> string -> bool) : Prop :=
  forall c l, In c cs -> w' (crescore f c) l = w c l.
