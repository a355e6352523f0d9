(* Specification vocabulary for C129: the cells that are asked for. *)
From Verif Require Import Prelude ReadModel.
From Coq Require Import String QArith.
Local Notation length := List.length (only parsing).
Local Notation concat := List.concat (only parsing).
Local Open Scope nat_scope.
Local Open Scope list_scope.

(* SPEC: the caches that exist: one table in memory, any number of files, and values of
   the type of their column *)
Definition typed (t : ctype) (v : cval) : Prop :=
  match t, v with TInt, VInt _ | TFloat, VFloat _ | TText, VText _ => True | _, _ => False end.
Definition cache_ok (c : cache) : Prop :=
  (ca_memory c = true -> length (ca_files c) = 1) /\ NoDup (map fst (ca_schema c)) /\
  forall r n t, In r (concat (ca_files c)) -> In (n, t) (ca_schema c) -> typed t (r n).
(* SPEC: only files without a selected row are left out *)
Definition sound_pruning (prune : list row -> (row -> bool) -> bool) : Prop :=
  forall x f, prune x f = true -> forall r, In r x -> f r = false.
(* SPEC: a set has each of its elements once, in any order *)
Definition set_orders (o : list string -> list string) : Prop :=
  forall l, NoDup (o l) /\ forall n, In n (o l) <-> In n l.

(* SPEC: the columns are numbers of the cache *)
Definition numeric_in (c : cache) (names : list string) : Prop :=
  names <> [] /\ forall n, In n names -> exists t, In (n, t) (ca_schema c) /\ t <> TText.
Definition selected (c : cache) (filt : option (row -> bool)) : list row :=
  filter (fun r => match filt with Some f => f r | None => true end) (concat (ca_files c)).
(* SPEC: the number in a cell *)
Definition number (v : cval) : option Q :=
  match v with VInt z => Some (inject_Z z) | VFloat q => Some q | VText _ => None end.
(* SPEC: an integer that a float64 can hold *)
Definition holdable (v : cval) : Prop := match v with VInt z => (Z.abs z <= 2 ^ 53)%Z | _ => True end.
(* SPEC: all columns are integers *)
Definition integers (c : cache) (names : list string) : Prop := forall n, In n names -> In (n, TInt) (ca_schema c).
Definition same_number (a b : cval) : Prop :=
  match number a, number b with Some x, Some y => (x == y)%Q | _, _ => False end.
