(* Specification vocabulary for arrays. *)
From Verif Require Import Prelude.
Local Open Scope nat_scope.

(* SPEC: the array has [n] entries, and the entry at position k satisfies [P k] *)
Definition array_of {A} (n : nat) (a : list A) (P : nat -> A -> Prop) : Prop :=
  List.length a = n /\ forall k x, nth_error a k = Some x -> P k x.
(* SPEC: the recall index of [tp] out of [n] in exact arithmetic *)
Definition exact_index (tp n : nat) : nat := 100 * tp / n.
