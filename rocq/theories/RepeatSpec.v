(* Specification vocabulary for C140: every datum several times. *)
From Verif Require Import Prelude.
From Coq Require Import List Permutation.
Local Open Scope list_scope.

(* SPEC: [l'] lists every entry of [l] [n] times, in any order *)
Definition copies {A} (n : nat) (l l' : list A) : Prop := Permutation l' (List.concat (repeat l n)).
