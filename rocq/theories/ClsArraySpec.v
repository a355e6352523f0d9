(* Specification vocabulary: computations that raise or not. *)
From Verif Require Import Prelude DetArrayModel.

(* SPEC: the computation returns a value *)
Definition succeeds {A} (r : ares A) : Prop := exists a, r = AOk a.
