(* Vocabulary of C120: the number of a label, and when numpy takes two numbers for equal. *)
From Verif Require Import Prelude ClsModel ClsSpec.
From Coq Require Import String.
Local Open Scope Z_scope.

(* position of a label in a list that contains it *)
Fixpoint place (l : string) (ls : list string) : Z :=
  match ls with
  | [] => 0
  | x :: t => if String.eqb x l then 0 else 1 + place l t
  end.

(* the label [b] of a prediction is taken for the label [a] of a ground truth: their numbers
   differ by at most 1e-8 + 1e-5 * (number of b) *)
Definition near (cs : list classification) (a b : string) : bool :=
  100000000 * Z.abs (place a (labels_of cs) - place b (labels_of cs)) <=? 1 + 1000 * place b (labels_of cs).
