(* Specification vocabulary for object detection reports about data added in another
   order or in parts. *)
From Verif Require Import Prelude CacheModel ClsModel DetModel DetFlowModel DetSpec DetEnd.
From Coq Require Import QArith.
From Coq Require String.
Local Open Scope nat_scope.
Local Open Scope list_scope.

(* SPEC: the same number, or no number at all *)
Definition same_number (a b : option Q) : Prop :=
  match a, b with Some x, Some y => (x == y)%Q | None, None => True | _, _ => False end.
(* SPEC: two curves with the same values *)
Definition same_curve (a b : list Q) : Prop := Forall2 Qeq a b.

(* SPEC: [n] is what [f] says for the number of label [v] in the evaluator, or [zero]
   if the evaluator does not know the label *)
Definition reported {V} (zero : V) (e : deval) (v : String.string) (f : Z -> V) (n : V) : Prop :=
  (exists k, label_no e v k /\ n = f (Z.of_nat k)) \/ ((forall k, ~ label_no e v k) /\ n = zero).

(* SPEC: the same for a cell of a confusion matrix *)
Definition reported_cell (e : deval) (gl pl : String.string) (f : Z -> Z -> nat) (n : nat) : Prop :=
  (exists i j, label_no e gl i /\ label_no e pl j /\ n = f (Z.of_nat i) (Z.of_nat j)) \/
  (((forall k, ~ label_no e gl k) \/ (forall k, ~ label_no e pl k)) /\ n = 0).

(* SPEC: the image has a prediction with label [v] and score [c] *)
Definition scores_at (v : String.string) (c : Z) (d : detection) : bool :=
  existsb (fun a => existsb (fun ls => String.eqb v (fst ls) && (snd ls =? c)%Z) (combine (a_labels a) (a_scores a))) (t_pds d).
(* SPEC: no score is given to label [v] in two selected images *)
Definition apart (sel : detection -> bool) (v : String.string) (ds : list detection) : Prop :=
  forall c, List.length (filter (fun d => sel d && scores_at v c d) ds) <= 1.
