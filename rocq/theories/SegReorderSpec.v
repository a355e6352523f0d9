(* Specification vocabulary for comparing segmentation reports: the same values in
   another order, and values of parts of a data set. *)
From Verif Require Import Prelude SegModel SegSpec.
From Coq Require Import QArith String.
Local Open Scope list_scope.

(* SPEC: two lists of values per label agree up to their order (as numbers) *)
Definition same_values (a b : list (option string * Q)) : Prop :=
  exists c, Permutation b c /\ Forall2 (fun x y => fst x = fst y /\ (snd x == snd y)%Q) a c.
Definition same_rows (a b : list (option string * list (option string * Q))) : Prop :=
  exists c, Permutation b c /\ Forall2 (fun x y => fst x = fst y /\ same_values (snd x) (snd y)) a c.
Definition same_mean (a b : option Q) : Prop :=
  match a, b with Some x, Some y => (x == y)%Q | None, None => True | _, _ => False end.
Definition report_alike (r1 r2 : sreport) : Prop :=
  (sr_accuracy r1 == sr_accuracy r2)%Q /\ same_mean (sr_miou r1) (sr_miou r2) /\
  same_rows (sr_confusion r1) (sr_confusion r2) /\
  same_values (sr_unmatched_pd r1) (sr_unmatched_pd r2) /\ same_values (sr_unmatched_gt r1) (sr_unmatched_gt r2) /\
  same_values (sr_precision r1) (sr_precision r2) /\ same_values (sr_recall r1) (sr_recall r2) /\
  same_values (sr_f1 r1) (sr_f1 r2) /\ same_values (sr_iou r1) (sr_iou r2).

(* SPEC: [q] lies between [a] and [b] *)
Definition lies_between (a b q : Q) : Prop := (a <= q <= b)%Q \/ (b <= q <= a)%Q.
(* the values a report lists per label *)
Definition value_lists : list (sreport -> list (option string * Q)) :=
  [sr_precision; sr_recall; sr_f1; sr_iou; sr_unmatched_pd; sr_unmatched_gt].
Definition unlisted (l : string) (out : list (option string * Q)) : Prop := forall q, ~ In (Some l, q) out.
(* cell (a, b) of the confusion matrix; 0 if it is not listed *)
Definition cell (rep : sreport) (a b : string) (q : Q) : Prop :=
  (exists row, In (Some a, row) (sr_confusion rep) /\ In (Some b, q) row) \/
  ((forall row x, In (Some a, row) (sr_confusion rep) -> ~ In (Some b, x) row) /\ q = 0%Q).
