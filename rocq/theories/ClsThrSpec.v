(* Specification vocabulary for C139: raising the score threshold of a classification. *)
From Verif Require Import Prelude Counting ClsModel ClsSpec ClsFilterModel ClsFilterSpec.
From Coq Require Import String.
Local Open Scope nat_scope.
Local Open Scope list_scope.

(* SPEC: every datum of which something is seen has its ground truth among the candidates
   that are seen *)
Definition truths_seen (u : cview) (cs : list classification) : Prop :=
  forall c, In c cs -> visible u c = true -> In (c_groundtruth c) (c_predictions c) /\ u c (c_groundtruth c) = true.
(* SPEC: [b] counts at most the positives and at least the negatives of [a], the number of
   datums counted as false positive or true negative being the same *)
Definition fewer_positives (a b : counts) : Prop :=
  n_tp b <= n_tp a /\ n_fp b <= n_fp a /\ n_tn a <= n_tn b /\ n_fp b + n_tn b = n_fp a + n_tn a.
