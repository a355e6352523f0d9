(* Specification vocabulary: when classification scores are perfect, in terms of the
   labels predicted for each datum. *)
From Verif Require Import Prelude ClsModel ClsSpec ClsFilterModel ClsFilterSpec ClsReportSpec.
From Coq Require Import String.
Local Open Scope list_scope.

Section Perfect.
  Variables (cs : list classification) (u : cview) (hm : bool) (pass : Z -> bool) (l : string).
  (* SPEC: [l] is predicted for some datum, and only for datums with ground truth [l] *)
  Definition never_wrong : Prop :=
    (exists c, In c cs /\ In l (vpositives u hm pass c)) /\
    (forall c, In c cs -> In l (vpositives u hm pass c) -> c_groundtruth c = l).
  (* SPEC: [l] is predicted for some datum with this ground truth; for all of those that
     have [l] as a candidate it is predicted; nothing else is predicted for any of them *)
  Definition never_missed : Prop :=
    (exists c, In c cs /\ c_groundtruth c = l /\ In l (vpositives u hm pass c)) /\
    (forall c, In c cs -> c_groundtruth c = l ->
       (In l (c_predictions (viewed u c)) -> In l (vpositives u hm pass c)) /\
       (forall x, In x (vpositives u hm pass c) -> x = l)).
End Perfect.
