(* Specification vocabulary: when segmentation scores are perfect. *)
From Verif Require Import Prelude SegModel SegSpec.
From Coq Require Import String.

Section Perfect.
  Variables (ss : list segmentation) (v : view).
  (* SPEC: pixel [p] of a kept datum *)
  Definition vpixel (s : segmentation) (p : nat) : Prop := In s ss /\ v_datum v s = true /\ In p (pixels s).
  (* SPEC: [l] occurs, and the pixels labelled [l] are those predicted [l] *)
  Definition alike (l : string) : Prop :=
    (exists s p, vpixel s p /\ vgt v s p = Some l) /\ (forall s p, vpixel s p -> (vgt v s p = Some l <-> vpd v s p = Some l)).
End Perfect.
