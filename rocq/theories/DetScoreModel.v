(* Model of the scores listed by the precision-recall curve of the object detection
   Evaluator.  Definitions only. *)
From Verif Require Import Prelude DetModel DetFlowModel DetReportModel.
Local Open Scope nat_scope.
Local Open Scope list_scope.

Section Scores.
  Variable eps : Z.
  Variable e : deval.
  Variable datums : drow -> bool.   (* datum filter *)

  (* models: object_detection/computation.py:501-514, evaluator.py:449-490: the score
     of a (label, recall) bin *)
  Definition rep_bin_score (t l : Z) (b : nat) : Z :=
    snd (eval_curve eps t (rep_gts e datums) datums (de_ranked e) l b).

  (* models: object_detection/computation.py:585-602: pr_curve[:, :, recall, 1] after
     the descending loop, listed for the bins 0..100; utilities.py:99-108 *)
  Fixpoint run_zmax (c : nat -> Z) (bins : list nat) (rmax : Z) : list Z :=
    match bins with
    | [] => []
    | b :: t => let m := Z.max (c b) rmax in m :: run_zmax c t m
    end.
  Definition rep_pr_scores (t l : Z) : list Z := rev (run_zmax (rep_bin_score t l) (rev (seq 0 101)) 0).
End Scores.
