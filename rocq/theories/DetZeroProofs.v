(* C143: detection scores equal to zero. *)
From Verif Require Import Prelude Counting CacheModel CacheSpec ClsModel ClsSpec FlowModel DetModel DetExModel DetSpec DetFlowModel DetReportModel DetEnd DetMore PerfectProofs ZeroProofs DetPerfectProofs.
From Coq Require Import String QArith Lia.
Local Notation length := List.length (only parsing).
Local Open Scope nat_scope.
Local Open Scope list_scope.

Section Det.
  Variables (eps unit : Z) (ds : list detection).
  Hypothesis Hin : det_input unit ds.
  Variables (sel : detection -> bool) (datums : drow -> bool).
  Hypothesis Hsel : det_selects ds datums sel.
  Variable e : deval.
  Hypothesis Hu : (0 <= unit)%Z.
  Hypothesis He : det_evaluator eps unit ds e.
  Hypothesis Hfew : few_det_labels ds.
  Variables (v : string) (vi : nat).
  Hypothesis Hv : label_no e v vi.
  Variables (t s : Z).
  Hypothesis Ht : (0 < t)%Z.
  Hypothesis He0 : (0 <= eps)%Z.
  Theorem det_zero : Forall distinct_pd_labels ds -> Forall (no_ties eps) ds -> (Z.of_nat (gts_with sel ds v) < 1000000000)%Z ->
    let never := forall d g a, In d ds -> sel d = true -> nth_error (t_gts d) g = Some a -> has_label v a = true -> detected eps t s d v g = false in
    ((rep_precision eps e datums t s (Z.of_nat vi) == 0)%Q <-> never) /\
    ((rep_recall eps e datums t s (Z.of_nat vi) == 0)%Q <-> never) /\
    ((rep_f1 eps e datums t s (Z.of_nat vi) == 0)%Q <-> never).
  Proof.
    intros Hd Hn Hb never. pose proof (end_tp_spec eps unit ds Hin sel datums Hsel e Hu He Hfew v vi Hv t s Ht He0 Hd Hn) as T. pose proof (end_gts eps unit ds Hin sel datums Hsel e He v vi Hv) as G.
    assert (N : rep_tp eps e datums t s (Z.of_nat vi) = 0 <-> never).
    { rewrite T, gts_where_flat, countb_zero. split.
      - intros A d g a I S N L. specialize (A (d, (g, a))). cbn [fst snd] in A. rewrite L in A. apply A. apply kept_gts_In. rewrite numbered_nth. auto.
      - intros A [d [g a]] I. cbn [fst snd]. apply kept_gts_In in I. rewrite numbered_nth in I. destruct (has_label v a) eqn:L; [|reflexivity]. apply (A d g a); tauto. }
    assert (B : rep_tp eps e datums t s (Z.of_nat vi) <= rep_gts e datums (Z.of_nat vi)).
    { rewrite T, G, gts_where_flat, gts_with_flat. apply countb_mono. intros x _ H. apply andb_true_iff in H. apply H. }
    rewrite <- N. unfold rep_precision, rep_recall, rep_f1, det_f1, det_precision, det_recall. unfold rep_tp in *. split; [|split].
    - apply qdiv_zero. lia.
    - apply qdiv_zero. exact B.
    - apply f1_zero_iff; [lia|exact B|]. rewrite G. exact Hb.
  Qed.
End Det.
