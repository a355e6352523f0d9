(* Object detection: the report about a label depends on the annotations of this label. *)
From Verif Require Import Prelude Counting CacheModel CacheSpec SortProofs FlowModel ClsModel ClsLabelProofs
  DetModel DetSpec DetMain DetFlowModel DetReportModel DetEnd DetLabelSpec DetLabelProofs DetLabelAp.
From Coq Require Import String Lia QArith.
Local Open Scope nat_scope.
Local Open Scope list_scope.

Definition same_score (x : Z) : Z := x.
Lemma rescored_same T : rescored same_score T = T.
Proof.
  destruct T as (n, l). unfold rescored, same_score. cbn [fst snd]. f_equal. rewrite <- (map_id l) at 2. apply map_ext. intros (a, b). reflexivity.
Qed.
Lemma same_alike sel sel' ds ds' v v' : same_label sel sel' ds ds' v v' -> label_alike same_score sel sel' ds ds' v v'.
Proof.
  intros H. unfold label_alike. induction H as [|d d' l l' (A & B) H IH]; constructor; [|exact IH]. split; [exact A|]. rewrite rescored_same. exact B.
Qed.

Section Same.
  Variables (eps unit : Z) (ds ds' : list detection) (sel sel' : detection -> bool) (datums datums' : drow -> bool) (e e' : deval).
  Hypothesis Hu : (0 <= unit)%Z.
  Hypothesis Hin : det_input unit ds.
  Hypothesis Hin' : det_input unit ds'.
  Hypothesis Hsel : det_selects ds datums sel.
  Hypothesis Hsel' : det_selects ds' datums' sel'.
  Hypothesis He : det_evaluator eps unit ds e.
  Hypothesis He' : det_evaluator eps unit ds' e'.
  Hypothesis Hfew : few_det_labels ds.
  Hypothesis Hfew' : few_det_labels ds'.
  Hypothesis Hone : Forall single_pd_labels ds.
  Hypothesis Hone' : Forall single_pd_labels ds'.
  Variables (v v' : string) (vi vi' : nat).
  Hypothesis Hv : label_no e v vi.
  Hypothesis Hv' : label_no e' v' vi'.
  Hypothesis Hsame : same_label sel sel' ds ds' v v'.

  Theorem same_counts t s : (0 < t)%Z ->
    rep_gts e datums (Z.of_nat vi) = rep_gts e' datums' (Z.of_nat vi') /\
    rep_tp eps e datums t s (Z.of_nat vi) = rep_tp eps e' datums' t s (Z.of_nat vi') /\
    rep_fp eps e datums t s (Z.of_nat vi) = rep_fp eps e' datums' t s (Z.of_nat vi') /\
    rep_fn eps e datums t s (Z.of_nat vi) = rep_fn eps e' datums' t s (Z.of_nat vi') /\
    rep_precision eps e datums t s (Z.of_nat vi) = rep_precision eps e' datums' t s (Z.of_nat vi') /\
    rep_recall eps e datums t s (Z.of_nat vi) = rep_recall eps e' datums' t s (Z.of_nat vi') /\
    rep_f1 eps e datums t s (Z.of_nat vi) = rep_f1 eps e' datums' t s (Z.of_nat vi').
  Proof.
    intros Ht. apply (alike_counts eps unit ds ds' sel sel' datums datums' e e' Hu Hin Hin' Hsel Hsel' He He' Hfew Hfew' Hone Hone' v v' vi vi' Hv Hv' same_score
      (same_alike _ _ _ _ _ _ Hsame) t s s Ht). intros x _. unfold same_score. split; reflexivity.
  Qed.
  Theorem same_ar ious s : Forall (fun t => 0 < t)%Z ious -> rep_ar eps e datums ious s (Z.of_nat vi) = rep_ar eps e' datums' ious s (Z.of_nat vi').
  Proof.
    intros Ht. unfold rep_ar. f_equal. apply map_ext_in. intros t Hi. rewrite Forall_forall in Ht. apply (same_counts t s (Ht t Hi)).
  Qed.
  Theorem same_ap : (0 < eps)%Z -> NoDup (label_scores sel ds v) -> forall t, (0 < t)%Z ->
    rep_ap eps e datums t (Z.of_nat vi) = rep_ap eps e' datums' t (Z.of_nat vi') /\
    rep_pr_curve eps e datums t (Z.of_nat vi) = rep_pr_curve eps e' datums' t (Z.of_nat vi').
  Proof.
    intros Heps Hnd t Ht. apply (alike_ap eps unit ds ds' sel sel' datums datums' e e' Heps Hu Hin Hin' Hsel Hsel' He He' Hfew Hfew' Hone Hone' v v' vi vi' Hv Hv' same_score
      (same_alike _ _ _ _ _ _ Hsame)); [|exact Hnd|exact Ht]. intros x _. unfold same_score. split; [reflexivity|]. intros y _ H. exact H.
  Qed.
End Same.
