(* C146: detection metrics of a union. *)
From Verif Require Import Prelude Counting CacheModel CacheSpec ClsModel ClsSpec FlowModel DetModel DetExModel DetSpec DetFlowModel DetReportModel DetEnd DetMore
  DetReorderSpec DetReorderProofs SegReorderSpec UnionProofs.
From Coq Require Import String QArith Lia.
Local Open Scope nat_scope.
Local Open Scope list_scope.

Section Parts.
  Variables (eps unit : Z) (ds1 ds2 : list detection).
  Hypothesis Hu : (0 <= unit)%Z.
  Hypothesis Hin : det_input unit (ds1 ++ ds2).
  Hypothesis Hfew : few_det_labels (ds1 ++ ds2).
  Variables (sel : detection -> bool) (datums1 datums2 datums : drow -> bool) (e1 e2 e : deval).
  Hypothesis Hs1 : det_selects ds1 datums1 sel.
  Hypothesis Hs2 : det_selects ds2 datums2 sel.
  Hypothesis Hs : det_selects (ds1 ++ ds2) datums sel.
  Hypothesis He1 : det_evaluator eps unit ds1 e1.
  Hypothesis He2 : det_evaluator eps unit ds2 e2.
  Hypothesis He : det_evaluator eps unit (ds1 ++ ds2) e.
  Variables (v : string) (k : nat).
  Hypothesis Hk : label_no e v k.
  Variables (t s : Z).
  Hypothesis Ht : (0 < t)%Z.
  Hypothesis Hin1 : det_input unit ds1.
  Hypothesis Hin2 : det_input unit ds2.
  Hypothesis Hfew1 : few_det_labels ds1.
  Hypothesis Hfew2 : few_det_labels ds2.
  Notation K := (Z.of_nat k).

  Theorem union_both i j : label_no e1 v i -> label_no e2 v j ->
    lies_between (rep_precision eps e1 datums1 t s (Z.of_nat i)) (rep_precision eps e2 datums2 t s (Z.of_nat j)) (rep_precision eps e datums t s K) /\
    lies_between (rep_recall eps e1 datums1 t s (Z.of_nat i)) (rep_recall eps e2 datums2 t s (Z.of_nat j)) (rep_recall eps e datums t s K) /\
    ((Z.of_nat (gts_with sel (ds1 ++ ds2) v) < 1000000000)%Z ->
     lies_between (rep_f1 eps e1 datums1 t s (Z.of_nat i)) (rep_f1 eps e2 datums2 t s (Z.of_nat j)) (rep_f1 eps e datums t s K)).
  Proof.
    intros Hi Hj.
    pose proof (parts_gts eps unit ds1 ds2 Hin sel datums1 datums2 datums e1 e2 e Hs1 Hs2 Hs He1 He2 He v k Hk _ _ (or_introl (ex_intro _ i (conj Hi eq_refl))) (or_introl (ex_intro _ j (conj Hj eq_refl)))) as G.
    pose proof (parts_tp eps unit ds1 ds2 Hu Hin Hfew sel datums1 datums2 datums e1 e2 e Hs1 Hs2 Hs He1 He2 He v k Hk t s Ht _ _ (or_introl (ex_intro _ i (conj Hi eq_refl))) (or_introl (ex_intro _ j (conj Hj eq_refl)))) as T.
    pose proof (parts_fp eps unit ds1 ds2 Hu Hin Hfew sel datums1 datums2 datums e1 e2 e Hs1 Hs2 Hs He1 He2 He v k Hk t s Ht _ _ (or_introl (ex_intro _ i (conj Hi eq_refl))) (or_introl (ex_intro _ j (conj Hj eq_refl)))) as F.
    pose proof (end_tp_le eps unit ds1 Hin1 sel datums1 Hs1 e1 Hu He1 Hfew1 v i Hi t s Ht) as L1. rewrite <- (end_gts eps unit ds1 Hin1 sel datums1 Hs1 e1 He1 v i Hi) in L1.
    pose proof (end_tp_le eps unit ds2 Hin2 sel datums2 Hs2 e2 Hu He2 Hfew2 v j Hj t s Ht) as L2. rewrite <- (end_gts eps unit ds2 Hin2 sel datums2 Hs2 e2 He2 v j Hj) in L2.
    pose proof (end_gts eps unit _ Hin sel datums Hs e He v k Hk) as G'.
    unfold rep_precision, rep_recall, rep_f1, det_f1, det_precision, det_recall, rep_tp, rep_fp in *. rewrite G, T, F.
    replace (dc_tp (rep_counts eps e1 datums1 t s (Z.of_nat i)) + dc_tp (rep_counts eps e2 datums2 t s (Z.of_nat j)) + (dc_fp (rep_counts eps e1 datums1 t s (Z.of_nat i)) + dc_fp (rep_counts eps e2 datums2 t s (Z.of_nat j))))
      with (dc_tp (rep_counts eps e1 datums1 t s (Z.of_nat i)) + dc_fp (rep_counts eps e1 datums1 t s (Z.of_nat i)) + (dc_tp (rep_counts eps e2 datums2 t s (Z.of_nat j)) + dc_fp (rep_counts eps e2 datums2 t s (Z.of_nat j)))) by lia.
    split; [apply ratio_between; lia|]. split; [apply ratio_between; assumption|]. intros Hz. apply f1_union_between; try lia; try assumption.
  Qed.
  Theorem union_first i : label_no e1 v i -> (forall j, ~ label_no e2 v j) ->
    rep_precision eps e datums t s K = rep_precision eps e1 datums1 t s (Z.of_nat i) /\ rep_recall eps e datums t s K = rep_recall eps e1 datums1 t s (Z.of_nat i) /\
    rep_f1 eps e datums t s K = rep_f1 eps e1 datums1 t s (Z.of_nat i).
  Proof.
    intros Hi Hj.
    pose proof (parts_gts eps unit ds1 ds2 Hin sel datums1 datums2 datums e1 e2 e Hs1 Hs2 Hs He1 He2 He v k Hk _ _ (or_introl (ex_intro _ i (conj Hi eq_refl))) (or_intror (conj Hj eq_refl))) as G.
    pose proof (parts_tp eps unit ds1 ds2 Hu Hin Hfew sel datums1 datums2 datums e1 e2 e Hs1 Hs2 Hs He1 He2 He v k Hk t s Ht _ _ (or_introl (ex_intro _ i (conj Hi eq_refl))) (or_intror (conj Hj eq_refl))) as T.
    pose proof (parts_fp eps unit ds1 ds2 Hu Hin Hfew sel datums1 datums2 datums e1 e2 e Hs1 Hs2 Hs He1 He2 He v k Hk t s Ht _ _ (or_introl (ex_intro _ i (conj Hi eq_refl))) (or_intror (conj Hj eq_refl))) as F.
    unfold rep_precision, rep_recall, rep_f1, det_f1, det_precision, det_recall, rep_tp, rep_fp in *. rewrite G, T, F, !Nat.add_0_r. repeat split.
  Qed.
  Theorem union_second j : (forall i, ~ label_no e1 v i) -> label_no e2 v j ->
    rep_precision eps e datums t s K = rep_precision eps e2 datums2 t s (Z.of_nat j) /\ rep_recall eps e datums t s K = rep_recall eps e2 datums2 t s (Z.of_nat j) /\
    rep_f1 eps e datums t s K = rep_f1 eps e2 datums2 t s (Z.of_nat j).
  Proof.
    intros Hi Hj.
    pose proof (parts_gts eps unit ds1 ds2 Hin sel datums1 datums2 datums e1 e2 e Hs1 Hs2 Hs He1 He2 He v k Hk _ _ (or_intror (conj Hi eq_refl)) (or_introl (ex_intro _ j (conj Hj eq_refl)))) as G.
    pose proof (parts_tp eps unit ds1 ds2 Hu Hin Hfew sel datums1 datums2 datums e1 e2 e Hs1 Hs2 Hs He1 He2 He v k Hk t s Ht _ _ (or_intror (conj Hi eq_refl)) (or_introl (ex_intro _ j (conj Hj eq_refl)))) as T.
    pose proof (parts_fp eps unit ds1 ds2 Hu Hin Hfew sel datums1 datums2 datums e1 e2 e Hs1 Hs2 Hs He1 He2 He v k Hk t s Ht _ _ (or_intror (conj Hi eq_refl)) (or_introl (ex_intro _ j (conj Hj eq_refl)))) as F.
    unfold rep_precision, rep_recall, rep_f1, det_f1, det_precision, det_recall, rep_tp, rep_fp in *. rewrite G, T, F. repeat split.
  Qed.
End Parts.

Theorem det_union eps unit ds1 ds2 : (0 <= unit)%Z -> det_input unit (ds1 ++ ds2) -> few_det_labels (ds1 ++ ds2) ->
  forall sel datums1 datums2 datums e1 e2 e, det_selects ds1 datums1 sel -> det_selects ds2 datums2 sel -> det_selects (ds1 ++ ds2) datums sel ->
  det_evaluator eps unit ds1 e1 -> det_evaluator eps unit ds2 e2 -> det_evaluator eps unit (ds1 ++ ds2) e ->
  forall v k, label_no e v k -> forall t s, (0 < t)%Z -> (Z.of_nat (gts_with sel (ds1 ++ ds2) v) < 1000000000)%Z ->
  (forall i j, label_no e1 v i -> label_no e2 v j ->
    lies_between (rep_precision eps e1 datums1 t s (Z.of_nat i)) (rep_precision eps e2 datums2 t s (Z.of_nat j)) (rep_precision eps e datums t s (Z.of_nat k)) /\
    lies_between (rep_recall eps e1 datums1 t s (Z.of_nat i)) (rep_recall eps e2 datums2 t s (Z.of_nat j)) (rep_recall eps e datums t s (Z.of_nat k)) /\
    lies_between (rep_f1 eps e1 datums1 t s (Z.of_nat i)) (rep_f1 eps e2 datums2 t s (Z.of_nat j)) (rep_f1 eps e datums t s (Z.of_nat k))) /\
  (forall i, label_no e1 v i -> (forall j, ~ label_no e2 v j) ->
    rep_precision eps e datums t s (Z.of_nat k) = rep_precision eps e1 datums1 t s (Z.of_nat i) /\
    rep_recall eps e datums t s (Z.of_nat k) = rep_recall eps e1 datums1 t s (Z.of_nat i) /\
    rep_f1 eps e datums t s (Z.of_nat k) = rep_f1 eps e1 datums1 t s (Z.of_nat i)) /\
  (forall j, (forall i, ~ label_no e1 v i) -> label_no e2 v j ->
    rep_precision eps e datums t s (Z.of_nat k) = rep_precision eps e2 datums2 t s (Z.of_nat j) /\
    rep_recall eps e datums t s (Z.of_nat k) = rep_recall eps e2 datums2 t s (Z.of_nat j) /\
    rep_f1 eps e datums t s (Z.of_nat k) = rep_f1 eps e2 datums2 t s (Z.of_nat j)).
Proof.
  intros Hu Hin Hfew sel datums1 datums2 datums e1 e2 e Hs1 Hs2 Hs He1 He2 He v k Hk t s Ht Hz.
  destruct (parts_input unit ds1 ds2 Hin) as [Hin1 Hin2]. destruct (parts_few ds1 ds2 Hfew) as [F1 F2]. split; [|split].
  - intros i j Hi Hj. destruct (union_both eps unit ds1 ds2 Hu Hin Hfew sel datums1 datums2 datums e1 e2 e Hs1 Hs2 Hs He1 He2 He v k Hk t s Ht Hin1 Hin2 F1 F2 i j Hi Hj) as (A & B & C). auto.
  - intros i. exact (union_first eps unit ds1 ds2 Hu Hin Hfew sel datums1 datums2 datums e1 e2 e Hs1 Hs2 Hs He1 He2 He v k Hk t s Ht i).
  - intros j. exact (union_second eps unit ds1 ds2 Hu Hin Hfew sel datums1 datums2 datums e1 e2 e Hs1 Hs2 Hs He1 He2 He v k Hk t s Ht j).
Qed.
