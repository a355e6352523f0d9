(* The metrics of a classification evaluator filtered by metadata. *)
From Verif Require Import Prelude Counting CacheModel CacheSpec ClsModel ClsSpec RocModel RocProofs RocMain RocCurve FlowModel FlowProofs FlowMore
  ClsFilterModel ClsFilterSpec ClsFilterProofs ClsFilterCounts ClsFilterMain ClsFilterRoc DetMetaModel ClsMetaModel ClsMetaSpec ClsMetaProofs.
From Coq Require Import String QArith.
Local Open Scope nat_scope.
Local Open Scope list_scope.

Lemma meta_metrics ms fields schema f P : cls_schema fields = Some schema -> In f (map fst fields) -> one_metadata ms ->
  Forall distinct_candidates (map mc_cls ms) -> few_labels (map mc_cls ms) ->
  forall e a e' e'', cls_evaluator (map mc_cls ms) all_kept e -> c_filtered e a (c_where schema ms f P) e' ->
  cls_evaluator (selected P f ms) all_kept e'' ->
  (forall tol hm thrs k thr l i i', nth_error thrs k = Some thr -> has_number e' l i -> has_number e'' l i' ->
     exists row row' c, nth_error (cls_counts tol hm thrs (fun _ => true) e') k = Some row /\
       nth_error (cls_counts tol hm thrs (fun _ => true) e'') k = Some row' /\ nth_error row i = Some c /\ nth_error row' i' = Some c) /\
  (forall tol9 hm thrs k thr, nth_error thrs k = Some thr ->
     exists M M', nth_error (cls_confusion tol9 hm thrs (fun _ => true) e') k = Some M /\
       nth_error (cls_confusion tol9 hm thrs (fun _ => true) e'') k = Some M' /\
       (forall g p i j i' j', has_number e' g i -> has_number e' p j -> has_number e'' g i' -> has_number e'' p j' ->
          cm M (Z.of_nat i) (Z.of_nat j) = cm M' (Z.of_nat i') (Z.of_nat j')) /\
       (forall g i i', has_number e' g i -> has_number e'' g i' -> cm_unmatched M (Z.of_nat i) = cm_unmatched M' (Z.of_nat i'))) /\
  (forall tol hm thr, (cls_accuracy tol hm thr (fun _ => true) e' == cls_accuracy tol hm thr (fun _ => true) e'')%Q) /\
  (forall l i i', has_number e' l i -> has_number e'' l i' ->
     (origin_kept i (ce_curve e') /\ origin_kept i' (ce_curve e'')) \/ unmixed_top (outcomes l (selected P f ms)) ->
     exists v v', nth_error (cls_rocauc e') i = Some v /\ nth_error (cls_rocauc e'') i' = Some v' /\ (v == v')%Q).
Proof.
  intros Hs Hf U Hd Hfew e a e' e'' He Hfl He''.
  destruct (meta_view ms fields schema f P Hs Hf U all_kept e a e' He Hfl) as (w' & He' & Hw').
  destruct (reduced_selected ms P f w' (ev_acc _ _ _ He)) as [Er Hk].
  { intros m l Hm Hl. rewrite (Hw' m l Hm Hl). reflexivity. }
  rewrite <- Er in He''. split; [|split; [|split]].
  - intros tol hm thrs k thr l i i' Hk' Hi Hi'. apply (reduced_counts (map mc_cls ms) w' e' e'' Hd Hfew He' He'' tol hm thrs k thr l i i' (or_intror Hk) Hk' Hi Hi').
  - intros tol9 hm thrs k thr Hk'. apply (reduced_confusion (map mc_cls ms) w' e' e'' Hd He' He'' tol9 hm thrs k thr (or_intror Hk) Hk').
  - intros tol hm thr. apply (reduced_accuracy (map mc_cls ms) w' e' e'' Hd Hfew He' He'' tol hm thr (or_intror Hk)).
  - intros l i i' Hi Hi' Ho. rewrite <- Er in Ho. apply (reduced_rocauc (map mc_cls ms) Hd w' e' e'' He' He'' l i i' Hi Hi' Ho).
Qed.
