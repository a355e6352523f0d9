(* Counts only depend on which scores reach the threshold (C77). *)
From Verif Require Import Prelude Counting CacheModel DetModel DetFlowModel DetReportModel.
From Coq Require Import Lia.
Local Open Scope nat_scope.
Local Open Scope list_scope.

Lemma flags_ext {A K} (dec : forall a b : K, {a = b} + {a <> b}) (key : A -> K) f g l :
  (forall a, In a l -> f a = g a) -> forall seen, first_flags dec key f seen l = first_flags dec key g seen l.
Proof.
  induction l as [|a l IH]; intros H seen; [reflexivity|]. cbn [first_flags]. rewrite (H a (or_introl eq_refl)).
  rewrite !(IH (fun x Hx => H x (or_intror Hx))). reflexivity.
Qed.

Lemma counts_at_ext eps t s s' rows l : (forall r, In r rows -> (s <=? d_score r)%Z = (s' <=? d_score r)%Z) ->
  det_counts_at eps t s rows l = det_counts_at eps t s' rows l.
Proof.
  intros H. unfold det_counts_at, tp_mask.
  assert (E : first_flags zzz_dec gt_key (tp_inner eps t s) [] rows = first_flags zzz_dec gt_key (tp_inner eps t s') [] rows).
  { apply flags_ext. intros r Hr. unfold tp_inner. rewrite (H r Hr). reflexivity. }
  rewrite E. f_equal. apply countb_ext. intros [r b] Hr. apply in_combine_l in Hr. cbn [fst snd]. unfold fp_inner, tp_inner. rewrite (H r Hr). reflexivity.
Qed.

Lemma rep_counts_ext eps e datums t s s' l : (forall r, In r (List.concat (de_ranked e)) -> (s <=? d_score r)%Z = (s' <=? d_score r)%Z) ->
  rep_counts eps e datums t s l = rep_counts eps e datums t s' l.
Proof.
  intros H. unfold rep_counts, eval_counts. generalize (MkDC 0 0).
  induction (de_ranked e) as [|tb tbs IH]; intros acc; [reflexivity|]. cbn [fold_left]. cbn [List.concat] in H.
  rewrite (counts_at_ext eps t s s'); [apply IH|].
  - intros r Hr. apply H. apply in_app_iff. right. exact Hr.
  - intros r Hr. apply filter_In in Hr. apply H. apply in_app_iff. left. apply Hr.
Qed.
