(* C140: detection reports of images listed several times. *)
From Verif Require Import Prelude Counting CacheModel CacheSpec SortProofs ClsModel ClsSpec ClsLabelProofs FlowModel DetModel DetExModel DetSpec DetMain DetFlowModel DetApProofs DetReportModel DetEnd DetMore
  DetImage DetImageRank DetReorderSpec DetReorderProofs RepeatSpec RepeatProofs.
From Coq Require Import String QArith Lia.
Local Notation length := List.length (only parsing).
Local Open Scope nat_scope.
Local Open Scope list_scope.

Lemma qdiv_scale n a b : 0 < n -> (qdiv_or_0 (n * a) (n * b) == qdiv_or_0 a b)%Q.
Proof.
  intros Hn. unfold qdiv_or_0. destruct b as [|b]; [rewrite Nat.mul_0_r; reflexivity|].
  destruct (Nat.ltb_spec 0 (n * S b)) as [H|H]; [|nia]. cbn [Nat.ltb Nat.leb]. apply ratio_scale; lia.
Qed.
Lemma f1_equal p p' r r' : (p == p')%Q -> (r == r')%Q -> (f1 p r == f1 p' r')%Q.
Proof.
  intros Hp Hr. unfold f1. destruct (Qlt_le_dec (1 # 1000000000) (p + r)) as [H|H], (Qlt_le_dec (1 # 1000000000) (p' + r')) as [H'|H'];
    [rewrite Hp, Hr; reflexivity|exfalso|exfalso|reflexivity].
  - rewrite Hp, Hr in H. apply (Qlt_not_le _ _ H H').
  - rewrite <- Hp, <- Hr in H'. apply (Qlt_not_le _ _ H' H).
Qed.

Section Det.
  Variables (eps unit : Z) (n : nat) (ds ds' : list detection).
  Hypothesis Hn : 0 < n.
  Hypothesis HC : copies n ds ds'.
  Hypothesis Hu : (0 <= unit)%Z.
  Hypothesis Hin : det_input unit ds.
  Hypothesis Hin' : det_input unit ds'.
  Hypothesis Hfew : few_det_labels ds.
  Hypothesis Hfew' : few_det_labels ds'.
  Variables (sel : detection -> bool) (datums datums' : drow -> bool) (e e' : deval).
  Hypothesis Hs : det_selects ds datums sel.
  Hypothesis Hs' : det_selects ds' datums' sel.
  Hypothesis He : det_evaluator eps unit ds e.
  Hypothesis He' : det_evaluator eps unit ds' e'.

  Section Label.
    Variables (v : string) (vi vi' : nat).
    Hypothesis Hv : label_no e v vi.
    Hypothesis Hv' : label_no e' v vi'.
    Notation i := (Z.of_nat vi).
    Notation i' := (Z.of_nat vi').

    Lemma gts_with_copies : gts_with sel ds' v = n * gts_with sel ds v.
    Proof. apply (copies_sum n ds ds' HC). Qed.
    Lemma rep_gts_copies : rep_gts e' datums' i' = n * rep_gts e datums i.
    Proof.
      rewrite (end_gts eps unit _ Hin' sel datums' Hs' e' He' v vi' Hv'), (end_gts eps unit _ Hin sel datums Hs e He v vi Hv). apply gts_with_copies.
    Qed.
    Section Thr.
      Variables t s : Z.
      Hypothesis Ht : (0 < t)%Z.
      Lemma tp_copies : rep_tp eps e' datums' t s i' = n * rep_tp eps e datums t s i.
      Proof.
        destruct (image_end_counts eps unit _ Hu Hin' sel datums' e' Hs' He' Hfew' v vi' Hv' t s Ht) as [-> _].
        destruct (image_end_counts eps unit _ Hu Hin sel datums e Hs He Hfew v vi Hv t s Ht) as [-> _]. apply (copies_sum n ds ds' HC).
      Qed.
      Lemma fp_copies : rep_fp eps e' datums' t s i' = n * rep_fp eps e datums t s i.
      Proof.
        destruct (image_end_counts eps unit _ Hu Hin' sel datums' e' Hs' He' Hfew' v vi' Hv' t s Ht) as [_ ->].
        destruct (image_end_counts eps unit _ Hu Hin sel datums e Hs He Hfew v vi Hv t s Ht) as [_ ->]. apply (copies_sum n ds ds' HC).
      Qed.
      Lemma fn_copies : few_annotations ds -> few_annotations ds' -> rep_fn eps e' datums' t s i' = (Z.of_nat n * rep_fn eps e datums t s i)%Z.
      Proof.
        intros Ha Ha'. rewrite (end_fn eps unit _ Hin' sel datums' Hs' e' Hu He' Hfew' v vi' Hv' t s Ht Ha'), (end_fn eps unit _ Hin sel datums Hs e Hu He Hfew v vi Hv t s Ht Ha).
        rewrite gts_with_copies, tp_copies, !Nat2Z.inj_mul. ring.
      Qed.
      Lemma precision_copies : (rep_precision eps e' datums' t s i' == rep_precision eps e datums t s i)%Q.
      Proof.
        change (qdiv_or_0 (rep_tp eps e' datums' t s i') (rep_tp eps e' datums' t s i' + rep_fp eps e' datums' t s i')
                == qdiv_or_0 (rep_tp eps e datums t s i) (rep_tp eps e datums t s i + rep_fp eps e datums t s i))%Q.
        rewrite tp_copies, fp_copies, <- Nat.mul_add_distr_l. apply qdiv_scale, Hn.
      Qed.
      Lemma recall_copies : (rep_recall eps e' datums' t s i' == rep_recall eps e datums t s i)%Q.
      Proof.
        change (qdiv_or_0 (rep_tp eps e' datums' t s i') (rep_gts e' datums' i') == qdiv_or_0 (rep_tp eps e datums t s i) (rep_gts e datums i))%Q.
        rewrite tp_copies, rep_gts_copies. apply qdiv_scale, Hn.
      Qed.
      Lemma f1_copies : (rep_f1 eps e' datums' t s i' == rep_f1 eps e datums t s i)%Q.
      Proof. apply f1_equal; [apply precision_copies|apply recall_copies]. Qed.
    End Thr.
    Lemma ar_copies ious s : Forall (fun t => 0 < t)%Z ious -> same_number (rep_ar eps e' datums' ious s i') (rep_ar eps e datums ious s i).
    Proof.
      intros F. unfold rep_ar, average_recall, qmean. destruct ious as [|t0 ts]; [exact I|]. cbn [map]. cbn -[qsum qnat].
      assert (X : forall l, Forall (fun t => 0 < t)%Z l -> (qsum (map (fun t => rep_recall eps e' datums' t s i') l) == qsum (map (fun t => rep_recall eps e datums t s i) l))%Q).
      { intros l. induction 1 as [|t l Ht _ IH]; [reflexivity|]. unfold qsum in *. cbn. rewrite IH, (recall_copies t s Ht). reflexivity. }
      specialize (X (t0 :: ts) F). cbn [map] in X. rewrite X, !map_length. reflexivity.
    Qed.
  End Label.

  Section Matrix.
    Hypothesis Ha : few_annotations ds.
    Hypothesis Ha' : few_annotations ds'.
    Hypothesis Hd : Forall distinct_pd_labels ds.
    Lemma matrix_copies t s :
      (forall gl g g' pl p p', label_no e gl g -> label_no e' gl g' -> label_no e pl p -> label_no e' pl p' ->
        dm (rep_matrix eps e' datums' t s) (Z.of_nat g') (Z.of_nat p') = n * dm (rep_matrix eps e datums t s) (Z.of_nat g) (Z.of_nat p)) /\
      (forall v i i', label_no e v i -> label_no e' v i' ->
        dm_gt (rep_matrix eps e' datums' t s) (Z.of_nat i') = n * dm_gt (rep_matrix eps e datums t s) (Z.of_nat i) /\
        dm_pd (rep_matrix eps e' datums' t s) (Z.of_nat i') = n * dm_pd (rep_matrix eps e datums t s) (Z.of_nat i)).
    Proof.
      assert (Hd' : Forall distinct_pd_labels ds').
      { rewrite Forall_forall in *. intros d H. apply Hd. apply (copies_incl n ds ds' HC d H). }
      destruct (image_end_matching eps unit ds Hin sel datums Hs e He Hfew Ha Hd) as (_ & A1 & A2 & A3 & _).
      destruct (image_end_matching eps unit ds' Hin' sel datums' Hs' e' He' Hfew' Ha' Hd') as (_ & B1 & B2 & B3 & _).
      split.
      - intros gl g g' pl p p' H1 H2 H3 H4. rewrite (B1 t s gl g' pl p' H2 H4), (A1 t s gl g pl p H1 H3). apply (copies_sum n ds ds' HC).
      - intros v i i' H1 H2. rewrite (B2 t s v i' H2), (A2 t s v i H1), (B3 t s v i' H2), (A3 t s v i H1). split; apply (copies_sum n ds ds' HC).
    Qed.
  End Matrix.
End Det.
